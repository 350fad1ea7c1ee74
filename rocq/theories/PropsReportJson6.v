(** C81: when reading a report can crash. *)
From Coq Require Import List NArith Ascii String Bool.
From Verif Require Import Base StrLib SemverModel VerText IdModel PkgModel LockModel DbModel UrlModel CvssText ScanModel AdvModel OsvModel OsvAdvModel ConfigModel DecodeSpec JsonSpec PropsOsvAdv3 AuditModel ReportJsonModel ReportJsonSpec PropsReportJson PropsCrash PropsOsvAdv4 PropsConfig SumModel PropsSource MtimeModel PropsOsvAdv.
Import ListNotations.
Local Open Scope string_scope.

(** [part j' j]: the value [j'] occurs in [j]. *)
Inductive part : json -> json -> Prop :=
| part_self j : part j j
| part_item j' j js : In j js -> part j' j -> part j' (JArr js)
| part_member j' j k t : In (k, j) t -> part j' j -> part j' (JObj t).
(** No text in the document crashes the reading of checksums (C33), no object in it that has lists of requirements crashes the check of
    these (C05-C11). *)
Definition harmless (x : externals) (j : json) : Prop :=
  (forall s, part (JStr s) j -> checksum_from_str s <> Panic) /\
  (forall t p u, part (JObj t) j -> must t "patched" (arr (str (a_req x))) p -> or_else t "unaffected" (arr (str (a_req x))) [] u -> versions_new (x_checks x) p u <> Panic).
Section Part.
  Context (x : externals).
  Lemma harmless_item j js : harmless x (JArr js) -> In j js -> harmless x j.
  Proof. intros [A B] I. split; [intros s P; apply A; exact (part_item _ _ _ I P)|intros t p u P; apply B; exact (part_item _ _ _ I P)]. Qed.
  Lemma harmless_member j k t : harmless x (JObj t) -> In (k, j) t -> harmless x j.
  Proof. intros [A B] I. split; [intros s P; apply A; exact (part_member _ _ _ _ I P)|intros s p u P; apply B; exact (part_member _ _ _ _ I P)]. Qed.
  Lemma jentries_part k j t : In j (jentries k t) -> In (k, j) t.
  Proof.
    unfold jentries. intros I. apply in_map_iff in I as ([k' j'] & <- & I). apply filter_In in I as [I E]. cbn [fst snd] in *. apply String.eqb_eq in E. subst k'. exact I.
  Qed.
  Context {A : Type}.
  Lemma req_in (f : json -> outcome A) k t : harmless x (JObj t) -> (forall j, harmless x j -> f j <> Panic) -> jreq f k t <> Panic.
  Proof. intros H F. unfold jreq. destruct (jentries k t) as [|v [|? ?]] eqn:E; try discriminate. apply F, (harmless_member v k t H), jentries_part. rewrite E. left. reflexivity. Qed.
  Lemma def_in d (f : json -> outcome A) k t : harmless x (JObj t) -> (forall j, harmless x j -> f j <> Panic) -> jdef d f k t <> Panic.
  Proof. intros H F. unfold jdef. destruct (jentries k t) as [|v [|? ?]] eqn:E; try discriminate. apply F, (harmless_member v k t H), jentries_part. rewrite E. left. reflexivity. Qed.
  Lemma list_in (f : json -> outcome A) j : harmless x j -> (forall j, harmless x j -> f j <> Panic) -> d_list f j <> Panic.
  Proof.
    intros H F. unfold d_list. destruct j as [|b|n|s|l|t]; try discriminate. assert (G : forall v, In v l -> f v <> Panic) by (intros v I; apply F, (harmless_item v l H I)).
    clear H. induction l as [|v l IH]; cbn [omap]; [discriminate|]. apply bind_np; [apply G; left; reflexivity|]. intros a. apply bind_np; [apply IH; intros w I; apply G; right; exact I|discriminate].
  Qed.
  Lemma obj_in (f : list (string * json) -> outcome A) j : harmless x j -> (forall t, harmless x (JObj t) -> f t <> Panic) -> d_obj f j <> Panic.
  Proof. intros H F. unfold d_obj. destruct j; try discriminate. apply F. exact H. Qed.
  Lemma map_in {K} cmp (key : string -> outcome K) (val : json -> outcome A) t : (forall s, key s <> Panic) -> (forall j, harmless x j -> val j <> Panic) -> harmless x (JObj t) -> forall m, d_map cmp key val t m <> Panic.
  Proof.
    intros Hk Hv H. assert (G : forall k j, In (k, j) t -> val j <> Panic) by (intros k j I; apply Hv, (harmless_member j k t H I)). clear H. induction t as [|[s j] t IH]; intros m; cbn [d_map]; [discriminate|].
    apply bind_np; [apply Hk|]. intros k. apply bind_np; [apply (G s); left; reflexivity|]. intros v. apply IH. intros k' j' I. apply (G k'). right. exact I.
  Qed.
  Lemma opt_in (f : json -> outcome A) j : harmless x j -> (forall j, harmless x j -> f j <> Panic) -> d_opt f j <> Panic.
  Proof. intros H F. unfold d_opt. destruct j; try discriminate; (apply bind_np; [apply F; exact H|discriminate]). Qed.
End Part.
Lemma jopt_in x {A} (f : json -> outcome A) k t : harmless x (JObj t) -> (forall j, harmless x j -> f j <> Panic) -> jopt f k t <> Panic.
Proof. intros H F. apply (def_in x); [exact H|]. intros j Hj. apply (opt_in x); assumption. Qed.

Section Reading.
  Context (x : externals) (read_time : string -> option gtime).
  Lemma bool_np j : d_bool j <> Panic. Proof. destruct j; discriminate. Qed.
  Lemma nat_np j : d_nat j <> Panic.
  Proof. unfold d_nat. destruct j; try discriminate. destruct (parse_dec _); [|discriminate]. destruct (N.leb _ _); discriminate. Qed.
  Lemma kind_np s : kind_of_str s <> Panic.
  Proof. unfold kind_of_str. repeat (match goal with |- context [if ?b then _ else _] => destruct b end; [discriminate|]). discriminate. Qed.
  Lemma dkind_np j : d_kind j <> Panic.
  Proof. unfold d_kind. destruct j as [|b|n|s|l0|l]; try discriminate; [apply kind_np|]. destruct l as [|[k []] [|? ?]]; try discriminate. apply kind_np. Qed.
  Lemma date_np j : d_date x j <> Panic. Proof. apply from_np. intros. apply date_nopanic. Qed.
  Lemma url_np j : d_url x j <> Panic. Proof. apply from_np. intros. apply of_option_np. Qed.
  Lemma rq_np j : d_req x j <> Panic. Proof. apply from_np. intros. apply of_option_np. Qed.
  Lemma source_np j : d_source_id x j <> Panic. Proof. apply from_np. intros. apply source_nopanic. Qed.
  Lemma semver_np j : d_semver j <> Panic. Proof. apply from_np. intros. apply of_option_np. Qed.
  Lemma coll_np s : collection_from_str s <> Panic.
  Proof. unfold collection_from_str. repeat (match goal with |- context [if ?b then _ else _] => destruct b end; [discriminate|]). discriminate. Qed.
  Lemma sev_np s : severity_from_str s <> Panic.
  Proof. unfold severity_from_str. repeat (match goal with |- context [if ?b then _ else _] => destruct b end; [discriminate|]). discriminate. Qed.
  Ltac leaf := first [apply str_np|apply did_np|apply bool_np|apply nat_np|apply dkind_np|apply date_np|apply url_np|apply rq_np|apply source_np|apply semver_np
    |apply list_np; intros; leaf_from|leaf_from]
  with leaf_from := first [apply str_np|apply did_np|apply url_np|apply rq_np|apply from_np; intros; first [discriminate|apply cvss_nopanic|apply coll_np|apply sev_np|apply of_option_np]].
  Ltac field := match goal with
    | |- obind _ _ <> Panic => apply bind_np; [|intros]
    | |- jreq _ _ _ <> Panic => apply req_np; intros; leaf
    | |- jopt _ _ _ <> Panic => apply jopt_np; intros; leaf
    | |- jdef _ _ _ _ <> Panic => apply def_np; intros; leaf
    | |- Ok _ <> Panic => discriminate
    end.
  Lemma metadata_np j : d_metadata x j <> Panic.
  Proof. unfold d_metadata. apply obj_np. intros t. repeat field. Qed.
  Lemma versions_np j : harmless x j -> d_versions x j <> Panic.
  Proof.
    intros H. unfold d_versions. apply (obj_in x); [exact H|]. intros t Ht.
    destruct (jreq (d_list (d_req x)) "patched" t) as [p| |] eqn:Ep; cbn [obind]; [|discriminate|exfalso; revert Ep; apply req_np; intros; apply list_np, rq_np].
    destruct (jdef [] (d_list (d_req x)) "unaffected" t) as [u| |] eqn:Eu; cbn [obind]; [|discriminate|exfalso; revert Eu; apply def_np; intros; apply list_np, rq_np].
    apply (proj2 Ht t p u (part_self _)).
    - eapply must_iff; [|exact Ep]. intros. apply dlist_iff. intros. apply dfrom_iff. intros. apply of_option_ok.
    - eapply or_else_iff; [|exact Eu]. intros. apply dlist_iff. intros. apply dfrom_iff. intros. apply of_option_ok.
  Qed.
  Lemma affects_np j : d_affects x j <> Panic.
  Proof.
    unfold d_affects. apply obj_np. intros t. do 2 (apply bind_np; [apply def_np; intros; leaf|intros]). apply bind_np; [|discriminate].
    apply def_np. intros v. apply obj_np. intros ft. assert (G : forall m, d_map path_cmp path_from_str (d_list (d_req x)) ft m <> Panic); [|apply G].
    induction ft as [|[k w] ft IH]; intros m; cbn [d_map]; [discriminate|]. apply bind_np; [apply path_nopanic|intros]. apply bind_np; [apply list_np, rq_np|intros]. apply IH.
  Qed.
  Lemma dependency_np j : d_dependency x j <> Panic. Proof. unfold d_dependency. apply obj_np. intros t. repeat field. Qed.
  Lemma pkg_np j : harmless x j -> d_pkg x j <> Panic.
  Proof.
    intros H. unfold d_pkg. apply (obj_in x); [exact H|]. intros t Ht. do 3 (apply bind_np; [field|intros]).
    apply bind_np; [apply (jopt_in x); [exact Ht|]; intros v Hv; unfold d_from; destruct v as [|b|n|s|l|l]; try discriminate; cbn [d_str obind]; apply (proj1 Hv s), part_self|intros].
    apply bind_np; [apply def_np; intros; apply list_np, dependency_np|intros]. apply bind_np; [apply jopt_np, dependency_np|discriminate].
  Qed.
  Lemma vuln_np j : harmless x j -> d_vuln x j <> Panic.
  Proof.
    intros H. unfold d_vuln. apply (obj_in x); [exact H|]. intros t Ht. apply bind_np; [apply req_np, metadata_np|intros]. apply bind_np; [apply (req_in x); [exact Ht|apply versions_np]|intros].
    apply bind_np; [apply jopt_np, affects_np|intros]. apply bind_np; [apply (req_in x); [exact Ht|apply pkg_np]|discriminate].
  Qed.
  Lemma warning_np j : harmless x j -> d_warning x j <> Panic.
  Proof.
    intros H. unfold d_warning. apply (obj_in x); [exact H|]. intros t Ht. apply bind_np; [apply req_np, dkind_np|intros]. apply bind_np; [apply (req_in x); [exact Ht|apply pkg_np]|intros].
    apply bind_np; [apply jopt_np, metadata_np|intros]. apply bind_np; [apply jopt_np, affects_np|intros]. apply bind_np; [apply (jopt_in x); [exact Ht|apply versions_np]|discriminate].
  Qed.
  Lemma settings_np j : d_settings j <> Panic. Proof. unfold d_settings. apply obj_np. intros t. repeat field. Qed.
  Lemma database_np j : d_database read_time j <> Panic.
  Proof.
    unfold d_database. apply obj_np. intros t. apply bind_np; [field|intros]. apply bind_np; [field|intros]. apply bind_np; [|discriminate].
    apply req_np. intros v. apply dopt_np. intros. apply from_np. intros. apply of_option_np.
  Qed.
End Reading.

(** Apart from these two, nothing in a document can crash reading it as a report. *)
Theorem C81_reading_crashes_only_through_checksums_and_versions : forall x read_time j, harmless x j -> report_of_json x read_time j <> Panic.
Proof.
  intros x rt j H. unfold report_of_json. apply (obj_in x); [exact H|]. intros t Ht. apply bind_np; [apply req_np, database_np|intros].
  apply bind_np; [apply req_np; intros; apply obj_np; intros; apply req_np, nat_np|intros]. apply bind_np; [apply req_np, settings_np|intros].
  apply bind_np. { apply (req_in x); [exact Ht|]. intros v Hv. apply (obj_in x); [exact Hv|]. intros u Hu. apply bind_np; [apply req_np, bool_np|intros]. apply bind_np; [apply req_np, nat_np|intros].
    apply bind_np; [|discriminate]. apply (req_in x); [exact Hu|]. intros w Hw. apply (list_in x); [exact Hw|apply vuln_np]. }
  intros v. apply bind_np; [|discriminate]. apply (req_in x); [exact Ht|]. intros w Hw. apply (obj_in x); [exact Hw|]. intros u Hu.
  apply (map_in x); [apply kind_np| |exact Hu]. intros z Hz. apply (list_in x); [exact Hz|apply warning_np].
Qed.
Print Assumptions C81_reading_crashes_only_through_checksums_and_versions.

(** A report whose only package has a checksum of 64 bytes that cuts a character in two crashes the reader; with a proper checksum it is
    read, and nothing in it is harmful. *)
Definition small_report (sum : string) : json :=
  JObj [("database", JObj [("advisory-count", JNum "1"); ("last-commit", JNull); ("last-updated", JNull)]); ("lockfile", JObj [("dependency-count", JNum "1")]);
        ("settings", JObj [("target_arch", JArr []); ("target_os", JArr []); ("severity", JNull); ("ignore", JArr []); ("informational_warnings", JArr [])]);
        ("vulnerabilities", JObj [("found", JBool false); ("count", JNum "0"); ("list", JArr [])]);
        ("warnings", JObj [("yanked", JArr [JObj [("kind", JStr "yanked"); ("package", JObj [("name", JStr "old"); ("version", JStr "0.3.0"); ("checksum", JStr sum)])]])])].
Definition cut_sum : string := "0" ++ repeat_str 31 (String (ascii_of_N 195) (String (ascii_of_N 169) "")) ++ "0".
Definition plain_sum : string := repeat_str 32 "0f".
Theorem C81_reading_never_crashes_refuted : forall x read_time, report_of_json x read_time (small_report cut_sum) = Panic.
Proof. intros x rt. reflexivity. Qed.
Lemma part_inv j' j : part j' j -> j' = j \/ (exists v js, j = JArr js /\ In v js /\ part j' v) \/ (exists v k t, j = JObj t /\ In (k, v) t /\ part j' v).
Proof. intros P. inversion P as [|? v js I Q|? v k t I Q]; subst; [left; reflexivity|right; left; eauto|right; right; eauto 6]. Qed.
Fixpoint texts_in (j : json) : list string :=
  match j with
  | JStr s => [s]
  | JArr js => flat_map texts_in js
  | JObj t => flat_map (fun kv => texts_in (snd kv)) t
  | _ => []
  end.
Lemma part_text s j : part (JStr s) j -> In s (texts_in j).
Proof.
  remember (JStr s) as v eqn:E. intros P. induction P as [j|v j js I P IH|v j k t I P IH]; subst.
  - left. reflexivity.
  - cbn [texts_in]. apply in_flat_map. exists j. auto.
  - cbn [texts_in]. apply in_flat_map. exists (k, j). auto.
Qed.
Fixpoint objects_in (j : json) : list members :=
  match j with
  | JArr js => flat_map objects_in js
  | JObj t => t :: flat_map (fun kv => objects_in (snd kv)) t
  | _ => []
  end.
Lemma part_object t j : part (JObj t) j -> In t (objects_in j).
Proof.
  remember (JObj t) as v eqn:E. intros P. induction P as [j|v j js I P IH|v j k u I P IH]; subst.
  - left. reflexivity.
  - cbn [objects_in]. apply in_flat_map. exists j. auto.
  - cbn [objects_in]. right. apply in_flat_map. exists (k, j). auto.
Qed.
Example C81_reading_nonvacuous : forall x read_time, harmless x (small_report plain_sum) /\ exists r, report_of_json x read_time (small_report plain_sum) = Ok r /\ fr_dependencies r = 1%nat.
Proof.
  intros x rt. split; [split|].
  - intros s P. apply part_text in P. assert (F : forallb (fun s => match checksum_from_str s with Panic => false | _ => true end) (texts_in (small_report plain_sum)) = true) by (vm_compute; reflexivity).
    rewrite forallb_forall in F. specialize (F s P). destruct (checksum_from_str s); congruence.
  - intros t p u P (v & O & _). exfalso. apply part_object in P.
    assert (F : forallb (fun t => negb (existsb (fun kv => String.eqb (fst kv) "patched") t)) (objects_in (small_report plain_sum)) = true) by (vm_compute; reflexivity).
    rewrite forallb_forall in F. specialize (F t P). apply negb_true_iff in F. destruct O as (a & b & -> & _). rewrite existsb_app in F. cbn in F. rewrite orb_true_r in F. discriminate.
  - eexists. split; [reflexivity|]. reflexivity.
Qed.
