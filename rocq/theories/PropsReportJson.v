(** C81: the JSON report is read as a report iff that is what it says. *)
From Coq Require Import List NArith ZArith Ascii String Bool Arith Lia Sorting.Sorted.
From Verif Require Import Base StrLib SemverModel OsvModel IdModel IdSpec IdProofs PkgModel DbModel DbSpec VerText UrlModel SumModel CvssText CvssTextProofs ScanModel PartsModel
  AdvModel MtimeModel OsvAdvModel AuditModel SarifModel ConfigModel ConfigSpec PropsConfig DecodeSpec PropsDecode JsonSpec Calendar PropsMtime PropsOsvAdv PropsOsvAdv2 PropsOsvAdv3
  ReportJsonModel ReportJsonSpec.
Import ListNotations.
Local Open Scope string_scope.

(** ** Maps *)
Section Map.
  Context {K V : Type} (cmp : K -> K -> comparison) (L : cmp_laws cmp) (key : string -> outcome K) (val : json -> outcome V)
    (KR : string -> K -> Prop) (VR : json -> V -> Prop) (HK : forall s k, key s = Ok k <-> KR s k) (HV : forall j v, val j = Ok v <-> VR j v).
  Let lt (a b : K) : Prop := cmp a b = Lt.
  Lemma bt_insert_in (k : K) (v : V) m k' v' : StronglySorted lt (map fst m) ->
    In (k', v') (bt_insert cmp k v m) <-> (k', v') = (k, v) \/ (k' <> k /\ In (k', v') m).
  Proof.
    induction m as [|[k0 v0] m IH]; cbn [bt_insert map fst]; intros S.
    - cbn [In]. split; [intros [E|[]]; left; congruence|intros [E|[_ []]]; left; congruence].
    - inversion S as [|? ? S' F]; subst. destruct (cmp k k0) eqn:C; cbn [In].
      + apply (cmp_eq_iff _ L) in C. subst k0. split.
        * intros [E|I]; [left; congruence|]. right. split; [|right; exact I]. intros ->. rewrite Forall_forall in F.
          specialize (F k (in_map fst _ _ I)). unfold lt in F. rewrite (proj2 (cmp_eq_iff _ L k k) eq_refl) in F. discriminate.
        * intros [E|[N [E|I]]]; [left; congruence|exfalso; congruence|right; exact I].
      + split.
        * intros [E|[E|I]]; [left; congruence|right|right].
          -- split; [|left; exact E]. intros ->. injection E as -> _. rewrite (proj2 (cmp_eq_iff _ L k k) eq_refl) in C. discriminate.
          -- split; [|right; exact I]. intros ->. rewrite Forall_forall in F. specialize (F k (in_map fst _ _ I)). unfold lt in F.
             pose proof (cmp_trans_lt _ L _ _ _ C F) as T. rewrite (proj2 (cmp_eq_iff _ L k k) eq_refl) in T. discriminate.
        * intros [E|[N [E|I]]]; [left; congruence|right; left; exact E|right; right; exact I].
      + rewrite (IH S'). split.
        * intros [E|[E|[N I]]]; [right|left; exact E|right; split; [exact N|right; exact I]]. split; [|left; exact E].
          intros ->. injection E as -> _. rewrite (proj2 (cmp_eq_iff _ L k k) eq_refl) in C. discriminate.
        * intros [E|[N [E|I]]]; [right; left; exact E|left; exact E|right; right; split; assumption].
  Qed.
  Lemma bt_insert_sorted (k : K) (v : V) m : StronglySorted lt (map fst m) -> StronglySorted lt (map fst (bt_insert cmp k v m)).
  Proof.
    induction m as [|[k0 v0] m IH]; cbn [bt_insert map fst]; intros S; [repeat constructor|].
    inversion S as [|? ? S' F]; subst. destruct (cmp k k0) eqn:C; cbn [map fst].
    - apply (cmp_eq_iff _ L) in C. subst k0. exact S.
    - constructor; [exact S|]. constructor; [exact C|]. rewrite Forall_forall in F |- *. intros z Z. exact (cmp_trans_lt _ L _ _ _ C (F z Z)).
    - constructor; [apply IH; exact S'|]. rewrite Forall_forall in F |- *. intros z Z. apply in_map_iff in Z as ([z' w] & <- & Z).
      apply (bt_insert_in k v m z' w S') in Z as [E|[_ Z]].
      + injection E as -> _. cbn [fst]. unfold lt. rewrite (cmp_antisym _ L), C. reflexivity.
      + apply F. exact (in_map fst _ _ Z).
  Qed.
  Definition final (t : members) (k : K) (v : V) : Prop :=
    exists l s j r, t = (l ++ (s, j) :: r)%list /\ KR s k /\ VR j v /\ forall s' j', In (s', j') r -> ~ KR s' k.
  Lemma d_map_sound t : forall m0 m, StronglySorted lt (map fst m0) -> d_map cmp key val t m0 = Ok m ->
    (forall s j, In (s, j) t -> exists k v, KR s k /\ VR j v) /\ StronglySorted lt (map fst m) /\
    forall k v, In (k, v) m <-> final t k v \/ (In (k, v) m0 /\ forall s j, In (s, j) t -> ~ KR s k).
  Proof.
    induction t as [|[s j] t IH]; intros m0 m S H; cbn [d_map] in H.
    - injection H as <-. split; [intros ? ? []|]. split; [exact S|]. intros k v. split.
      + intros I. right. split; [exact I|intros ? ? []].
      + intros [(l & s & j & r & E & _)|[I _]]; [destruct l; discriminate|exact I].
    - obinv H. rename a into k0, a0 into v0.
      destruct (IH _ _ (bt_insert_sorted k0 v0 m0 S) H) as (A & B & C).
      split. { intros s' j' [E'|I]; [injection E' as <- <-; exists k0, v0; split; [apply HK; exact E|apply HV; exact E0]|exact (A _ _ I)]. }
      split; [exact B|]. intros k v. rewrite C. rewrite (bt_insert_in k0 v0 m0 k v S). split.
      + intros [(l & s' & j' & r & -> & Q)|[[Eq|[N I]] X]].
        * left. exists ((s, j) :: l)%list, s', j', r. split; [reflexivity|exact Q].
        * injection Eq as -> ->. left. exists [], s, j, t. split; [reflexivity|]. split; [apply HK; exact E|]. split; [apply HV; exact E0|exact X].
        * right. split; [exact I|]. intros s' j' [E'|I']; [|exact (X _ _ I')]. injection E' as <- <-. intros R. apply HK in R. congruence.
      + intros [(l & s' & j' & r & Eq & R1 & R2 & X)|[I X]].
        * destruct l as [|e l]; cbn [app] in Eq; [|injection Eq as E1 E2; left; subst e t; exists l, s', j', r; repeat split; assumption].
          injection Eq as E1 E2 E3. subst s' j' r. right. apply HK in R1. apply HV in R2. split; [left; congruence|exact X].
        * right. split; [|intros s' j' I'; exact (X s' j' (or_intror I'))]. right. split; [|exact I].
          intros ->. apply (X s j (or_introl eq_refl)). apply HK. exact E.
  Qed.
  Lemma d_map_total t : forall m0, (forall s j, In (s, j) t -> exists k v, KR s k /\ VR j v) -> exists m, d_map cmp key val t m0 = Ok m.
  Proof.
    induction t as [|[s j] t IH]; intros m0 H; cbn [d_map]; [eexists; reflexivity|].
    destruct (H s j (or_introl eq_refl)) as (k & v & R1 & R2). apply HK in R1. apply HV in R2. rewrite R1. cbn [obind]. rewrite R2. cbn [obind].
    apply IH. intros s' j' I. exact (H _ _ (or_intror I)).
  Qed.
  Lemma sorted_entries (m : list (K * V)) : forall m', StronglySorted lt (map fst m) -> StronglySorted lt (map fst m') -> (forall k v, In (k, v) m <-> In (k, v) m') -> m = m'.
  Proof.
    assert (Irr : forall a, ~ lt a a). { intros a Q. unfold lt in Q. rewrite (proj2 (cmp_eq_iff _ L a a) eq_refl) in Q. discriminate. }
    assert (Tr : forall a b c, lt a b -> lt b c -> lt a c) by exact (cmp_trans_lt _ L).
    induction m as [|[k v] m IH]; intros [|[k' v'] m'] S S' H.
    - reflexivity.
    - exfalso. exact (proj2 (H k' v') (or_introl eq_refl)).
    - exfalso. exact (proj1 (H k v) (or_introl eq_refl)).
    - cbn [map fst] in S, S'. inversion S as [|? ? S1 F]; inversion S' as [|? ? S1' F']; subst. rewrite Forall_forall in F, F'.
      assert (Fm : forall a b, In (a, b) m -> lt k a) by (intros a b I; apply F; exact (in_map fst _ _ I)).
      assert (Fm' : forall a b, In (a, b) m' -> lt k' a) by (intros a b I; apply F'; exact (in_map fst _ _ I)).
      assert (E : (k, v) = (k', v')).
      { destruct (proj1 (H k v) (or_introl eq_refl)) as [E|I]; [congruence|]. destruct (proj2 (H k' v') (or_introl eq_refl)) as [E|I']; [congruence|].
        destruct (Irr k). eapply Tr; [exact (Fm _ _ I')|exact (Fm' _ _ I)]. }
      injection E as <- <-. f_equal. apply IH; try assumption. intros a b. split; intros I.
      + destruct (proj1 (H a b) (or_intror I)) as [E|I']; [|exact I']. injection E as -> ->. destruct (Irr a (Fm _ _ I)).
      + destruct (proj2 (H a b) (or_intror I)) as [E|I']; [|exact I']. injection E as -> ->. destruct (Irr a (Fm' _ _ I)).
  Qed.
  Lemma d_map_iff t m : d_map cmp key val t [] = Ok m <-> says_map (fun a b => cmp a b = Lt) KR VR t m.
  Proof.
    unfold says_map. split.
    - intros H. destruct (d_map_sound t [] m ltac:(constructor) H) as (A & B & C). split; [exact A|]. split; [exact B|].
      intros k v. rewrite C. cbn [In]. unfold final. tauto.
    - intros (A & B & C). destruct (d_map_total t [] A) as (m' & H). rewrite H. f_equal.
      destruct (d_map_sound t [] m' ltac:(constructor) H) as (_ & B' & C'). apply (sorted_entries m' m B' B).
      intros k v. rewrite C, C'. cbn [In]. unfold final. tauto.
  Qed.
End Map.

(** ** Values *)
Lemma dbool_iff j b : d_bool j = Ok b <-> bool_is j b.
Proof. unfold d_bool, bool_is. destruct j; split; congruence. Qed.
Lemma dnat_iff j n : d_nat j = Ok n <-> num j n.
Proof.
  unfold d_nat, num. destruct j; try (split; [discriminate|intros (? & ? & _); discriminate]).
  destruct (parse_dec t) as [v|] eqn:E.
  - apply parse_dec_iff in E as [D <-]. destruct (N.leb_spec (value t) u64_max).
    + split.
      * intros [= <-]. exists t. repeat split; try assumption; try reflexivity; try apply D. symmetry. apply N2Nat.id.
      * intros (s & [= <-] & _ & V & _). rewrite V, Nat2N.id. reflexivity.
    + split; [discriminate|]. intros (s & [= <-] & _ & V & B). lia.
  - split; [discriminate|]. intros (s & [= <-] & D & V & B). rewrite (proj2 (parse_dec_iff t (value t)) (conj D eq_refl)) in E. discriminate.
Qed.
Lemma kind_iff s k : kind_of_str s = Ok k <-> warning_name s k.
Proof.
  unfold kind_of_str, warning_name. split.
  - repeat match goal with |- context [String.eqb s ?n] => destruct (String.eqb_spec s n) as [->|?]; [intros [= <-]; reflexivity|] end. discriminate.
  - destruct k; intros ->; reflexivity.
Qed.
Lemma dkind_iff v k : d_kind v = Ok k <-> says_kind v k.
Proof.
  unfold d_kind, says_kind. split.
  - destruct v as [| | |s| |[|[k' [| | | | |]] [|]]]; try discriminate; intros H; apply kind_iff in H; eexists; (split; [|exact H]); [left|right]; reflexivity.
  - intros (s & [->| ->] & H); apply kind_iff; exact H.
Qed.
Lemma kind_cmp_laws : cmp_laws kind_cmp.
Proof.
  split; unfold kind_cmp.
  - intros x y. rewrite Nat.compare_eq_iff. split; [destruct x, y; discriminate || reflexivity|intros ->; reflexivity].
  - intros x y. rewrite Nat.compare_antisym. reflexivity.
  - intros x y z. rewrite !Nat.compare_lt_iff. lia.
Qed.

Ltac jleaf := first
  [ apply dstr_iff | apply dbool_iff | apply dnat_iff | apply dkind_iff
  | apply dfrom_iff; intros; first [apply of_option_ok | reflexivity | apply category_iff | apply informational_iff | apply license_iff | apply collection_iff | apply severity_iff]
  | apply dlist_iff; intros; jleaf ].
(** Fields one by one, in both directions. *)
Ltac to_says leaf := first
  [eapply must_iff; cycle 1; [eassumption|intros; leaf tt] | eapply or_else_iff; cycle 1; [eassumption|intros; leaf tt] | eapply may_iff; cycle 1; [eassumption|intros; leaf tt]].
Ltac of_says t leaf := repeat (
  lazymatch goal with
  | |- context [jreq ?f ?k t] => match goal with M : must t k _ ?a |- _ => replace (jreq f k t) with (@Ok _ a); [clear M|symmetry; eapply must_iff; [|exact M]; intros; leaf tt] end
  | |- context [jopt ?f ?k t] => match goal with M : may t k _ ?a |- _ => replace (jopt f k t) with (@Ok _ a); [clear M|symmetry; eapply may_iff; [|exact M]; intros; leaf tt] end
  | |- context [jdef ?d ?f ?k t] => match goal with M : or_else t k _ d ?a |- _ => replace (jdef d f k t) with (@Ok _ a); [clear M|symmetry; eapply or_else_iff; [|exact M]; intros; leaf tt] end
  end; cbn [obind]).

Ltac whole H m := apply (f_equal (fun z => match z with Ok u => u | _ => m end)) in H; cbv beta iota in H; subst m.

Section Says.
  Context (x : externals) (read_time : string -> option gtime).
  Lemma dmetadata_iff v m : d_metadata x v = Ok m <-> obj (says_metadata x) v m.
  Proof.
    unfold d_metadata. apply dobj_iff. clear v m. intros t m. split.
    - intros H. obinv H. whole H m. split; to_says ltac:(fun _ => jleaf).
    - intros []. of_says t ltac:(fun _ => jleaf). destruct m; reflexivity.
  Qed.
  Lemma versions_new_is c p u v : versions_new c p u = Ok v -> v = mkVersions p u.
  Proof. unfold versions_new. intros H. obinv H. injection H as <-. reflexivity. Qed.
  Lemma dversions_iff v m : d_versions x v = Ok m <-> obj (says_safe x) v m.
  Proof.
    unfold d_versions. apply dobj_iff. clear v m. intros t m. split.
    - intros H. obinv H. pose proof (versions_new_is _ _ _ _ H). subst m. split; [to_says ltac:(fun _ => jleaf)|to_says ltac:(fun _ => jleaf)|exact H].
    - intros [P U V]. of_says t ltac:(fun _ => jleaf). exact V.
  Qed.
  Lemma dfunctions_iff v (fs : list (list string * list version_req)) : d_obj (fun ft => d_map path_cmp path_from_str (d_list (d_req x)) ft []) v = Ok fs <->
    obj (says_map path_before a_path (arr (str (a_req x)))) v fs.
  Proof.
    apply dobj_iff. intros t a. apply (d_map_iff path_cmp (list_cmp_laws _ str_cmp_laws)); intros; [reflexivity|]. jleaf.
  Qed.
  Lemma daffects_iff v m : d_affects x v = Ok m <-> obj (says_affects x) v m.
  Proof.
    unfold d_affects. apply dobj_iff. clear v m. intros t m. split.
    - intros H. obinv H. whole H m. split; to_says ltac:(fun _ => first [apply dfunctions_iff|jleaf]).
    - intros []. of_says t ltac:(fun _ => first [apply dfunctions_iff|jleaf]). destruct m; reflexivity.
  Qed.
  Lemma ddependency_iff v m : d_dependency x v = Ok m <-> obj (says_dependency x) v m.
  Proof.
    unfold d_dependency. apply dobj_iff. clear v m. intros t m. split.
    - intros H. obinv H. whole H m. split; to_says ltac:(fun _ => jleaf).
    - intros []. of_says t ltac:(fun _ => jleaf). destruct m; reflexivity.
  Qed.
  Lemma dpkg_iff v m : d_pkg x v = Ok m <-> obj (says_pkg x) v m.
  Proof.
    unfold d_pkg. apply dobj_iff. clear v m. intros t m. split.
    - intros H. obinv H. whole H m. split; to_says ltac:(fun _ => first [apply ddependency_iff|apply dlist_iff; intros; apply ddependency_iff|jleaf]).
    - intros []. of_says t ltac:(fun _ => first [apply ddependency_iff|apply dlist_iff; intros; apply ddependency_iff|jleaf]). destruct m; reflexivity.
  Qed.
  Ltac parts := first [apply dmetadata_iff|apply dversions_iff|apply daffects_iff|apply dpkg_iff|jleaf].
  Lemma dvuln_iff v m : d_vuln x v = Ok m <-> obj (says_vuln x) v m.
  Proof.
    unfold d_vuln. apply dobj_iff. clear v m. intros t m. split.
    - intros H. obinv H. whole H m. split; to_says ltac:(fun _ => parts).
    - intros []. of_says t ltac:(fun _ => parts). destruct m; reflexivity.
  Qed.
  Lemma dwarning_iff v m : d_warning x v = Ok m <-> obj (says_warning x) v m.
  Proof.
    unfold d_warning. apply dobj_iff. clear v m. intros t m. split.
    - intros H. obinv H. whole H m. split; to_says ltac:(fun _ => parts).
    - intros []. of_says t ltac:(fun _ => parts). destruct m; reflexivity.
  Qed.
  Lemma dsettings_iff v m : d_settings v = Ok m <-> obj says_settings v m.
  Proof.
    unfold d_settings. apply dobj_iff. clear v m. intros t m. split.
    - intros H. obinv H. whole H m. split; to_says ltac:(fun _ => jleaf).
    - intros []. of_says t ltac:(fun _ => jleaf). destruct m; reflexivity.
  Qed.
  Lemma dtime_iff j o : d_opt (d_from (fun s => of_option (read_time s))) j = Ok o <-> a_time read_time j o.
  Proof.
    assert (D : forall t, d_from (fun s => of_option (read_time s)) j = Ok t <-> str (fun s t => read_time s = Some t) j t)
      by (intros t; apply dfrom_iff; intros; apply of_option_ok).
    unfold a_time. destruct o as [t|].
    - rewrite <- D. destruct j; cbn [d_opt d_from d_str obind]; try (split; discriminate). destruct (of_option (read_time s)); cbn [obind]; split; congruence.
    - destruct j; cbn [d_opt d_from d_str obind]; try (split; [discriminate|congruence]); [split; reflexivity|].
      destruct (of_option (read_time s)); cbn [obind]; split; congruence.
  Qed.
  Lemma ddatabase_iff v m : d_database read_time v = Ok m <-> obj (says_database read_time) v m.
  Proof.
    unfold d_database. apply dobj_iff. clear v m. intros t m. split.
    - intros H. obinv H. whole H m. split; to_says ltac:(fun _ => first [apply dtime_iff|jleaf]).
    - intros []. of_says t ltac:(fun _ => first [apply dtime_iff|jleaf]). destruct m; reflexivity.
  Qed.
  (** *** C81: a JSON value is read as a report iff that is what it says: every field of every finding, warning, package, and of
      the settings and the database, under its own name and at most once. *)
  Lemma reads_exactly : forall j r, report_of_json x read_time j = Ok r <-> obj (says_report x read_time) j r.
  Proof.
    intros j r. unfold report_of_json. apply dobj_iff. clear j r. intros t r.
    assert (Lk : forall v n, d_obj (jreq d_nat "dependency-count") v = Ok n <-> obj (fun t => must t "dependency-count" num) v n).
    { intros v n. apply dobj_iff. intros u a. apply must_iff. intros; jleaf. }
    assert (Wn : forall v ws, d_obj (fun t => d_map kind_cmp kind_of_str (d_list (d_warning x)) t []) v = Ok ws <->
      obj (says_map kind_before warning_name (arr (obj (says_warning x)))) v ws).
    { intros v ws. apply dobj_iff. intros u a. apply (d_map_iff kind_cmp kind_cmp_laws); intros; [apply kind_iff|]. apply dlist_iff. intros; apply dwarning_iff. }
    assert (Vi : forall v (p : bool * nat * list json_vuln), d_obj (fun t => let? f := jreq d_bool "found" t in let? c := jreq d_nat "count" t in
        let? l := jreq (d_list (d_vuln x)) "list" t in Ok (f, c, l)) v = Ok p <->
      obj (fun u p => must u "found" bool_is (fst (fst p)) /\ must u "count" num (snd (fst p)) /\ must u "list" (arr (obj (says_vuln x))) (snd p)) v p).
    { intros v p. apply dobj_iff. clear v p. intros u [[f c] l]. cbn [fst snd]. split.
      - intros H. obinv H. injection H as -> -> ->. repeat split; to_says ltac:(fun _ => first [apply dlist_iff; intros; apply dvuln_iff|jleaf]).
      - intros (H1 & H2 & H3). of_says u ltac:(fun _ => first [apply dlist_iff; intros; apply dvuln_iff|jleaf]). reflexivity. }
    split.
    - intros H. obinv H. whole H r.
      split; [to_says ltac:(fun _ => apply ddatabase_iff)|to_says ltac:(fun _ => apply Lk)|to_says ltac:(fun _ => apply dsettings_iff)| |to_says ltac:(fun _ => apply Wn)].
      apply (must_iff _ _ _ _ _ Vi) in E2. destruct E2 as (v & V & u & -> & H1 & H2 & H3). exists (JObj u). split; [exact V|]. exists u. split; [reflexivity|]. split; assumption.
    - intros [H1 H2 H3 (v & V & u & -> & [G1 G2 G3]) H5].
      assert (H4 : must t "vulnerabilities" (obj (fun u p => must u "found" bool_is (fst (fst p)) /\ must u "count" num (snd (fst p)) /\ must u "list" (arr (obj (says_vuln x))) (snd p)))
        (fr_found r, fr_count r, fr_list r)) by (exists (JObj u); split; [exact V|exists u; repeat split; assumption]).
      of_says t ltac:(fun _ => first [apply ddatabase_iff|apply Lk|apply dsettings_iff|apply Vi|apply Wn]). destruct r; reflexivity.
  Qed.
End Says.
Theorem C81_reads_exactly : forall x read_time j r, report_of_json x read_time j = Ok r <-> obj (says_report x read_time) j r.
Proof. exact reads_exactly. Qed.
