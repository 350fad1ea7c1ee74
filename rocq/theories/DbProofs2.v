From Coq Require Import List NArith Ascii String Bool Arith Lia.
From Verif Require Import Base SemverModel OsvModel StrLib IdModel IdSpec PkgModel DbModel DbSpec DbProofs.
Import ListNotations.
Local Open Scope string_scope.

Lemma default_registry_eq s : is_default_registry s = crates_io_source s.
Proof.
  unfold is_default_registry, crates_io_source.
  change (substring 7 (String.length CRATES_IO_SPARSE_INDEX - 7) CRATES_IO_SPARSE_INDEX) with "https://index.crates.io/".
  unfold CRATES_IO_INDEX. destruct (s_kind s); cbn [source_kind_eqb andb orb]; rewrite ?orb_false_r; reflexivity.
Qed.
Lemma crates_io_package_iff p : crates_io_package p = true <-> from_crates_io p.
Proof.
  unfold crates_io_package, from_crates_io, crates_io_source. split.
  - destruct (p_source p) as [s|]; [|discriminate]. intros H. exists s. split; [reflexivity|].
    destruct (s_kind s) eqn:E; try discriminate; apply String.eqb_eq in H; auto.
  - intros (s & E & H). rewrite E. destruct H as [[E1 E2]|[E1 E2]]; rewrite E1, E2; reflexivity.
Qed.

(** The list of findings a query denotes. *)
Definition findings (checks : bool) (advs : list advisory) (pkgs : list package) (q : query) : list vulnerability :=
  flat_map (fun p => map (fun a => mkVuln a p) (filter (matches checks (query_package q p)) advs))
           (filter crates_io_package pkgs).

Lemma query_vulnerabilities_spec checks t db pkgs q : db_open t = Ok db ->
  query_vulnerabilities checks db pkgs q = Ok (findings checks (db_iter db) pkgs q).
Proof.
  intros H. unfold findings. induction pkgs as [|p pkgs IH]; [reflexivity|]. cbn [query_vulnerabilities filter].
  unfold crates_io_package at 1. destruct (p_source p) as [s|]; [|exact IH].
  rewrite default_registry_eq. destruct (crates_io_source s); cbn [negb]; [|exact IH].
  rewrite (db_query_spec checks t db _ H), IH. reflexivity.
Qed.

Lemma findings_in checks advs pkgs q v : In v (findings checks advs pkgs q) <->
  In (v_advisory v) advs /\ In (v_package v) pkgs /\ from_crates_io (v_package v) /\
  selects checks (query_package q (v_package v)) (v_advisory v).
Proof.
  unfold findings. rewrite in_flat_map. split.
  - intros (p & Hp & Hv). apply filter_In in Hp as [Hp Hc]. apply in_map_iff in Hv as (a & <- & Ha).
    apply filter_In in Ha as [Ha Hm]. apply matches_iff in Hm. apply crates_io_package_iff in Hc. cbn. auto.
  - intros (Ha & Hp & Hc & Hm). exists (v_package v). split; [apply filter_In; split; [exact Hp|apply crates_io_package_iff; exact Hc]|].
    apply in_map_iff. exists (v_advisory v). split; [destruct v; reflexivity|]. apply filter_In. split; [exact Ha|].
    apply matches_iff. exact Hm.
Qed.

Lemma settings_query_concerns checks s a p :
  from_crates_io p /\ selects checks (query_package (settings_query s) p) a <->
  concerns checks s a p /\ a_informational a = None.
Proof.
  unfold selects, concerns, query_package, settings_query. cbn.
  rewrite !if_set_some. unfold if_set. split.
  - intros (F & H1 & H2 & H3 & H4 & H5 & H6 & _ & H8 & H9). repeat split; auto.
    + apply H6; assumption. + apply H6; assumption.
    + destruct (a_withdrawn a); [|reflexivity]. destruct H8 as [_ H8]. exfalso. assert (false = true) by (apply H8; discriminate). discriminate.
    + destruct (a_informational a); [|reflexivity]. destruct H9 as [_ H9]. exfalso. assert (false = true) by (apply H9; discriminate). discriminate.
  - intros ((F & H1 & H2 & H3 & H4 & H5 & H6 & H7) & H8). repeat split; eauto; try discriminate; try congruence; apply H6; assumption.
Qed.
Lemma info_query_concerns checks s a p :
  from_crates_io p /\ selects checks (query_package (with_informational (settings_query s) true) p) a <->
  concerns checks s a p /\ a_informational a <> None.
Proof.
  unfold selects, concerns, query_package, settings_query, with_informational. cbn.
  rewrite !if_set_some. unfold if_set. split.
  - intros (F & H1 & H2 & H3 & H4 & H5 & H6 & _ & H8 & H9). repeat split; auto.
    + apply H6; assumption. + apply H6; assumption.
    + destruct (a_withdrawn a); [|reflexivity]. destruct H8 as [_ H8]. exfalso. assert (false = true) by (apply H8; discriminate). discriminate.
    + apply H9. reflexivity.
  - intros ((F & H1 & H2 & H3 & H4 & H5 & H6 & H7) & H8). repeat split; eauto; try discriminate; try congruence; apply H6; assumption.
Qed.

Lemma ignored_iff s a : ignored s a = true <-> In (a_id a) (st_ignore s).
Proof.
  unfold ignored. rewrite existsb_exists. split.
  - intros (i & Hi & E). destruct (id_eqb_spec (a_id a) i); [subst; exact Hi|discriminate].
  - intros H. exists (a_id a). split; [exact H|]. destruct (id_eqb_spec (a_id a) (a_id a)); congruence.
Qed.

(** ** Warnings *)
Definition info_kind (s : settings) (a : advisory) : option warning_kind :=
  match a_informational a with
  | Some i => if existsb (fun j => informational_eqb j i) (st_info s) then warning_kind_of i else None
  | None => None
  end.
Definition wanted (s : settings) (k : warning_kind) (a : advisory) : bool :=
  (negb (ignored s a) && match info_kind s a with Some k' => warning_kind_eqb k' k | None => false end)%bool.
Definition to_warning (k : warning_kind) (v : vulnerability) : warning := mkWarning k (v_package v) (Some (v_advisory v)).

Lemma winfo_get_push w m k : winfo_get k (winfo_push w m) =
  if warning_kind_eqb (w_kind w) k then (winfo_get k m ++ [w])%list else winfo_get k m.
Proof.
  induction m as [|[k' ws] m IH]; cbn [winfo_push winfo_get].
  - reflexivity.
  - destruct (warning_kind_eqb_spec k' (w_kind w)) as [->|n]; cbn [winfo_get].
    + destruct (warning_kind_eqb_spec (w_kind w) k); reflexivity.
    + destruct (warning_kind_eqb_spec k' k) as [->|n'].
      * destruct (warning_kind_eqb_spec (w_kind w) k); [congruence|reflexivity].
      * exact IH.
Qed.
Definition winfo_ok (m : warning_info) : Prop := NoDup (map fst m) /\ forall k ws, In (k, ws) m -> ws <> [].
Lemma winfo_push_keys w m x : In x (map fst (winfo_push w m)) <-> In x (map fst m) \/ x = w_kind w.
Proof.
  induction m as [|[k ws] m IH]; cbn [winfo_push map fst In].
  - split; [intros [<-|[]]; auto|intros [[]| ->]; auto].
  - destruct (warning_kind_eqb_spec k (w_kind w)) as [->|n]; cbn [map fst In].
    + split; [tauto|]. intros [H| ->]; auto.
    + rewrite IH. tauto.
Qed.
Lemma winfo_push_ok w m : winfo_ok m -> winfo_ok (winfo_push w m).
Proof.
  intros [H1 H2]. split.
  - induction m as [|[k ws] m IH]; cbn [winfo_push map fst]; [repeat constructor; intros []|].
    cbn [map fst] in H1. inversion H1 as [|? ? N1 N2]; subst.
    destruct (warning_kind_eqb_spec k (w_kind w)) as [E|n]; cbn [map fst]; [constructor; assumption|].
    constructor; [|apply IH; [exact N2|intros k0 ws0 H0; eapply H2; right; exact H0]].
    rewrite winfo_push_keys. intros [C|C]; auto.
  - induction m as [|[k ws] m IH]; cbn [winfo_push].
    + intros k ws [E|[]]. injection E as <- <-. discriminate.
    + cbn [map fst] in H1. inversion H1 as [|? ? N1 N2]; subst.
      destruct (warning_kind_eqb_spec k (w_kind w)) as [E|n]; intros k0 ws0 [E0|H0].
      * injection E0 as <- <-. destruct ws; discriminate.
      * eapply H2. right; exact H0.
      * injection E0 as <- <-. eapply H2. left; reflexivity.
      * eapply IH; [exact N2| |exact H0]. intros k1 ws1 H3. eapply H2. right; exact H3.
Qed.

Lemma existsb_info s i (A : option informational) : A = Some i ->
  existsb (fun j => match A with Some i' => informational_eqb j i' | None => false end) (st_info s)
  = existsb (fun j => informational_eqb j i) (st_info s).
Proof. intros ->. reflexivity. Qed.

Lemma warning_loop_spec s vs : forall m, winfo_ok m ->
  exists m', warning_loop s vs m = Ok m' /\ winfo_ok m' /\
    forall k, winfo_get k m' = (winfo_get k m ++ map (to_warning k) (filter (fun v => wanted s k (v_advisory v)) vs))%list.
Proof.
  induction vs as [|v vs IH]; intros m Hm; cbn [warning_loop].
  - exists m. split; [reflexivity|]. split; [exact Hm|]. intros k. cbn. rewrite app_nil_r. reflexivity.
  - cbn [filter]. unfold wanted. fold (wanted s).
    destruct (ignored s (v_advisory v)) eqn:Ei.
    { destruct (IH m Hm) as (m' & E & O & G). exists m'. split; [exact E|]. split; [exact O|]. intros k. rewrite G. cbn [negb andb]. reflexivity. }
    cbn [negb andb]. unfold info_kind. destruct (a_informational (v_advisory v)) as [i|] eqn:Ea.
    + destruct (existsb (fun j => informational_eqb j i) (st_info s)); cbn [negb].
      * destruct (warning_kind_of i) as [k0|].
        -- destruct (IH _ (winfo_push_ok (mkWarning k0 (v_package v) (Some (v_advisory v))) m Hm)) as (m' & E & O & G).
           exists m'. split; [exact E|]. split; [exact O|]. intros k. rewrite G, winfo_get_push. cbn [w_kind].
           destruct (warning_kind_eqb_spec k0 k) as [->|n]; [|reflexivity]. rewrite <- app_assoc. reflexivity.
        -- destruct (IH m Hm) as (m' & E & O & G). exists m'. auto.
      * destruct (IH m Hm) as (m' & E & O & G). exists m'. auto.
    + assert (X : existsb (fun _ : informational => false) (st_info s) = false).
      { clear. induction (st_info s); auto. }
      rewrite X. cbn [negb]. destruct (IH m Hm) as (m' & E & O & G). exists m'. auto.
Qed.

Lemma wanted_iff s k a : wanted s k a = true <->
  ~ In (a_id a) (st_ignore s) /\ exists i, a_informational a = Some i /\ In i (st_info s) /\ warning_kind_of i = Some k.
Proof.
  unfold wanted. rewrite andb_true_iff, negb_true_iff, <- not_true_iff_false, ignored_iff.
  assert (K : match info_kind s a with Some k' => warning_kind_eqb k' k | None => false end = true <->
     exists i, a_informational a = Some i /\ In i (st_info s) /\ warning_kind_of i = Some k); [|rewrite K; tauto].
  unfold info_kind. destruct (a_informational a) as [i|].
  - destruct (existsb (fun j => informational_eqb j i) (st_info s)) eqn:E.
    + apply existsb_exists in E as (j & Hj & E). destruct (informational_eqb_spec j i) as [->|]; [|discriminate].
      destruct (warning_kind_of i) as [k'|] eqn:Ek.
      * destruct (warning_kind_eqb_spec k' k) as [->|n].
        -- split; [intros _; exists i; auto|reflexivity].
        -- split; [discriminate|]. intros (i' & Ei & _ & Ek'). injection Ei as <-. congruence.
      * split; [discriminate|]. intros (i' & Ei & _ & Ek'). injection Ei as <-. congruence.
    + split; [discriminate|]. intros (i' & Ei & Hi & _). injection Ei as <-. exfalso.
      assert (existsb (fun j => informational_eqb j i) (st_info s) = true); [|congruence].
      apply existsb_exists. exists i. split; [exact Hi|]. destruct (informational_eqb_spec i i); congruence.
  - split; [discriminate|]. intros (i' & Ei & _); discriminate.
Qed.

(** ** Reports *)
Lemma report_spec checks t db pkgs s : db_open t = Ok db ->
  exists r, report_generate checks db pkgs s = Ok r /\
    r_dependency_count r = List.length pkgs /\ r_settings r = s /\
    vi_list (r_vulns r) = filter (fun v => negb (ignored s (v_advisory v))) (findings checks (db_iter db) pkgs (settings_query s)) /\
    vi_count (r_vulns r) = List.length (vi_list (r_vulns r)) /\
    (vi_found (r_vulns r) = true <-> vi_list (r_vulns r) <> []) /\
    winfo_ok (r_warnings r) /\
    forall k, winfo_get k (r_warnings r) =
      map (to_warning k) (filter (fun v => wanted s k (v_advisory v))
        (findings checks (db_iter db) pkgs (with_informational (settings_query s) true))).
Proof.
  intros H. unfold report_generate, find_warnings. rewrite !(query_vulnerabilities_spec checks t db pkgs _ H). cbn [obind].
  destruct (warning_loop_spec s (findings checks (db_iter db) pkgs (with_informational (settings_query s) true)) [])
    as (m' & E & O & G).
  { split; [constructor|intros k ws []]. }
  rewrite E. cbn [obind]. eexists. split; [reflexivity|]. cbn. repeat split; auto; try apply O.
  all: match goal with |- context [match ?l with [] => true | _ :: _ => false end] => destruct l end; cbn; congruence.
Qed.

Lemma report_vuln_in checks t db pkgs s r v : db_open t = Ok db -> report_generate checks db pkgs s = Ok r ->
  (In v (vi_list (r_vulns r)) <->
   In (v_advisory v) (db_iter db) /\ In (v_package v) pkgs /\ concerns checks s (v_advisory v) (v_package v) /\
   a_informational (v_advisory v) = None /\ ~ In (a_id (v_advisory v)) (st_ignore s)).
Proof.
  intros H Hr. destruct (report_spec checks t db pkgs s H) as (r' & E & _ & _ & El & _). rewrite Hr in E. injection E as <-.
  rewrite El, filter_In, findings_in, negb_true_iff, <- not_true_iff_false, ignored_iff.
  pose proof (settings_query_concerns checks s (v_advisory v) (v_package v)). tauto.
Qed.
Lemma report_warning_in checks t db pkgs s r k w : db_open t = Ok db -> report_generate checks db pkgs s = Ok r ->
  (In w (winfo_get k (r_warnings r)) <->
   exists a i, w = mkWarning k (w_package w) (Some a) /\ In a (db_iter db) /\ In (w_package w) pkgs /\
     concerns checks s a (w_package w) /\ a_informational a = Some i /\ In i (st_info s) /\
     warning_kind_of i = Some k /\ ~ In (a_id a) (st_ignore s)).
Proof.
  intros H Hr. destruct (report_spec checks t db pkgs s H) as (r' & E & _ & _ & _ & _ & _ & _ & G). rewrite Hr in E. injection E as <-.
  rewrite G, in_map_iff. split.
  - intros (v & <- & Hv). apply filter_In in Hv as [Hv Hw]. apply findings_in in Hv as (H1 & H2 & H3 & H4).
    apply wanted_iff in Hw as (H5 & i & H6 & H7 & H8).
    destruct (proj1 (info_query_concerns checks s (v_advisory v) (v_package v)) (conj H3 H4)) as [C _].
    exists (v_advisory v), i. cbn [w_package to_warning].
    split; [reflexivity|]. split; [exact H1|]. split; [exact H2|]. split; [exact C|]. auto.
  - intros (a & i & Ew & Ha & Hp & C & Hi & Hin & Hk & Hig). exists (mkVuln a (w_package w)). split.
    + symmetry. exact Ew.
    + apply filter_In. cbn. split.
      * apply findings_in. cbn.
        assert (N : a_informational a <> None) by congruence.
        destruct (proj2 (info_query_concerns checks s a (w_package w)) (conj C N)) as [C1 C2]. auto.
      * apply wanted_iff. split; [exact Hig|]. exists i. auto.
Qed.

(** ** Severity thresholds *)
Lemma bool_eq_iff (a b : bool) : (a = true <-> b = true) -> a = b.
Proof. destruct a, b; intuition congruence. Qed.

Lemma filter_flat_map {A B} (P : B -> bool) (f : A -> list B) l :
  filter P (flat_map f l) = flat_map (fun x => filter P (f x)) l.
Proof. induction l as [|x l IH]; [reflexivity|]. cbn. rewrite filter_app, IH. reflexivity. Qed.
Lemma filter_map_comm {A B} (P : B -> bool) (f : A -> B) l : filter P (map f l) = map f (filter (fun x => P (f x)) l).
Proof. induction l as [|x l IH]; [reflexivity|]. cbn. destruct (P (f x)); cbn; rewrite IH; reflexivity. Qed.
Lemma filter_filter {A} (f g : A -> bool) l : filter f (filter g l) = filter (fun x => (f x && g x)%bool) l.
Proof.
  induction l as [|x l IH]; [reflexivity|]. cbn. destruct (g x) eqn:G; cbn; destruct (f x); cbn; rewrite IH; reflexivity.
Qed.
Lemma flat_map_ext' {A B} (f g : A -> list B) l : (forall x, f x = g x) -> flat_map f l = flat_map g l.
Proof. intros H. induction l as [|x l IH]; [reflexivity|]. cbn. rewrite H, IH. reflexivity. Qed.

Lemma findings_filter checks advs pkgs q q' (P : advisory -> bool) :
  (forall p a, matches checks (query_package q' p) a = (P a && matches checks (query_package q p) a)%bool) ->
  findings checks advs pkgs q' = filter (fun v => P (v_advisory v)) (findings checks advs pkgs q).
Proof.
  intros H. unfold findings. rewrite filter_flat_map. apply flat_map_ext'. intros p.
  rewrite filter_map_comm. cbn [v_advisory]. rewrite filter_filter. f_equal. apply filter_ext. intros a. apply H.
Qed.

Lemma severity_matches checks s lower t b p a : at_least lower t ->
  matches checks (query_package (with_informational (settings_query (with_severity s (Some t))) b) p) a =
  (reaches t a && matches checks (query_package (with_informational (settings_query (with_severity s lower)) b) p) a)%bool.
Proof.
  intros Hl. apply bool_eq_iff. rewrite andb_true_iff, !matches_iff. unfold selects. cbn.
  assert (K : if_set (Some t) (fun t0 => if_set (a_severity a) (fun s0 => severity_rank t0 <= severity_rank s0)) <->
     reaches t a = true /\ if_set lower (fun t0 => if_set (a_severity a) (fun s0 => severity_rank t0 <= severity_rank s0))).
  { rewrite if_set_some. unfold reaches. destruct (a_severity a) as [sv|].
    - rewrite if_set_some, Nat.leb_le. split; [|tauto]. intros H. split; [exact H|]. intros l ->. rewrite if_set_some. cbn in Hl. lia.
    - rewrite if_set_none. split; [|tauto]. intros _. split; [reflexivity|]. intros l _. rewrite if_set_none. exact I. }
  rewrite K. tauto.
Qed.
Lemma severity_matches' checks s lower t p a : at_least lower t ->
  matches checks (query_package (settings_query (with_severity s (Some t))) p) a =
  (reaches t a && matches checks (query_package (settings_query (with_severity s lower)) p) a)%bool.
Proof. exact (severity_matches checks s lower t false p a). Qed.

Lemma filter_comm {A} (f g : A -> bool) l : filter f (filter g l) = filter g (filter f l).
Proof. rewrite !filter_filter. apply filter_ext. intros. apply andb_comm. Qed.

Theorem report_severity checks t db pkgs s lower th r r' : db_open t = Ok db -> at_least lower th ->
  report_generate checks db pkgs (with_severity s lower) = Ok r ->
  report_generate checks db pkgs (with_severity s (Some th)) = Ok r' ->
  vi_list (r_vulns r') = filter (fun v => reaches th (v_advisory v)) (vi_list (r_vulns r)) /\
  forall k, winfo_get k (r_warnings r') =
    filter (fun w => match w_advisory w with Some a => reaches th a | None => true end) (winfo_get k (r_warnings r)).
Proof.
  intros H Hl E1 E2.
  destruct (report_spec checks t db pkgs (with_severity s lower) H) as (x & X & _ & _ & V1 & _ & _ & _ & W1).
  destruct (report_spec checks t db pkgs (with_severity s (Some th)) H) as (y & Y & _ & _ & V2 & _ & _ & _ & W2).
  rewrite E1 in X. rewrite E2 in Y. injection X as <-. injection Y as <-. split.
  - rewrite V1, V2.
    rewrite (findings_filter checks (db_iter db) pkgs (settings_query (with_severity s lower)) _ (reaches th))
      by (intros; apply severity_matches'; exact Hl).
    apply filter_comm.
  - intros k. rewrite W1, W2.
    rewrite (findings_filter checks (db_iter db) pkgs (with_informational (settings_query (with_severity s lower)) true) _ (reaches th))
      by (intros; apply severity_matches; exact Hl).
    rewrite filter_map_comm. cbn [to_warning w_advisory]. f_equal. apply filter_comm.
Qed.

(** ** Ignore list *)
Lemma ignored_cons s i a : ignored (with_ignored s i) a = (id_eqb (a_id a) i || ignored s a)%bool.
Proof. reflexivity. Qed.
Theorem report_ignore checks t db pkgs s i r r' : db_open t = Ok db ->
  report_generate checks db pkgs s = Ok r -> report_generate checks db pkgs (with_ignored s i) = Ok r' ->
  vi_list (r_vulns r') = filter (fun v => negb (id_eqb (a_id (v_advisory v)) i)) (vi_list (r_vulns r)) /\
  forall k, winfo_get k (r_warnings r') =
    filter (fun w => match w_advisory w with Some a => negb (id_eqb (a_id a) i) | None => true end) (winfo_get k (r_warnings r)).
Proof.
  intros H E1 E2.
  destruct (report_spec checks t db pkgs s H) as (x & X & _ & _ & V1 & _ & _ & _ & W1).
  destruct (report_spec checks t db pkgs (with_ignored s i) H) as (y & Y & _ & _ & V2 & _ & _ & _ & W2).
  rewrite E1 in X. rewrite E2 in Y. injection X as <-. injection Y as <-. split.
  - rewrite V1, V2. change (settings_query (with_ignored s i)) with (settings_query s).
    rewrite filter_filter. apply filter_ext. intros v. rewrite ignored_cons. rewrite negb_orb. reflexivity.
  - intros k. rewrite W1, W2. change (settings_query (with_ignored s i)) with (settings_query s).
    rewrite filter_map_comm. f_equal. cbn [to_warning w_advisory]. rewrite filter_filter. apply filter_ext. intros v.
    unfold wanted. rewrite ignored_cons, negb_orb. change (info_kind (with_ignored s i)) with (info_kind s).
    rewrite andb_assoc. reflexivity.
Qed.
