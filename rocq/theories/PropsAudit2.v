(** Property theorems C56, C61, C63: end to end, option merging, terminal output. *)
From Coq Require Import List NArith Ascii String Bool Arith Lia.
From Verif Require Import Base SemverModel OsvModel OsvSpec OsvProofs4 PropsOsv VerText IdModel IdProofs PkgModel DbModel DbSpec DbProofs DbProofs2
  PropsDb UrlModel LockModel LockSpec TreeModel TreeSpec PropsTree PlatData PlatModel IndexModel IndexSpec PropsIndex
  AuditModel AuditSpec AuditProofs PropsAudit.
Import ListNotations.
Local Open Scope string_scope.

(** ** C56 *)
(** The advisory's version lists were accepted on loading, and hold genuine requirements. *)
Definition accepted_versions (checks : bool) (a : advisory) : Prop :=
  reqs_wf (patched (a_versions a) ++ unaffected (a_versions a)) /\
  no_silent_overflow checks (patched (a_versions a) ++ unaffected (a_versions a)) /\
  versions_new checks (patched (a_versions a)) (unaffected (a_versions a)) = Ok (a_versions a).
(** With nothing denied and no severity or target filter, the audit fails exactly if some crates.io package of the
    lockfile has a version in none of the ranges that an active, non-informational, not ignored advisory about it
    declares safe. *)
Theorem C56_end_to_end : forall checks c w truth t db l,
  wd_located w = true -> wd_checkout w c = Some t -> db_open t = Ok db -> wd_lockfile w = Ok l ->
  index_answers c w truth -> printable checks c (db_iter db) l ->
  (forall a, In a (db_iter db) -> accepted_versions checks a) ->
  (forall p, In p (lk_packages l) -> version_wf (p_version p) = true) ->
  cf_deny c = [] -> cf_severity c = None -> cf_arch c = None -> cf_os c = None ->
  let finding := exists a p src, In a (db_iter db) /\ In p (lk_packages l) /\
      from_crates_io p /\ p_source p = Some src /\ advisory_location a = (s_kind src, s_url src) /\
      a_collection a = Some Crates /\ a_package a = p_name p /\ a_withdrawn a = None /\ a_informational a = None /\
      ~ In (a_id a) (cf_ignore c) /\
      ~ declared_safe (patched (a_versions a) ++ unaffected (a_versions a)) (p_version p) in
  (finding -> snd (run_audit checks c w) = Exit 1) /\ (~ finding -> snd (run_audit checks c w) = Exit 0).
Proof.
  intros checks c w truth t db l Hl Hc Hd Hf I P HA HV Dn Sv Ar Os finding.
  assert (E : finding <-> must_fail checks c w truth (db_iter db) (lk_packages l)).
  { unfold must_fail. unfold denies. rewrite Dn. cbn [In]. 
    assert (K : forall a p, In a (db_iter db) -> In p (lk_packages l) ->
       (is_vulnerable checks (a_versions a) (p_version p) = Ok true <-> ~ declared_safe (patched (a_versions a) ++ unaffected (a_versions a)) (p_version p))).
    { intros a p Ha Hp. destruct (HA a Ha) as (W & O & V).
      destruct (C01_vulnerable_iff_outside_safe_ranges checks _ _ _ (p_version p) W O (HV p Hp) V) as (b & -> & <-).
      split; [intros K; injection K as ->; reflexivity|intros ->; reflexivity]. }
    unfold finding, vulnerable_finding, concerns. cbn [report_settings st_severity st_arch st_os st_ignore]. rewrite Sv, Ar, Os. cbn [filter_values]. split.
    - intros (a & p & src & Ha & Hp & Hcr & Hs & Hloc & Hco & Hn & Hw & Hi & Hig & Hds). left. exists a, p.
      split; [exact Ha|]. split; [exact Hp|]. split; [|split; [exact Hi|exact Hig]].
      split; [exact Hcr|]. split; [exact Hco|]. split; [exact Hn|]. split; [apply (K a p Ha Hp); exact Hds|].
      split; [intros src' E; rewrite Hs in E; injection E as <-; exact Hloc|]. split; [discriminate|].
      split; [intros af _; split; left; reflexivity|exact Hw].
    - intros [(a & p & Ha & Hp & (Hcr & Hco & Hn & Hv & Hloc & _ & _ & Hw) & Hi & Hig)|[(k & _ & [[]|H] & _)|[([[]|[]] & _)|([] & _)]]].
      2:{ destruct k; contradiction. }
      pose proof Hcr as (src & Hs & _). exists a, p, src.
      split; [exact Ha|]. split; [exact Hp|]. split; [exact Hcr|]. split; [exact Hs|]. split; [exact (Hloc src Hs)|].
      split; [exact Hco|]. split; [exact Hn|]. split; [exact Hw|]. split; [exact Hi|]. split; [exact Hig|].
      apply (K a p Ha Hp); exact Hv. }
  destruct (C26_exit_status checks c w truth t db l Hl Hc Hd Hf I P) as [X Y]. split; intros H; [apply X|apply Y]; rewrite <- E; exact H.
Qed.
Print Assumptions C56_end_to_end.
Example C56_nonvacuous :
  (forall a, In a (db_iter ex_db) -> accepted_versions false a) /\
  (forall p, In p (lk_packages ex_lock) -> version_wf (p_version p) = true) /\
  snd (run_audit false default_config ex_world) = Exit 1 /\
  snd (run_audit false default_config (mkWorld true (fun _ => Some ex_tree) (Ok (mkLock V3 [pkg "base" v200 (Some git_index)] None [] [])) (fun _ => None))) = Exit 0.
Proof.
  split; [|split; [|split; vm_compute; reflexivity]].
  - intros a Ha. assert (V : a_versions a = patched_2).
    { revert Ha. vm_compute. intros [<-|[<-|[<-|[<-|[]]]]]; reflexivity. }
    unfold accepted_versions. rewrite V. split; [|split; [|vm_compute; reflexivity]].
    + intros r Hr. cbn in Hr. destruct Hr as [<-|[]]. reflexivity.
    + right. intros r cc Hr Hc. cbn in Hr. destruct Hr as [<-|[]]. destruct Hc as [<-|[]]. cbn.
      split; [reflexivity|]. split; intros n K; injection K as <-; reflexivity.
  - intros p Hp. cbn in Hp. destruct Hp as [<-|[<-|[<-|[<-|[]]]]]; reflexivity.
Qed.

(** ** C61 *)
Definition covers (d : deny_option) (k : warning_kind) : Prop :=
  match d, k with
  | DWarnings, _ => True
  | DUnmaintained, WUnmaintained => True | DUnsound, WUnsound => True | DYanked, WYanked => True
  | _, _ => False
  end.
Lemma denies_covers c k : denies c k <-> exists d, In d (cf_deny c) /\ covers d k.
Proof.
  unfold denies. split.
  - intros [H|H]; [exists DWarnings; split; [exact H|exact Logic.I]|].
    destruct k; [destruct H|exists DUnmaintained|exists DUnsound|exists DYanked]; split; (exact H || exact Logic.I).
  - intros (d & H & C). destruct d; [left; exact H|right..]; destruct k; try contradiction; exact H.
Qed.
Lemma override_deny_in ds : forall l d, 
  (In d (fold_left override_deny ds l) -> In d l \/ exists e, In e ds /\ (d = e \/ e = DWarnings)) /\
  (In d ds -> In d (fold_left override_deny ds l)) /\
  (In d l -> In d (fold_left override_deny ds l)).
Proof.
  induction ds as [|e ds IH]; intros l d; cbn [fold_left].
  - split; [auto|]. split; [intros []|auto].
  - destruct (IH (override_deny l e) d) as (A & B & C). split; [|split].
    + intros H. apply A in H as [H|(x & Hx & H)]; [|right; exists x; split; [right; exact Hx|exact H]].
      unfold override_deny in H. destruct e; cbn in H.
      * right. exists DWarnings. split; [left; reflexivity|auto].
      * apply in_app_or in H as [H|[<-|[]]]; [auto|]. right. exists DUnmaintained. cbn; auto.
      * apply in_app_or in H as [H|[<-|[]]]; [auto|]. right. exists DUnsound. cbn; auto.
      * apply in_app_or in H as [H|[<-|[]]]; [auto|]. right. exists DYanked. cbn; auto.
    + intros [<-|H]; [|apply B, H]. apply C. unfold override_deny. destruct e; cbn; auto; apply in_or_app; right; left; reflexivity.
    + intros H. apply C. unfold override_deny. destruct e; cbn; try (apply in_or_app; left; exact H). destruct d; auto.
Qed.
Lemma omap_ok_iff {A B} (f : A -> outcome B) l : (exists r, omap f l = Ok r) <-> forall x, In x l -> exists y, f x = Ok y.
Proof.
  induction l as [|x l IH]; cbn [omap].
  - split; [intros _ x []|intros _; eauto].
  - split.
    + intros (r & E). destruct (f x) as [y| |] eqn:F; try discriminate. cbn [obind] in E. destruct (omap f l) as [r'| |]; try discriminate.
      intros z [<-|Hz]; [eauto|]. apply IH; [eauto|exact Hz].
    + intros H. destruct (H x (or_introl eq_refl)) as (y & ->). cbn [obind]. destruct (proj2 IH (fun z Hz => H z (or_intror Hz))) as (r & ->).
      cbn [obind]. eauto.
Qed.
Lemma omap_in {A B} (f : A -> outcome B) l : forall r y, omap f l = Ok r -> (In y r <-> exists x, In x l /\ f x = Ok y).
Proof.
  induction l as [|x l IH]; intros r y E; cbn [omap] in E.
  - injection E as <-. split; [intros []|intros (x & [] & _)].
  - destruct (f x) as [z| |] eqn:F; try discriminate. cbn [obind] in E. destruct (omap f l) as [r'| |] eqn:O; try discriminate.
    cbn [obind] in E. injection E as <-. cbn [In]. rewrite (IH r' y eq_refl). split.
    + intros [<-|(x' & Hx & Fx)]; [exists x; auto|exists x'; auto].
    + intros (x' & [<-|Hx] & Fx); [left; congruence|right; exists x'; auto].
Qed.
Theorem C61_options_override_config : forall l c c', override_config l c = Ok c' ->
  (forall i, In i (cf_ignore c') <-> In i (cf_ignore c) \/ exists s, In s (cl_ignore l) /\ id_from_str s = Ok i) /\
  (forall k, denies c' k <-> denies c k \/ exists d, In d (cl_deny l) /\ covers d k) /\
  (st_arch (report_settings c') = match cl_arch l with [] => st_arch (report_settings c) | a => a end) /\
  (st_os (report_settings c') = match cl_os l with [] => st_os (report_settings c) | a => a end) /\
  (cf_severity c' = cf_severity c /\ cf_info c' = cf_info c) /\
  (cf_fetch c' = true <-> cf_fetch c = true /\ cl_no_fetch l = false) /\
  (cf_stale c' = true <-> cf_stale c = true \/ cl_stale l = true) /\
  (cf_yanked c' = true <-> cf_yanked c = true /\ cl_no_yanked l = false) /\
  (cf_quiet c' = true <-> cf_quiet c = true \/ cl_quiet l = true) /\
  (cf_show_tree c' = true <-> cf_show_tree c = true /\ cl_quiet l = false) /\
  (cl_json l = true -> cf_format c' = FJson) /\
  (cl_json l = false -> forall f, cl_format l = Some f -> cf_format c' = f) /\
  (cl_json l = false -> cl_format l = None -> cf_format c' = cf_format c).
Proof.
  intros l c c' H. unfold override_config in H. destruct (omap id_from_str (cl_ignore l)) as [ids| |] eqn:E; try discriminate.
  cbn [obind] in H. injection H as <-. cbn [cf_ignore cf_deny report_settings st_arch st_os cf_arch cf_os cf_fetch cf_stale cf_yanked cf_quiet cf_show_tree cf_format cf_severity cf_info].
  split; [intros i; rewrite in_app_iff, (omap_in _ _ _ i E); tauto|]. split.
  { intros k. rewrite !denies_covers. cbn [cf_deny]. split.
    - intros (d & Hd & C). apply override_deny_in in Hd as [Hd|(e & He & [->| ->])]; [left; eauto|right; eauto|].
      right. exists DWarnings. split; [exact He|exact Logic.I].
    - intros [(d & Hd & C)|(d & Hd & C)]; exists d; (split; [|exact C]).
      + exact (proj2 (proj2 (override_deny_in _ _ d)) Hd).
      + exact (proj1 (proj2 (override_deny_in _ _ d)) Hd). }
  split; [destruct (cl_arch l); reflexivity|]. split; [destruct (cl_os l); reflexivity|]. split; [auto|].
  split; [rewrite andb_true_iff, negb_true_iff; tauto|]. split; [rewrite orb_true_iff; tauto|].
  split; [destruct (cl_no_yanked l); intuition discriminate|]. split; [rewrite orb_true_iff; tauto|].
  split; [destruct (cl_quiet l); intuition discriminate|].
  split; [intros ->; reflexivity|]. split; [intros -> f ->; reflexivity|intros -> ->; reflexivity].
Qed.
Print Assumptions C61_options_override_config.
Theorem C61_rejected_iff_invalid_id : forall l c,
  (exists c', override_config l c = Ok c') <-> forall s, In s (cl_ignore l) -> exists i, id_from_str s = Ok i.
Proof.
  intros l c. rewrite <- omap_ok_iff. unfold override_config. split.
  - intros (c' & H). destruct (omap id_from_str (cl_ignore l)); try discriminate. eauto.
  - intros (r & ->). cbn [obind]. eauto.
Qed.
Print Assumptions C61_rejected_iff_invalid_id.
Example C61_nonvacuous :
  exists c', override_config (mkCli None [DYanked] ["RUSTSEC-2020-0001"] true false true ["x86_64"] [] None true false (Some FSarif)) ex_config = Ok c' /\
    cf_deny c' = [DUnmaintained; DYanked] /\ st_arch (report_settings c') = ["x86_64"] /\ cf_format c' = FSarif /\
    map id_string (cf_ignore c') = ["RUSTSEC-2020-0001"].
Proof. eexists. split; [vm_compute; reflexivity|]. repeat split. Qed.
