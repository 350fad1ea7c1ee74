(** Property theorems C26, C27, C56, C61, C63: the `cargo audit` command. *)
From Coq Require Import List NArith Ascii String Bool Arith Lia.
From Verif Require Import Base SemverModel OsvModel OsvSpec OsvProofs4 VerText IdModel PkgModel DbModel DbSpec DbProofs DbProofs2
  PropsDb UrlModel LockModel LockSpec TreeModel TreeSpec PropsTree PlatData PlatModel IndexModel IndexSpec PropsIndex
  AuditModel AuditSpec AuditProofs.
Import ListNotations.
Local Open Scope string_scope.

(** ** Exit status *)
Lemma auditor_new_ok c w t db : wd_checkout w c = Some t -> db_open t = Ok db ->
  exists a, auditor_new c w = inl a /\ au_config a = c /\ au_db a = db /\ au_shown a = [] /\
    au_index a = (if cf_yanked c then option_map (fun ix => (ix, [])) (wd_index w (cf_update_index c && cf_fetch c)) else None).
Proof.
  intros H1 H2. unfold auditor_new. rewrite H1, H2. eexists. split; [reflexivity|]. cbn. auto.
Qed.
Lemma new_index_ok c w truth a : index_answers c w truth ->
  au_index a = (if cf_yanked c then option_map (fun ix => (ix, [])) (wd_index w (cf_update_index c && cf_fetch c)) else None) ->
  index_ok truth (au_index a) /\ (au_index a <> None <-> index_consulted c w).
Proof.
  intros I E. unfold index_consulted. rewrite E. destruct (cf_yanked c); [|split; [exact Logic.I|split; [intros K; exfalso; apply K; reflexivity|intros [K _]; discriminate]]].
  destruct (wd_index w (cf_update_index c && cf_fetch c)) as [ix|] eqn:W; cbn.
  - split; [split; [exact (I ix W)|constructor]|]. split; [split; [reflexivity|discriminate]|discriminate].
  - split; [exact Logic.I|]. split; [intros K; exfalso; apply K; reflexivity|intros [_ K]; congruence].
Qed.
Lemma report_fails checks t db pkgs c r0 ws r (truth : string -> entry) (consulted : Prop) :
  db_open t = Ok db -> report_generate checks db pkgs (report_settings c) = Ok r0 -> r = with_yanked r0 ws ->
  (forall w, In w ws -> exists p, w = mkWarning WYanked p None /\ In p pkgs /\ from_crates_io p /\ says (truth (p_name p)) (p_version p) true) ->
  (consulted -> forall p, In p pkgs -> from_crates_io p -> says (truth (p_name p)) (p_version p) true -> exists q, In (mkWarning WYanked q None) ws /\ same_release p q) ->
  (ws <> [] -> consulted) ->
  should_exit_with_failure c r = true <->
  vulnerable_finding checks (report_settings c) (db_iter db) pkgs \/
  (exists k, k <> WNotice /\ denies c k /\ informational_finding checks (report_settings c) (db_iter db) pkgs k) \/
  (denies c WYanked /\ consulted /\ yanked_finding truth pkgs).
Proof.
  intros H E -> Y1 Y2 Y3. destruct (report_spec checks t db pkgs (report_settings c) H) as (r' & E' & _ & _ & _ & _ & Ef & [N _] & _).
  rewrite E in E'. injection E' as <-.
  rewrite (should_fail_iff c (with_yanked r0 ws) (with_yanked_nodup r0 ws N)), with_yanked_vulns, Ef. split.
  - intros [F|(k & Nk & Dk & G)].
    + left. destruct (vi_list (r_vulns r0)) as [|v vs] eqn:L; [contradiction|].
      assert (Hv : In v (vi_list (r_vulns r0))) by (rewrite L; left; reflexivity).
      apply (report_vuln_in checks t db pkgs _ _ _ H E) in Hv. exists (v_advisory v), (v_package v). exact Hv.
    + right. rewrite with_yanked_get in G. destruct (winfo_get k (r_warnings r0)) as [|w l] eqn:L.
      * right. cbn [app] in G. destruct (warning_kind_eqb_spec WYanked k) as [<-|]; [|contradiction].
        split; [exact Dk|]. split; [apply Y3; exact G|]. destruct ws as [|w ws]; [contradiction|].
        destruct (Y1 w (or_introl eq_refl)) as (p & _ & P). exists p. exact P.
      * left. exists k. split; [exact Nk|]. split; [exact Dk|].
        assert (Hw : In w (winfo_get k (r_warnings r0))) by (rewrite L; left; reflexivity).
        apply (report_warning_in checks t db pkgs _ _ _ _ H E) in Hw as (a & i & _ & H1 & H2 & H3 & H4 & _ & H6 & H7).
        exists a, (w_package w), i. apply kind_of_info_iff in H6. auto 10.
  - intros [(a & p & Hv)|[(k & Nk & Dk & (a & p & i & H1 & H2 & H3 & H4 & H5 & H6))|(Dk & Cn & (p & P1 & P2 & P3))]].
    + left. apply (report_vuln_in checks t db pkgs _ _ (mkVuln a p) H E) in Hv. destruct (vi_list (r_vulns r0)); [destruct Hv|discriminate].
    + right. exists k. split; [exact Nk|]. split; [exact Dk|]. rewrite with_yanked_get.
      assert (Hw : In (mkWarning k p (Some a)) (winfo_get k (r_warnings r0))).
      { apply (report_warning_in checks t db pkgs _ _ _ _ H E). exists a, i. cbn [w_package]. split; [reflexivity|].
        split; [exact H1|]. split; [exact H2|]. split; [exact H3|]. split; [exact H4|].
        split; [exact (denied_reported c k i Nk Dk H5)|]. split; [apply kind_of_info_iff; exact H5|exact H6]. }
      destruct (winfo_get k (r_warnings r0)); [destruct Hw|discriminate].
    + right. exists WYanked. split; [discriminate|]. split; [exact Dk|]. rewrite with_yanked_get. cbn [warning_kind_eqb].
      destruct (Y2 Cn p P1 P2 P3) as (q & Hq & _). destruct ws; [destruct Hq|]. intros K. apply app_eq_nil in K as [_ K]. discriminate.
Qed.

Lemma run_audit_spec checks c w truth t db l :
  wd_located w = true -> wd_checkout w c = Some t -> db_open t = Ok db -> wd_lockfile w = Ok l ->
  index_answers c w truth -> printable checks c (db_iter db) l ->
  exists r0 ws r out d s b,
    report_generate checks db (lk_packages l) (report_settings c) = Ok r0 /\ r = with_yanked r0 ws /\
    print_report checks c r l [] = Ok (out, d) /\
    self_advisories checks db = Ok s /\
    run_audit checks c w = ((out ++ match s with [] => [] | _ => [OutSelf s] end)%list, Exit (if b : bool then 1 else 0)) /\
    (b = true <-> must_fail checks c w truth (db_iter db) (lk_packages l)) /\
    (forall x, In x ws -> exists p, x = mkWarning WYanked p None /\ In p (lk_packages l) /\ from_crates_io p /\ says (truth (p_name p)) (p_version p) true) /\
    (index_consulted c w -> forall p, In p (lk_packages l) -> from_crates_io p -> says (truth (p_name p)) (p_version p) true ->
       exists q, In (mkWarning WYanked q None) ws /\ same_release p q) /\ (ws <> [] -> index_consulted c w).
Proof.
  intros Hl Hc Hd Hf I P. destruct (auditor_new_ok c w t db Hc Hd) as (a & EA & Ac & Ad & As & Ai).
  destruct (new_index_ok c w truth a I Ai) as (Io & Ic).
  destruct (audit_spec checks t a l truth) as (r0 & ws & r & out & a' & E & Er & EA' & Ac' & Ad' & _ & _ & _ & EP & Y1 & Y2 & Y3).
  { rewrite Ad. exact Hd. } { exact Io. } { rewrite Ac, Ad. exact P. }
  destruct (self_spec checks t db Hd) as (s & ES & Sn). rewrite Ac, Ad in *.
  assert (Y2' : index_consulted c w -> forall p, In p (lk_packages l) -> from_crates_io p -> says (truth (p_name p)) (p_version p) true ->
       exists q, In (mkWarning WYanked q None) ws /\ same_release p q) by (intros K; apply Y2, Ic, K).
  assert (Y3' : ws <> [] -> index_consulted c w).
  { intros K. apply Ic. intros K'. apply K, Y3, K'. }
  pose proof (report_fails checks t db (lk_packages l) c r0 ws r truth (index_consulted c w) Hd E Er Y1 Y2' Y3') as F.
  exists r0, ws, r, out, (au_shown a'), s, (should_exit_with_failure c r || fail_due_to_self c s).
  split; [exact E|]. split; [exact Er|]. split; [rewrite As in EP; exact EP|]. split; [exact ES|]. split.
  - unfold run_audit. rewrite Hl. cbn [negb]. rewrite EA, Hf. unfold audit_lockfile. rewrite EA'. cbn [obind]. rewrite Ad, ES. cbn [obind fst snd].
    unfold auditor_fails. rewrite Ac', Ad'. destruct (should_exit_with_failure c r); [reflexivity|]. rewrite ES. cbn [obind orb].
    destruct (fail_due_to_self c s); reflexivity.
  - split; [|auto]. rewrite orb_true_iff, F. unfold must_fail.
    assert (Fs : fail_due_to_self c s = true <-> In DWarnings (cf_deny c) /\ self_finding checks (db_iter db)).
    { unfold fail_due_to_self. rewrite andb_true_iff, <- Sn. rewrite existsb_exists. split.
      - intros [K (d & Hd1 & Hd2)]. split; [destruct d; try discriminate; exact Hd1|]. destruct s; [discriminate K|discriminate].
      - intros [K1 K2]. split; [destruct s; [contradiction|reflexivity]|]. exists DWarnings. split; [exact K1|reflexivity]. }
    rewrite Fs. tauto.
Qed.

(** ** C26: with a lockfile that can be loaded (and whose tree can be printed) and a database that can be opened, the
    exit status is 1 if there is a vulnerability, a denied warning, or a vulnerability in cargo-audit itself while all
    warnings are denied, and 0 otherwise. *)
Theorem C26_exit_status : forall checks c w truth t db l,
  wd_located w = true -> wd_checkout w c = Some t -> db_open t = Ok db -> wd_lockfile w = Ok l ->
  index_answers c w truth -> printable checks c (db_iter db) l ->
  (must_fail checks c w truth (db_iter db) (lk_packages l) -> snd (run_audit checks c w) = Exit 1) /\
  (~ must_fail checks c w truth (db_iter db) (lk_packages l) -> snd (run_audit checks c w) = Exit 0).
Proof.
  intros checks c w truth t db l Hl Hc Hd Hf I P.
  destruct (run_audit_spec checks c w truth t db l Hl Hc Hd Hf I P) as (r0 & ws & r & out & d & s & b & _ & _ & _ & _ & -> & B & _).
  cbn [snd]. split; intros H; destruct b; try reflexivity; exfalso; [|apply H, B; reflexivity].
  apply B in H. discriminate.
Qed.
Print Assumptions C26_exit_status.

(** Status 2 exactly when the lockfile cannot be located or loaded (given the database). *)
Theorem C26_status_2_iff_no_lockfile : forall checks c w t db,
  wd_checkout w c = Some t -> db_open t = Ok db ->
  (snd (run_audit checks c w) = Exit 2 <-> wd_located w = false \/ wd_lockfile w = Err).
Proof.
  intros checks c w t db Hc Hd. destruct (auditor_new_ok c w t db Hc Hd) as (a & EA & Ac & Ad & As & Ai).
  unfold run_audit. destruct (wd_located w); cbn [negb]; [|split; [auto|reflexivity]].
  rewrite EA. unfold audit_lockfile. destruct (wd_lockfile w) as [l| |] eqn:E; cbn [snd].
  - split; [|intros [K|K]; discriminate]. destruct (audit checks a l None) as [[[r out] a']| |]; cbn [obind]; try discriminate.
    destruct (self_advisories checks (au_db a)) as [s| |]; cbn [obind fst snd]; try discriminate.
    destruct (auditor_fails checks a' r) as [[]| |]; cbn [snd]; discriminate.
  - split; [auto|reflexivity].
  - split; [discriminate|intros [K|K]; discriminate].
Qed.
Print Assumptions C26_status_2_iff_no_lockfile.

(** Example world: the lockfile of PropsDb with the example advisories. *)
Definition ex_lock : lockfile :=
  mkLock V3 [mkPkg "app" v100 None None [mkDep "base" v100 (Some git_index); mkDep "other" v100 (Some git_index)] None;
             pkg "base" v100 (Some git_index); pkg "base" v200 (Some git_index); pkg "other" v100 (Some git_index)] None [] [].
Definition ex_world : world := mkWorld true (fun _ => Some ex_tree) (Ok ex_lock) (fun _ => None).
Definition ex_config : config := mkConfig [] None None None None true false [DUnmaintained] FTerminal false true None None true true.
Lemma ex_lock_printable advs c : printable false c advs ex_lock.
Proof.
  intros _. split; [|split; [|split]].
  - intros p Hp. cbn in Hp. split.
    + destruct Hp as [<-|[<-|[<-|[<-|[]]]]]; cbn; auto; intros (r & K); discriminate.
    + intros d Hd. destruct Hp as [<-|[<-|[<-|[<-|[]]]]]; cbn in Hd; try destruct Hd as [<-|[<-|[]]]; try destruct Hd; cbn; intros (r & K); discriminate.
  - intros i j p q Hi Hj (N1 & N2 & _).
    destruct i as [|[|[|[|i]]]]; cbn in Hi; try (injection Hi as <-); try (destruct i; discriminate);
    destruct j as [|[|[|[|j]]]]; cbn in Hj; try (injection Hj as <-); try (destruct j; discriminate); cbn in N1, N2; try discriminate; reflexivity.
  - intros p d Hp Hd. cbn in Hp. destruct Hp as [<-|[<-|[<-|[<-|[]]]]]; cbn in Hd; try destruct Hd as [<-|[<-|[]]]; try destruct Hd.
    + exists (pkg "base" v100 (Some git_index)). split; [right; left; reflexivity|]. split; [reflexivity|]. split; reflexivity.
    + exists (pkg "other" v100 (Some git_index)). split; [right; right; right; left; reflexivity|]. split; [reflexivity|]. split; reflexivity.
  - discriminate.
Qed.
Example C26_nonvacuous :
  index_answers ex_config ex_world ex_truth /\ printable false ex_config (db_iter ex_db) ex_lock /\
  snd (run_audit false ex_config ex_world) = Exit 1 /\
  snd (run_audit false (mkConfig [a_id adv1; a_id adv2] None None None None true false [] FTerminal false true None None true true) ex_world) = Exit 0 /\
  snd (run_audit false (mkConfig [a_id adv1; a_id adv2] None None None None true false [DUnmaintained] FTerminal false true None None true true) ex_world) = Exit 1.
Proof.
  split; [intros ix K; discriminate|]. split; [apply ex_lock_printable|]. split; [vm_compute; reflexivity|]. split; vm_compute; reflexivity.
Qed.

(** "Status 1 means findings" fails: a database that cannot be fetched or loaded also gives 1. *)
Theorem C26_status_1_without_findings_refuted :
  exists w, (forall c, wd_checkout w c = None) /\ forall checks c, snd (run_audit checks c w) = Exit 1.
Proof. exists (mkWorld true (fun _ => None) (Ok ex_lock) (fun _ => None)). split; reflexivity. Qed.
Print Assumptions C26_status_1_without_findings_refuted.
(** "Every loadable lockfile is audited" fails: with the default output, a lockfile naming a dependency it does not
    list makes the program panic instead of exiting with a documented status; with JSON output it is audited. *)
Definition dangling_lock : lockfile :=
  mkLock V3 [mkPkg "app" v100 None None [mkDep "nosuch" v100 None] None] None [] [].
Theorem C26_dangling_dependency_refuted :
  snd (run_audit false default_config (mkWorld true (fun _ => Some ex_tree) (Ok dangling_lock) (fun _ => None))) = Crash /\
  snd (run_audit false (mkConfig [] None None None None true false [] FJson false true None None true true)
         (mkWorld true (fun _ => Some ex_tree) (Ok dangling_lock) (fun _ => None))) = Exit 0.
Proof. split; vm_compute; reflexivity. Qed.
Print Assumptions C26_dangling_dependency_refuted.

(** ** C27 *)
(** Denying a kind other than notice, by name or with all warnings, makes an applicable advisory of that kind both
    reported and fatal, whatever informational kinds the configuration selects. *)
Theorem C27_denied_kind_is_reported_and_fatal : forall checks c w truth t db l k a p i,
  wd_located w = true -> wd_checkout w c = Some t -> db_open t = Ok db -> wd_lockfile w = Ok l ->
  index_answers c w truth -> printable checks c (db_iter db) l ->
  k <> WNotice -> denies c k ->
  In a (db_iter db) -> In p (lk_packages l) -> concerns checks (report_settings c) a p ->
  a_informational a = Some i -> kind_of_info k i -> ~ In (a_id a) (cf_ignore c) ->
  snd (run_audit checks c w) = Exit 1 /\
  exists r, report_generate checks db (lk_packages l) (report_settings c) = Ok r /\
    In (mkWarning k p (Some a)) (winfo_get k (r_warnings r)).
Proof.
  intros checks c w truth t db l k a p i Hl Hc Hd Hf I P Nk Dk Ha Hp C Hi Ki Ig. split.
  - apply (proj1 (C26_exit_status checks c w truth t db l Hl Hc Hd Hf I P)). right. left. exists k. split; [exact Nk|].
    split; [exact Dk|]. exists a, p, i. auto 10.
  - destruct (report_spec checks t db (lk_packages l) (report_settings c) Hd) as (r & E & _). exists r. split; [exact E|].
    apply (report_warning_in checks t db _ _ _ _ _ Hd E). exists a, i. cbn [w_package]. split; [reflexivity|].
    split; [exact Ha|]. split; [exact Hp|]. split; [exact C|]. split; [exact Hi|].
    split; [exact (denied_reported c k i Nk Dk Ki)|]. split; [apply kind_of_info_iff; exact Ki|exact Ig].
Qed.
Print Assumptions C27_denied_kind_is_reported_and_fatal.
Theorem C27_denied_yanked_is_fatal : forall checks c w truth t db l p,
  wd_located w = true -> wd_checkout w c = Some t -> db_open t = Ok db -> wd_lockfile w = Ok l ->
  index_answers c w truth -> printable checks c (db_iter db) l ->
  denies c WYanked -> index_consulted c w ->
  In p (lk_packages l) -> from_crates_io p -> says (truth (p_name p)) (p_version p) true ->
  snd (run_audit checks c w) = Exit 1.
Proof.
  intros checks c w truth t db l p Hl Hc Hd Hf I P Dk Cn Hp Hc' Hs.
  apply (proj1 (C26_exit_status checks c w truth t db l Hl Hc Hd Hf I P)). right. right. left. split; [exact Dk|]. split; [exact Cn|].
  exists p. auto.
Qed.
Print Assumptions C27_denied_yanked_is_fatal.
(** Denying all warnings makes notices reported. *)
Theorem C27_deny_warnings_reports_notices : forall c, In DWarnings (cf_deny c) -> In INotice (st_info (report_settings c)).
Proof. intros c H. cbn. apply (deny_loop_adds _ _ DWarnings); auto. Qed.
Print Assumptions C27_deny_warnings_reports_notices.
(** ... but not fatal: `--deny warnings` is documented as "exit with an error on: warnings (any)". *)
Definition notice_adv : advisory := ex_adv (ex_id 2021 "RUSTSEC-2021-0009") "base" None (Some INotice) None.
Definition notice_world : world :=
  mkWorld true (fun _ => Some (DbModel.mkTree (Some [mkEntry "base" (Some [mkFile "RUSTSEC-2021-0009.md" (Ok notice_adv)])]) None))
    (Ok ex_lock) (fun _ => None).
Definition deny_warnings_cli : cli := mkCli None [DWarnings] [] false false false [] [] None false false None.
Theorem C27_deny_warnings_covers_notices_refuted :
  exists out, cargo_audit false deny_warnings_cli default_config notice_world = (out, Exit 0) /\
    In (OutWarning (mkWarning WNotice (pkg "base" v100 (Some git_index)) (Some (crates notice_adv))) false) out.
Proof. eexists. split; [vm_compute; reflexivity|]. left. reflexivity. Qed.
Print Assumptions C27_deny_warnings_covers_notices_refuted.
Example C27_nonvacuous :
  denies ex_config WUnmaintained /\ In (crates adv3) (db_iter ex_db) /\
  concerns false (report_settings ex_config) (crates adv3) (pkg "base" v100 (Some git_index)) /\
  kind_of_info WUnmaintained IUnmaintained /\
  snd (cargo_audit false deny_warnings_cli default_config
        (mkWorld true (fun _ => Some (DbModel.mkTree (Some []) None)) (Ok (mkLock V3 [pkg "foo" (mkVersion 1 1 0 [] []) (Some git_index)] None [] []))
           (fun _ => Some ex_index))) = Exit 1.
Proof.
  split; [right; left; reflexivity|]. split; [vm_compute; auto 10|]. split.
  - split; [exists git_index; split; [reflexivity|left; split; reflexivity]|]. cbn.
    split; [reflexivity|]. split; [reflexivity|]. split; [vm_compute; reflexivity|]. split; [intros src K; injection K as <-; reflexivity|].
    split; [discriminate|]. split; [discriminate|reflexivity].
  - split; [reflexivity|vm_compute; reflexivity].
Qed.
