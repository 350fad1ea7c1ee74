(** Property theorems C49, C50: `cargo audit fix`. *)
From Coq Require Import List NArith Ascii String Bool Arith Lia.
From Verif Require Import Base SemverModel OsvModel OsvSpec OsvProofs4 StrLib VerText IdModel PkgModel DbModel DbSpec DbProofs DbProofs2
  PropsDb UrlModel UrlSpec UrlProofs LockModel LockSpec TreeModel TreeSpec TreeProofs PropsTree PlatData PlatModel PropsPlat IndexModel IndexSpec PropsIndex
  AuditModel AuditSpec AuditProofs PropsAudit.
Import ListNotations.
Local Open Scope string_scope.

(** ** C49 *)
(** The command is `cargo update`, with `--manifest-path` if a manifest is given and `--dry-run` iff requested, followed
    by the package ids of exactly the lockfile's packages of the finding's name whose version is vulnerable, in order. *)
Theorem C49_arguments : forall checks l manifest v dry_run,
  exists keep, fix_args checks l manifest v dry_run =
    ("update" :: match manifest with Some m => ["--manifest-path"; m] | None => [] end
       ++ (if dry_run then ["--dry-run"] else []) ++ map pkgid (filter keep (lk_packages l)))%list /\
    forall p, keep p = true <-> p_name p = p_name (v_package v) /\ is_vulnerable checks (a_versions (v_advisory v)) (p_version p) = Ok true.
Proof.
  intros checks l manifest v dry. eexists. split; [reflexivity|]. intros p. cbn beta. rewrite andb_true_iff, String.eqb_eq. unfold vulnerable_at.
  destruct (is_vulnerable checks (a_versions (v_advisory v)) (p_version p)) as [[]| |]; intuition congruence.
Qed.
Print Assumptions C49_arguments.
(** The package of every reported vulnerability is among those updated. *)
Theorem C49_reported_package_is_updated : forall checks t db l s r v manifest dry_run,
  db_open t = Ok db -> report_generate checks db (lk_packages l) s = Ok r -> In v (vi_list (r_vulns r)) ->
  In (pkgid (v_package v)) (fix_args checks l manifest v dry_run).
Proof.
  intros checks t db l s r v manifest dry Hd E Hv. destruct (C49_arguments checks l manifest v dry) as (keep & -> & K).
  apply (report_vuln_in checks t db _ _ _ _ Hd E) in Hv as (_ & Hp & C & _). right. apply in_or_app. right. apply in_or_app. right.
  apply in_map, filter_In. split; [exact Hp|]. apply K. split; [reflexivity|]. apply C.
Qed.
Print Assumptions C49_reported_package_is_updated.
(** The id: the source as `cargo` writes it, without percent-encoding the reference, then '#', name, '@' and version. *)
Definition reference_text (r : git_reference) : string :=
  match r with GDefaultBranch => "" | GTag t => "?tag=" ++ t | GBranch b => "?branch=" ++ b | GRev r => "?rev=" ++ r end.
Definition source_text (s : source_id) : string :=
  match s_kind s with
  | SPath => "path+" ++ s_url s | SRegistry => "registry+" ++ s_url s | SSparseRegistry => "sparse+" ++ s_url s
  | SLocalRegistry => "local-registry+" ++ s_url s | SDirectory => "directory+" ++ s_url s
  | SGit r => "git+" ++ s_url s ++ reference_text r ++ match s_precise s with Some commit => "#" ++ commit | None => "" end
  end.
Theorem C49_package_id : forall p,
  pkgid p = match p_source p with Some s => source_text s ++ "#" | None => "" end ++ p_name p ++ "@" ++ print_version (p_version p).
Proof.
  intros p. unfold pkgid, source_text. destruct (p_source p) as [s|]; [|reflexivity]. rewrite sapp_assoc. f_equal.
  unfold as_url. destruct (s_kind s) as [r| | | | |]; try reflexivity. destruct r; reflexivity.
Qed.
Print Assumptions C49_package_id.
(** The ids tell apart packages of one source (names contain no '@'; versions are well formed). *)
Theorem C49_package_id_is_unambiguous : forall p q, p_source p = p_source q -> has_char "@" (p_name p) = false -> has_char "@" (p_name q) = false ->
  version_wf (p_version p) = true -> version_wf (p_version q) = true -> pkgid p = pkgid q ->
  p_name p = p_name q /\ p_version p = p_version q.
Proof.
  intros p q S Np Nq Wp Wq H. unfold pkgid in H. rewrite S in H.
  assert (H' : p_name p ++ "@" ++ print_version (p_version p) = p_name q ++ "@" ++ print_version (p_version q)).
  { destruct (p_source q); [apply sapp_inj_l in H; injection H as H; exact H|exact H]. }
  cbn [append] in H'. assert (E : split_once "@" (p_name p ++ String "@" (print_version (p_version p))) = Some (p_name q, print_version (p_version q))).
  { rewrite H'. apply split_once_app, Nq. }
  rewrite (split_once_app _ _ _ Np) in E. injection E as E1 E2. split; [exact E1|]. apply print_version_inj; assumption.
Qed.
Print Assumptions C49_package_id_is_unambiguous.

Definition fix_git : source_id := mkSource "https://example.com/base.git" (SGit GDefaultBranch) (Some "0123abcd") None.
Definition fix_lock : lockfile := mkLock V3 [pkg "base" v100 (Some fix_git); pkg "base" v100 (Some git_index); pkg "base" v200 (Some git_index)] None [] [].
Definition fix_vuln : vulnerability := mkVuln (crates adv1) (pkg "base" v100 (Some git_index)).
Example C49_nonvacuous :
  (exists r, report_generate false ex_db (lk_packages fix_lock) ex_settings = Ok r /\ In fix_vuln (vi_list (r_vulns r))) /\
  pkgid (pkg "base" v100 (Some git_index)) = "registry+https://github.com/rust-lang/crates.io-index#base@1.0.0".
Proof. split; [eexists; split; [vm_compute; reflexivity|left; reflexivity]|vm_compute; reflexivity]. Qed.
(** "Exactly the vulnerable packages" fails: a git (or path) package of the same name and version is updated too,
    although it is not reported; and a locked git package's id has its commit where `cargo` expects the name. *)
Theorem C49_only_reported_packages_refuted :
  fix_args false fix_lock None fix_vuln true =
    ["update"; "--dry-run"; "git+https://example.com/base.git#0123abcd#base@1.0.0"; "registry+https://github.com/rust-lang/crates.io-index#base@1.0.0"] /\
  exists r, report_generate false ex_db (lk_packages fix_lock) ex_settings = Ok r /\
    forall v, In v (vi_list (r_vulns r)) -> v_package v = pkg "base" v100 (Some git_index).
Proof.
  split; [vm_compute; reflexivity|]. eexists. split; [vm_compute; reflexivity|].
  cbn [r_vulns vi_list]. intros v [<-|[<-|[]]]; reflexivity.
Qed.
Print Assumptions C49_only_reported_packages_refuted.

(** ** C50 *)
Definition has_patch (v : vulnerability) : bool := match patched (a_versions (v_advisory v)) with [] => false | _ => true end.
Lemma fix_loop_spec checks l dry spawn vs : fix_loop checks l dry spawn vs =
  (map (fun v => fix_args checks l None v dry) (filter has_patch vs),
   map (fun v => a_id (v_advisory v)) (filter (fun v => negb (has_patch v)) vs),
   List.length (filter (fun cmd => negb (spawn cmd)) (map (fun v => fix_args checks l None v dry) (filter has_patch vs)))).
Proof.
  induction vs as [|v vs IH]; [reflexivity|]. cbn [fix_loop filter]. rewrite IH.
  assert (HP : has_patch v = match patched (a_versions (v_advisory v)) with [] => false | _ => true end) by reflexivity.
  destruct (patched (a_versions (v_advisory v))) as [|x rs]; rewrite HP; cbn [negb map filter]; [reflexivity|].
  destruct (spawn (fix_args checks l None v dry)); reflexivity.
Qed.
Lemma run_fix_unfold checks c dry spawn w w' truth t db l :
  wd_located w = true -> wd_checkout w c = Some t -> db_open t = Ok db -> wd_lockfile w = Ok l ->
  index_answers c w truth -> printable checks c (db_iter db) l ->
  exists r, report_generate checks db (lk_packages l) (report_settings c) = Ok r /\
  run_fix checks c dry spawn w w' =
  match vi_list (r_vulns r) with
  | [] => ([], Exit 0)
  | vs => match fix_loop checks l dry spawn vs with
    | (cmds, un, failed) =>
      (cmds,
       if negb (Nat.eqb failed 0) then Exit 2
       else if dry then match un with [] => Exit 0 | _ => Exit 1 end
       else
         let cq := mkConfig (cf_ignore c) (cf_info c) (cf_severity c) (cf_db_path c) (cf_db_url c)
                     (cf_fetch c) (cf_stale c) (cf_deny c) (cf_format c) true (cf_show_tree c)
                     (cf_arch c) (cf_os c) (cf_yanked c) (cf_update_index c) in
         match auditor_new cq w' with
         | inr e => e
         | inl a' => match audit_lockfile checks a' (wd_lockfile w') with Ok (Some _) => Exit 0 | _ => Crash end
         end)
    end
  end.
Proof.
  intros Hl Hc Hd Hf I P. destruct (auditor_new_ok c w t db Hc Hd) as (a & EA & Ac & Ad & As & Ai).
  destruct (new_index_ok c w truth a I Ai) as (Io & _).
  destruct (audit_spec checks t a l truth) as (r0 & ws & r & out & a' & E & Er & EA' & _).
  { rewrite Ad. exact Hd. } { exact Io. } { rewrite Ac, Ad. exact P. }
  destruct (self_spec checks t db Hd) as (s & ES & _). rewrite Ac, Ad in E. exists r0. split; [exact E|].
  unfold run_fix. rewrite Hl, EA, Hf. cbn [negb]. unfold audit_lockfile. rewrite EA'. cbn [obind]. rewrite Ad, ES. cbn [obind fst snd].
  rewrite Er, with_yanked_vulns. destruct (vi_list (r_vulns r0)); reflexivity.
Qed.
(** One update command is attempted for every reported vulnerability that has a patched version, in the report's order,
    whether or not the others can be started; none for the others. *)
Theorem C50_commands_run : forall checks c dry spawn w w' truth t db l,
  wd_located w = true -> wd_checkout w c = Some t -> db_open t = Ok db -> wd_lockfile w = Ok l ->
  index_answers c w truth -> printable checks c (db_iter db) l ->
  exists r fixable, report_generate checks db (lk_packages l) (report_settings c) = Ok r /\
    fst (run_fix checks c dry spawn w w') = map (fun v => fix_args checks l None v dry) (filter fixable (vi_list (r_vulns r))) /\
    forall v, fixable v = true <-> patched (a_versions (v_advisory v)) <> [].
Proof.
  intros checks c dry spawn w w' truth t db l Hl Hc Hd Hf I P.
  destruct (run_fix_unfold checks c dry spawn w w' truth t db l Hl Hc Hd Hf I P) as (r & E & ->).
  exists r, has_patch. split; [exact E|]. split.
  - destruct (vi_list (r_vulns r)) as [|v vs]; [reflexivity|]. rewrite fix_loop_spec. reflexivity.
  - intros v. unfold has_patch. destruct (patched (a_versions (v_advisory v))); split; congruence.
Qed.
Print Assumptions C50_commands_run.
(** Exit status of a dry run: 0 if nothing is vulnerable; 2 if some update command could not be started; otherwise 1 iff
    some reported vulnerability has no patched version. *)
Theorem C50_dry_run_status : forall checks c spawn w w' truth t db l,
  wd_located w = true -> wd_checkout w c = Some t -> db_open t = Ok db -> wd_lockfile w = Ok l ->
  index_answers c w truth -> printable checks c (db_iter db) l ->
  exists r, report_generate checks db (lk_packages l) (report_settings c) = Ok r /\
    let status := snd (run_fix checks c true spawn w w') in
    let failed := exists cmd, In cmd (fst (run_fix checks c true spawn w w')) /\ spawn cmd = false in
    let unfixable := exists v, In v (vi_list (r_vulns r)) /\ patched (a_versions (v_advisory v)) = [] in
    (failed -> status = Exit 2) /\ (~ failed -> unfixable -> status = Exit 1) /\ (~ failed -> ~ unfixable -> status = Exit 0).
Proof.
  intros checks c spawn w w' truth t db l Hl Hc Hd Hf I P.
  destruct (run_fix_unfold checks c true spawn w w' truth t db l Hl Hc Hd Hf I P) as (r & E & ->).
  exists r. split; [exact E|]. destruct (vi_list (r_vulns r)) as [|v0 vs0] eqn:L.
  - cbn [fst snd]. split; [intros (x & [] & _)|]. split; [intros _ (x & [] & _)|reflexivity].
  - rewrite fix_loop_spec. remember (v0 :: vs0) as vs. clear Heqvs. cbn [fst snd].
    set (cmds := map (fun v => fix_args checks l None v true) (filter has_patch vs)).
    assert (F : Nat.eqb (List.length (filter (fun cmd => negb (spawn cmd)) cmds)) 0 = false <-> exists cmd, In cmd cmds /\ spawn cmd = false).
    { destruct (filter (fun cmd => negb (spawn cmd)) cmds) as [|x xs] eqn:Q; cbn [List.length Nat.eqb].
      - split; [discriminate|]. intros (x & H1 & H2). assert (K : In x (filter (fun cmd => negb (spawn cmd)) cmds)) by (apply filter_In; rewrite H2; auto).
        rewrite Q in K. destruct K.
      - split; [intros _|reflexivity]. exists x. assert (K : In x (filter (fun cmd => negb (spawn cmd)) cmds)) by (rewrite Q; left; reflexivity).
        apply filter_In in K as [K1 K2]. split; [exact K1|]. destruct (spawn x); [discriminate|reflexivity]. }
    assert (U : map (fun v => a_id (v_advisory v)) (filter (fun v => negb (has_patch v)) vs) <> [] <->
                exists v, In v vs /\ patched (a_versions (v_advisory v)) = []).
    { destruct (filter (fun v => negb (has_patch v)) vs) as [|x xs] eqn:Q; cbn [map].
      - split; [congruence|]. intros (x & H1 & H2). assert (K : In x (filter (fun v => negb (has_patch v)) vs)) by (apply filter_In; unfold has_patch; rewrite H2; auto).
        rewrite Q in K. destruct K.
      - split; [intros _|discriminate]. exists x. assert (K : In x (filter (fun v => negb (has_patch v)) vs)) by (rewrite Q; left; reflexivity).
        apply filter_In in K as [K1 K2]. split; [exact K1|]. unfold has_patch in K2. destruct (patched (a_versions (v_advisory x))); [reflexivity|discriminate]. }
    split; [|split].
    + intros K. rewrite (proj2 F K). reflexivity.
    + intros K K'. assert (X : Nat.eqb (List.length (filter (fun cmd => negb (spawn cmd)) cmds)) 0 = true) by (apply not_false_iff_true; rewrite F; exact K).
      rewrite X. cbn [negb]. apply U in K'. destruct (map (fun v => a_id (v_advisory v)) _); [contradiction|reflexivity].
    + intros K K'. assert (X : Nat.eqb (List.length (filter (fun cmd => negb (spawn cmd)) cmds)) 0 = true) by (apply not_false_iff_true; rewrite F; exact K).
      rewrite X. cbn [negb]. destruct (map (fun v => a_id (v_advisory v)) _) eqn:Q; [reflexivity|]. exfalso. apply K', U. discriminate.
Qed.
Print Assumptions C50_dry_run_status.
(** Without a usable lockfile the status is 2, without a database 1, and nothing is run. *)
Theorem C50_nothing_run_without_input : forall checks c dry spawn w w' t db,
  (wd_located w = false -> run_fix checks c dry spawn w w' = ([], Exit 2)) /\
  (wd_located w = true -> wd_checkout w c = None -> run_fix checks c dry spawn w w' = ([], Exit 1)) /\
  (wd_located w = true -> wd_checkout w c = Some t -> db_open t = Ok db -> wd_lockfile w = Err -> run_fix checks c dry spawn w w' = ([], Exit 2)).
Proof.
  intros checks c dry spawn w w' t db. unfold run_fix. split; [intros ->; reflexivity|]. split.
  - intros -> H. cbn [negb]. unfold auditor_new. rewrite H. reflexivity.
  - intros -> H1 H2 H3. cbn [negb]. destruct (auditor_new_ok c w t db H1 H2) as (a & -> & _). rewrite H3. reflexivity.
Qed.
Print Assumptions C50_nothing_run_without_input.
Definition fix_world : world := mkWorld true (fun _ => Some ex_tree) (Ok ex_lock) (fun _ => None).
Example C50_nonvacuous :
  index_answers ex_config fix_world ex_truth /\ printable false ex_config (db_iter ex_db) ex_lock /\
  snd (run_fix false ex_config true (fun _ => true) fix_world fix_world) = Exit 0 /\
  snd (run_fix false ex_config true (fun _ => false) fix_world fix_world) = Exit 2 /\
  List.length (fst (run_fix false ex_config true (fun _ => true) fix_world fix_world)) = 2.
Proof. split; [intros ix K; discriminate|]. split; [apply ex_lock_printable|]. split; [|split]; vm_compute; reflexivity. Qed.
(** "Exits non-zero if vulnerabilities remain" fails for a real run: if the update commands start but change nothing (an
    update that fails, or no compatible release), the status is 0 although every vulnerability is still there. *)
Theorem C50_status_after_fixing_refuted :
  snd (run_fix false ex_config false (fun _ => true) fix_world fix_world) = Exit 0 /\
  snd (run_audit false ex_config fix_world) = Exit 1.
Proof. split; vm_compute; reflexivity. Qed.
Print Assumptions C50_status_after_fixing_refuted.
(** And a lockfile the update commands leave unreadable crashes the program. *)
Theorem C50_verification_crash_refuted :
  snd (run_fix false ex_config false (fun _ => true) fix_world (mkWorld true (fun _ => Some ex_tree) Err (fun _ => None))) = Crash.
Proof. vm_compute. reflexivity. Qed.
Print Assumptions C50_verification_crash_refuted.
