(** C98, and the status of a real run for C50: what `cargo audit fix` says and how it ends (FixModel.v). *)
From Coq Require Import List NArith Ascii String Bool Arith Lia Permutation.
From Verif Require Import Base SemverModel OsvModel OsvSpec OsvProofs4 StrLib VerText IdModel PkgModel DbModel DbSpec DbProofs DbProofs2
  PropsDb UrlModel UrlSpec UrlProofs LockModel LockSpec TreeModel TreeSpec TreeProofs PropsTree PlatData PlatModel PropsPlat IndexModel IndexSpec PropsIndex
  AuditModel AuditSpec AuditProofs PropsAudit PropsAudit7 FixModel.
Import ListNotations.
Local Open Scope string_scope.
Local Open Scope list_scope.

(** * The words used *)
(** What an audit of [l] against [db] finds vulnerable. *)
Definition finds (checks : bool) (c : config) (db : database) (l : lockfile) (vs : list vulnerability) : Prop :=
  exists r, report_generate checks db (lk_packages l) (report_settings c) = Ok r /\ vi_list (r_vulns r) = vs.
(** The outside world is in order: the lock file is found and read as [l], the database opened as [db], the index says what is so, and
    the report can be printed. *)
Definition in_order (checks : bool) (c : config) (w : world) (db : database) (l : lockfile) : Prop :=
  wd_located w = true /\ wd_lockfile w = Ok l /\
  (exists t, wd_checkout w c = Some t /\ db_open t = Ok db) /\
  (exists truth, index_answers c w truth) /\ printable checks c (db_iter db) l.
(** A vulnerability for which no version is listed as patched. *)
Definition unpatched (v : vulnerability) : Prop := patched (a_versions (v_advisory v)) = [].
(** The advisory of the finding. *)
Definition adv_of (v : vulnerability) : adv_id := a_id (v_advisory v).
(** The command for the finding. *)
Definition command_for (checks : bool) (l : lockfile) (dry_run : bool) (v : vulnerability) : list string := fix_args checks l None v dry_run.
Definition messages (run : list said * list (list string) * exit_code) : list said := fst (fst run).
Definition status (run : list said * list (list string) * exit_code) : exit_code := snd run.

(** * The runs are the same *)
Theorem C98_same_run : forall checks c dry spawn w w',
  run_fix checks c dry spawn w w' = (snd (fst (run_fix_full checks c dry spawn w w')), snd (run_fix_full checks c dry spawn w w')).
Proof.
  intros. unfold run_fix, run_fix_full, quiet_config. destruct (wd_located w); cbn [negb]; [|reflexivity].
  destruct (auditor_new c w) as [a|e]; [|reflexivity]. destruct (audit_lockfile checks a (wd_lockfile w)) as [[[[r x] y]|]| |]; try reflexivity.
  destruct (vi_list (r_vulns r)) as [|v vs]; [reflexivity|]. destruct (wd_lockfile w) as [l| |]; try reflexivity.
  destruct (fix_loop checks l dry spawn (v :: vs)) as [[cmds un] failed]. destruct (Nat.eqb failed 0); cbn [negb]; [|reflexivity].
  destruct dry; [reflexivity|]. destruct (auditor_new _ w') as [a'|e]; [|reflexivity].
  destruct (audit_lockfile checks a' (wd_lockfile w')) as [[[[r' x'] y']|]| |]; reflexivity.
Qed.

(** * How a run unfolds *)
Lemma audited checks c w db l vs : in_order checks c w db l -> finds checks c db l vs ->
  exists a r x y, auditor_new c w = inl a /\ audit_lockfile checks a (wd_lockfile w) = Ok (Some (r, x, y)) /\ vi_list (r_vulns r) = vs.
Proof.
  intros (Hl & Hf & (t & Hc & Hd) & (truth & I) & P) (r1 & E1 & <-).
  destruct (auditor_new_ok c w t db Hc Hd) as (a & EA & Ac & Ad & As & Ai).
  destruct (new_index_ok c w truth a I Ai) as (Io & _).
  destruct (audit_spec checks t a l truth) as (r0 & ws & r & out & a' & E & Er & EA' & _).
  { rewrite Ad. exact Hd. } { exact Io. } { rewrite Ac, Ad. exact P. }
  destruct (self_spec checks t db Hd) as (s & ES & _). rewrite Ac, Ad in E. rewrite E1 in E. injection E as <-.
  exists a, r. eexists. eexists. split; [exact EA|]. split.
  - rewrite Hf. unfold audit_lockfile. rewrite EA'. cbn [obind]. rewrite Ad, ES. cbn [obind fst snd]. reflexivity.
  - rewrite Er, with_yanked_vulns. reflexivity.
Qed.
Definition no_failures (checks : bool) (l : lockfile) (dry : bool) (spawn : list string -> bool) (vs : list vulnerability) : bool :=
  forallb (fun v => negb (has_patch v) || spawn (command_for checks l dry v)) vs.
Lemma no_failures_iff checks l dry spawn vs :
  Nat.eqb (List.length (filter (fun cmd => negb (spawn cmd)) (map (fun v => fix_args checks l None v dry) (filter has_patch vs)))) 0 = no_failures checks l dry spawn vs.
Proof.
  unfold no_failures, command_for. induction vs as [|v vs IH]; [reflexivity|]. cbn [filter forallb]. destruct (has_patch v); cbn [negb orb].
  - cbn [map filter]. destruct (spawn _); cbn [negb andb]; [exact IH|reflexivity].
  - exact IH.
Qed.
Lemma full_unfold checks c dry spawn w w' db l vs : in_order checks c w db l -> finds checks c db l vs ->
  run_fix_full checks c dry spawn w w' =
  match vs with
  | [] => ([], [], Exit 0)
  | _ =>
    let first := (if dry then [DryRunOnly] else []) ++ fix_loop_says checks l dry spawn vs in
    let cmds := map (command_for checks l dry) (filter has_patch vs) in
    if negb (no_failures checks l dry spawn vs) then (first, cmds, Exit 2)
    else if dry then (first, cmds, match filter (fun v => negb (has_patch v)) vs with [] => Exit 0 | _ => Exit 1 end)
    else match auditor_new (quiet_config c) w' with
         | inr e => (first ++ [Verifying], cmds, e)
         | inl a' =>
             match audit_lockfile checks a' (wd_lockfile w') with
             | Ok (Some (r', _, _)) =>
                 (first ++ [Verifying] ++ verify_says (map adv_of (filter (fun v => negb (has_patch v)) vs)) vs (vi_list (r_vulns r')), cmds, Exit 0)
             | _ => (first ++ [Verifying], cmds, Crash)
             end
         end
  end.
Proof.
  intros O F. destruct (audited _ _ _ _ _ _ O F) as (a & r & x & y & EA & EL & EV). destruct O as (Hl & Hf & _).
  unfold run_fix_full. rewrite Hl, EA, EL, EV, Hf. cbn [negb]. destruct vs as [|v0 vs0]; [reflexivity|].
  remember (v0 :: vs0) as vs eqn:Q. rewrite fix_loop_spec. rewrite no_failures_iff. cbv zeta.
  destruct (negb (no_failures checks l dry spawn vs)); [reflexivity|]. destruct dry; [|reflexivity].
  destruct (filter (fun v => negb (has_patch v)) vs); reflexivity.
Qed.
Lemma has_patch_iff v : has_patch v = false <-> unpatched v.
Proof. unfold has_patch, unpatched. destruct (patched (a_versions (v_advisory v))); split; congruence. Qed.
Lemma no_failures_spec checks l dry spawn vs : no_failures checks l dry spawn vs = true <->
  forall v, In v vs -> ~ unpatched v -> spawn (command_for checks l dry v) = true.
Proof.
  unfold no_failures. rewrite forallb_forall. split; intros H v Hv.
  - intros U. specialize (H v Hv). destruct (has_patch v) eqn:E; [exact H|]. apply has_patch_iff in E. contradiction.
  - destruct (has_patch v) eqn:E; [|reflexivity]. cbn. apply H; [exact Hv|]. rewrite <- has_patch_iff. congruence.
Qed.

(** * C50: how a real run ends *)
(** 0 if nothing was vulnerable; 2 if an update command could not be started; otherwise as the second look goes: 1 without a database,
    a crash without a lock file, and 0 whatever is still vulnerable. *)
Theorem C50_real_run_status : forall checks c spawn w w' db l vs,
  in_order checks c w db l -> finds checks c db l vs ->
  let code := snd (run_fix checks c false spawn w w') in
  let failed := exists v, In v vs /\ ~ unpatched v /\ spawn (command_for checks l false v) = false in
  (vs = [] -> code = Exit 0) /\
  (failed -> code = Exit 2) /\
  (vs <> [] -> ~ failed ->
     (wd_checkout w' (quiet_config c) = None -> code = Exit 1) /\
     (forall t', wd_checkout w' (quiet_config c) = Some t' -> db_open t' = Err -> code = Exit 1) /\
     (forall t' db', wd_checkout w' (quiet_config c) = Some t' -> db_open t' = Ok db' -> wd_lockfile w' = Err -> code = Crash) /\
     (forall db' l', in_order checks (quiet_config c) w' db' l' -> code = Exit 0)).
Proof.
  intros checks c spawn w w' db l vs O F. cbv zeta. rewrite C98_same_run. cbn [snd]. rewrite (full_unfold _ _ _ _ _ _ _ _ _ O F).
  split; [intros ->; reflexivity|]. split.
  - intros (v & Hv & U & B). destruct vs as [|v0 vs0]; [destruct Hv|]. remember (v0 :: vs0) as vs eqn:Q. cbv zeta.
    destruct (no_failures checks l false spawn vs) eqn:N; [|reflexivity]. apply no_failures_spec with (v := v) in N; auto. congruence.
  - intros Nv Nf. destruct vs as [|v0 vs0]; [contradiction|]. remember (v0 :: vs0) as vs eqn:Q. cbv zeta.
    assert (N : no_failures checks l false spawn vs = true).
    { apply no_failures_spec. intros v Hv U. destruct (spawn (command_for checks l false v)) eqn:E; [reflexivity|]. exfalso. apply Nf. exists v. auto. }
    rewrite N. cbn [negb]. split; [|split; [|split]].
    + intros E. unfold auditor_new. rewrite E. reflexivity.
    + intros t' E E'. unfold auditor_new. rewrite E, E'. reflexivity.
    + intros t' db' E E' L. destruct (auditor_new_ok _ w' t' db' E E') as (a & -> & _). rewrite L. reflexivity.
    + intros db' l' O'. assert (exists vs', finds checks (quiet_config c) db' l' vs') as (vs' & F').
      { destruct O' as (_ & _ & (t' & _ & D) & _). destruct (report_spec checks t' db' (lk_packages l') (report_settings (quiet_config c)) D) as (r & E & _).
        eexists. exists r. split; [exact E|reflexivity]. }
      destruct (audited _ _ _ _ _ _ O' F') as (a & r & x & y & -> & -> & _). reflexivity.
Qed.
Print Assumptions C50_real_run_status.

(** * C98: what is said *)
Lemma loop_says_in checks l dry spawn vs m : In m (fix_loop_says checks l dry spawn vs) <->
  exists v, In v vs /\ (unpatched v /\ m = NoPatch (adv_of v) (p_name (v_package v)) \/
    ~ unpatched v /\ spawn (command_for checks l dry v) = false /\ m = CannotRun (p_name (v_package v))).
Proof.
  induction vs as [|v vs IH]; cbn [fix_loop_says].
  - split; [intros []|intros (v & [] & _)].
  - rewrite in_app_iff, IH. clear IH. unfold unpatched, command_for, adv_of. split.
    + intros [H|(x & Hx & H)]; [|exists x; split; [now right|exact H]]. exists v. split; [now left|].
      destruct (patched (a_versions (v_advisory v))) as [|q qs]; [destruct H as [<-|[]]; now left|].
      destruct (spawn _); [destruct H|]. destruct H as [<-|[]]. right. split; [discriminate|auto].
    + intros (x & [<-|Hx] & H); [|right; exists x; auto]. left. destruct (patched (a_versions (v_advisory v))) as [|q qs].
      * destruct H as [(_ & ->)|(K & _)]; [now left|contradiction].
      * destruct H as [(K & _)|(_ & -> & ->)]; [discriminate|now left].
Qed.
(** Of every vulnerability it is said, by advisory and package, that it has no patched version, exactly if it has none; and that its
    update could not be run, exactly if that is so.  A dry run says that it is one, and is the only one that does; it verifies nothing. *)
Theorem C98_about_each : forall checks c dry spawn w w' db l vs i n,
  in_order checks c w db l -> finds checks c db l vs ->
  let says := messages (run_fix_full checks c dry spawn w w') in
  (In (NoPatch i n) says <-> exists v, In v vs /\ unpatched v /\ adv_of v = i /\ p_name (v_package v) = n) /\
  (In (CannotRun n) says <-> exists v, In v vs /\ ~ unpatched v /\ spawn (command_for checks l dry v) = false /\ p_name (v_package v) = n) /\
  (In DryRunOnly says <-> dry = true /\ vs <> []) /\
  (In Verifying says <-> dry = false /\ vs <> [] /\ forall v, In v vs -> ~ unpatched v -> spawn (command_for checks l false v) = true).
Proof.
  intros checks c dry spawn w w' db l vs i n O F. cbv zeta.
  destruct vs as [|v0 vs0].
  { rewrite (full_unfold _ _ _ _ _ _ _ _ _ O F). unfold messages; cbn [fst]. split; [split; [intros []|intros (v & [] & _)]|]. split; [split; [intros []|intros (v & [] & _)]|].
    split; (split; [intros []|]); intros (_ & K); [|destruct K as (K & _)]; now elim K. }
  remember (v0 :: vs0) as vs eqn:Q. assert (NE : vs <> []) by (subst; discriminate). clear Q v0 vs0.
  assert (V : forall un a b m, In m (verify_says un a b) -> match m with StillThere _ | FixedAll _ | FixedSome _ _ => True | _ => False end).
  { intros un a b m. unfold verify_says. cbv zeta. rewrite in_app_iff. intros [H|H].
    - destruct (map _ _); [destruct H|]. destruct H as [<-|[]]. exact Logic.I.
    - destruct (Nat.eqb _ 0); [destruct H|]. destruct (Nat.eqb _ 0); destruct H as [<-|[]]; exact Logic.I. }
  assert (X : exists post, messages (run_fix_full checks c dry spawn w w') = (if dry then [DryRunOnly] else []) ++ fix_loop_says checks l dry spawn vs ++ post /\
      (forall m, In m post -> match m with Verifying | StillThere _ | FixedAll _ | FixedSome _ _ => True | _ => False end) /\
      (In Verifying post <-> dry = false /\ no_failures checks l dry spawn vs = true)).
  { rewrite (full_unfold _ _ _ _ _ _ _ _ _ O F). destruct vs as [|v0 vs0]; [contradiction|]. remember (v0 :: vs0) as vs eqn:Q. cbv zeta.
    destruct (no_failures checks l dry spawn vs) eqn:N; cbn [negb].
    - destruct dry.
      + exists []. rewrite app_nil_r. split; [reflexivity|]. split; [intros m []|]. split; [intros []|intros [K _]; discriminate].
      + assert (Y : forall post, (forall m, In m post -> match m with StillThere _ | FixedAll _ | FixedSome _ _ => True | _ => False end) ->
          (forall m, In m ([Verifying] ++ post) -> match m with Verifying | StillThere _ | FixedAll _ | FixedSome _ _ => True | _ => False end) /\
          (In Verifying ([Verifying] ++ post) <-> false = false /\ true = true)).
        { intros post H. split; [|split; [auto|left; reflexivity]]. intros m [<-|Hm]; [exact Logic.I|]. specialize (H m Hm). destruct m; auto. }
        destruct (auditor_new (quiet_config c) w') as [a'|e].
        * destruct (audit_lockfile checks a' (wd_lockfile w')) as [[[[r' x'] y']|]| |].
          -- eexists. split; [unfold messages; cbn [fst]; rewrite <- app_assoc; reflexivity|]. apply Y. intros m. apply V.
          -- exists ([Verifying] ++ []). split; [unfold messages; cbn [fst]; rewrite <- app_assoc; reflexivity|]. apply Y. intros m [].
          -- exists ([Verifying] ++ []). split; [unfold messages; cbn [fst]; rewrite <- app_assoc; reflexivity|]. apply Y. intros m [].
          -- exists ([Verifying] ++ []). split; [unfold messages; cbn [fst]; rewrite <- app_assoc; reflexivity|]. apply Y. intros m [].
        * exists ([Verifying] ++ []). split; [unfold messages; cbn [fst]; rewrite <- app_assoc; reflexivity|]. apply Y. intros m [].
    - exists []. rewrite app_nil_r. split; [reflexivity|]. split; [intros m []|]. split; [intros []|intros [_ K]; discriminate]. }
  destruct X as (post & -> & P & PV). rewrite !in_app_iff, !loop_says_in.
  split; [|split; [|split]].
  - split.
    + intros [H|[(v & Hv & [(U & E)|(_ & _ & E)])|H]]; [destruct dry; destruct H as [H|[]] || destruct H; discriminate| |discriminate|].
      * injection E as -> ->. exists v. auto.
      * destruct (P _ H).
    + intros (v & Hv & U & <- & <-). right. left. exists v. auto.
  - split.
    + intros [H|[(v & Hv & [(U & E)|(U & B & E)])|H]]; [destruct dry; destruct H as [H|[]] || destruct H; discriminate|discriminate| |].
      * injection E as ->. exists v. auto.
      * destruct (P _ H).
    + intros (v & Hv & U & B & <-). right. left. exists v. auto.
  - split.
    + intros [H|[(v & Hv & [(U & E)|(U & B & E)])|H]]; try discriminate; [destruct dry; [auto|destruct H]|destruct (P _ H)].
    + intros [-> _]. left. now left.
  - rewrite PV. split.
    + intros [H|[(v & Hv & [(U & E)|(U & B & E)])|(-> & N)]]; try discriminate.
      * destruct dry; [destruct H as [H|[]]; discriminate|destruct H].
      * split; [reflexivity|]. split; [exact NE|]. apply no_failures_spec. exact N.
    + intros (-> & _ & N). right. right. split; [reflexivity|]. apply no_failures_spec. exact N.
Qed.
Print Assumptions C98_about_each.

Lemma unpatchable_iff vs v : existsb (id_eqb (adv_of v)) (map adv_of (filter (fun v => negb (has_patch v)) vs)) = true <->
  exists u, In u vs /\ unpatched u /\ adv_of u = adv_of v.
Proof.
  rewrite existsb_exists. split.
  - intros (i & Hi & E). apply in_map_iff in Hi as (u & <- & Hu). apply filter_In in Hu as [Hu Hp]. exists u. split; [exact Hu|].
    apply negb_true_iff, has_patch_iff in Hp. split; [exact Hp|]. destruct (id_eqb_spec (adv_of v) (adv_of u)); congruence.
  - intros (u & Hu & Hp & E). exists (adv_of u). split.
    + apply in_map, filter_In. split; [exact Hu|]. apply negb_true_iff, has_patch_iff, Hp.
    + destruct (id_eqb_spec (adv_of v) (adv_of u)); congruence.
Qed.
(** After a real run in which every command could be started, with what the second look finds: the advisories listed as not fixed are
    those of what is still vulnerable, in the report's order, unless the first look found them without a patched version; the counts
    say how many findings fewer there are, and how many are left. *)
Theorem C98_afterwards : forall checks c spawn w w' db l db' l' before after,
  in_order checks c w db l -> finds checks c db l before -> before <> [] ->
  (forall v, In v before -> ~ unpatched v -> spawn (command_for checks l false v) = true) ->
  in_order checks (quiet_config c) w' db' l' -> finds checks c db' l' after ->
  let says := messages (run_fix_full checks c false spawn w w') in
  (exists listed, (forall v, listed v = true <-> ~ exists u, In u before /\ unpatched u /\ adv_of u = adv_of v) /\
     forall ids, In (StillThere ids) says <-> ids <> [] /\ ids = map adv_of (filter listed after)) /\
  (forall n, In (FixedAll n) says <-> after = [] /\ n = List.length before) /\
  (forall n m, In (FixedSome n m) says <-> after <> [] /\ m = List.length after /\ (0 < n /\ n + m = List.length before)%nat).
Proof.
  intros checks c spawn w w' db l db' l' before after O F NE NF O' F'. cbv zeta. rewrite (full_unfold _ _ _ _ _ _ _ _ _ O F).
  destruct before as [|v0 vs0]; [contradiction|]. remember (v0 :: vs0) as before eqn:Q. assert (LB : (0 < List.length before)%nat) by (subst; cbn; lia).
  clear Q v0 vs0. cbv zeta. apply no_failures_spec in NF. rewrite NF. cbn [negb].
  destruct (audited _ _ _ _ _ _ O' F') as (a & r & x & y & -> & -> & ->). unfold messages. cbn [fst].
  set (un := map adv_of (filter (fun v => negb (has_patch v)) before)).
  assert (First : forall m, match m with StillThere _ | FixedAll _ | FixedSome _ _ => True | _ => False end ->
    (In m (([] ++ fix_loop_says checks l false spawn before) ++ [Verifying] ++ verify_says un before after) <-> In m (verify_says un before after))).
  { intros m Hm. rewrite !in_app_iff, loop_says_in. split; [|auto]. intros [[[]|(v & _ & [(_ & ->)|(_ & _ & ->)])]|[[<-|[]]|H]]; try contradiction. exact H. }
  set (listed := fun v => negb (existsb (id_eqb (a_id (v_advisory v))) un)).
  split; [|split].
  - exists listed. split.
    + intros v. unfold listed. rewrite negb_true_iff, <- not_true_iff_false. change (a_id (v_advisory v)) with (adv_of v).
      unfold un. rewrite unpatchable_iff. reflexivity.
    + intros ids. rewrite First by exact Logic.I. unfold verify_says. fold listed. cbv zeta. rewrite in_app_iff.
      change (fun v : vulnerability => a_id (v_advisory v)) with adv_of. set (L := map adv_of (filter listed after)). split.
      * intros [H|H].
        -- destruct L eqn:E; [destruct H|]. destruct H as [H|[]]. injection H as <-. split; [discriminate|reflexivity].
        -- destruct (Nat.eqb _ 0); [destruct H|]. destruct (Nat.eqb _ 0); destruct H as [H|[]]; discriminate.
      * intros [NI ->]. left. destruct L; [contradiction|]. now left.
  - intros n. rewrite First by exact Logic.I. unfold verify_says. cbv zeta. rewrite in_app_iff. split.
    + intros [H|H]; [match type of H with In _ (match ?x with [] => _ | _ => _ end) => destruct x end; [destruct H|destruct H as [H|[]]; discriminate]|].
      destruct (Nat.eqb_spec (List.length before - List.length after) 0); [destruct H|].
      destruct (Nat.eqb_spec (List.length after) 0) as [E|E]; destruct H as [H|[]]; [|discriminate]. injection H as <-.
      split; [destruct after; [reflexivity|discriminate]|]. rewrite E. lia.
    + intros [-> ->]. right. cbn [List.length]. rewrite Nat.sub_0_r. destruct (Nat.eqb_spec (List.length before) 0); [lia|]. now left.
  - intros n m. rewrite First by exact Logic.I. unfold verify_says. cbv zeta. rewrite in_app_iff. split.
    + intros [H|H]; [match type of H with In _ (match ?x with [] => _ | _ => _ end) => destruct x end; [destruct H|destruct H as [H|[]]; discriminate]|].
      destruct (Nat.eqb_spec (List.length before - List.length after) 0); [destruct H|].
      destruct (Nat.eqb_spec (List.length after) 0) as [E|E]; destruct H as [H|[]]; [discriminate|]. injection H as <- <-.
      split; [intros ->; now apply E|]. split; [reflexivity|]. lia.
    + intros (A & -> & B & C). right. assert (List.length after <> 0)%nat by (destruct after; [contradiction|discriminate]).
      destruct (Nat.eqb_spec (List.length before - List.length after) 0); [lia|].
      destruct (Nat.eqb_spec (List.length after) 0); [lia|]. left. f_equal. lia.
Qed.
Print Assumptions C98_afterwards.
(** If the updates introduced nothing, the database is the same: what is listed is exactly what is still vulnerable and has a patched
    version, and the count is of the findings that are gone. *)
Theorem C98_if_nothing_new : forall checks c spawn w w' db l l' before after gone,
  in_order checks c w db l -> finds checks c db l before -> before <> [] ->
  (forall v, In v before -> ~ unpatched v -> spawn (command_for checks l false v) = true) ->
  in_order checks (quiet_config c) w' db l' -> finds checks c db l' after ->
  Permutation before (after ++ gone) ->
  let says := messages (run_fix_full checks c false spawn w w') in
  (forall i, (exists ids, In (StillThere ids) says /\ In i ids) <-> exists v, In v after /\ ~ unpatched v /\ adv_of v = i) /\
  (forall n m, In (FixedSome n m) says -> n = List.length gone /\ m = List.length after) /\
  (forall n, In (FixedAll n) says -> n = List.length gone /\ after = []) /\
  (gone = [] <-> ~ exists n, In (FixedAll n) says \/ exists m, In (FixedSome n m) says).
Proof.
  intros checks c spawn w w' db l l' before after gone O F NE NF O' F' P. cbv zeta.
  destruct (C98_afterwards checks c spawn w w' db l db l' before after O F NE NF O' F') as ((listed & Li & A) & B & C).
  pose proof (Permutation_length P) as LP. rewrite app_length in LP.
  assert (Same : forall u v, In u before -> In v before -> adv_of u = adv_of v -> v_advisory u = v_advisory v).
  { destruct O as (_ & _ & (t & _ & D) & _). destruct F as (r & E & <-). intros u v Hu Hv EQ.
    apply (report_vuln_in checks t db _ _ _ _ D E) in Hu as (Hu & _). apply (report_vuln_in checks t db _ _ _ _ D E) in Hv as (Hv & _).
    destruct (db_open_spec t db D) as (_ & _ & _ & _ & _ & ND & _). clear -Hu Hv EQ ND. unfold adv_of in EQ.
    induction (db_iter db) as [|x xs IH]; [destruct Hu|]. cbn in ND. inversion_clear ND as [|? ? N1 N2].
    destruct Hu as [Hu|Hu], Hv as [Hv|Hv]; auto; try congruence; exfalso; apply N1; rewrite ?Hu, ?Hv; [rewrite EQ|rewrite <- EQ]; now apply in_map. }
  assert (LL : forall v, In v after -> (listed v = true <-> ~ unpatched v)).
  { intros v Hv. assert (Hb : In v before) by (eapply Permutation_in; [symmetry; exact P|apply in_or_app; now left]). rewrite Li. split.
    - intros N U. apply N. exists v. auto.
    - intros N (u & Hu & U & E). apply N. unfold unpatched in *. rewrite <- (Same u v Hu Hb E). exact U. }
  split; [|split; [|split]].
  - intros i. split.
    + intros (ids & H & Hi). apply A in H as (_ & ->). apply in_map_iff in Hi as (v & <- & Hv). apply filter_In in Hv as [Hv Lv].
      exists v. split; [exact Hv|]. split; [now apply LL|reflexivity].
    + intros (v & Hv & U & <-). assert (X : In (adv_of v) (map adv_of (filter listed after))) by (apply in_map, filter_In; split; [exact Hv|now apply LL]).
      eexists. split; [apply A; split; [|reflexivity]; intros K; rewrite K in X; destruct X|exact X].
  - intros n m H. apply C in H as (_ & -> & H). lia.
  - intros n H. apply B in H as (-> & ->). cbn in LP. split; [lia|reflexivity].
  - split.
    + intros -> (n & [H|(m & H)]).
      * apply B in H as (-> & ->). cbn in LP. destruct before; [now apply NE|discriminate].
      * apply C in H as (_ & -> & H). cbn in LP. lia.
    + intros H. destruct gone as [|g gs]; [reflexivity|]. exfalso. apply H. cbn in LP. destruct after as [|v vs].
      * eexists. left. apply B. split; reflexivity.
      * exists (List.length (g :: gs)). right. eexists. apply C. split; [discriminate|]. split; [reflexivity|]. cbn in LP |- *. lia.
Qed.
Print Assumptions C98_if_nothing_new.

(** * What is said too much, and too little *)
Definition no_patch_adv : advisory := mkAdvisory (ex_id 2021 "RUSTSEC-2021-0020") "other" "2021-01-01" None None None None None "" None (mkVersions [] []).
Definition fix_tree : fs_tree :=
  DbModel.mkTree (Some [mkEntry "base" (Some [mkFile "RUSTSEC-2020-0001.md" (Ok adv1)]); mkEntry "other" (Some [mkFile "RUSTSEC-2021-0020.md" (Ok no_patch_adv)])]) None.
Definition lock_of (ps : list package) : lockfile := mkLock V3 ps None [] [].
Definition fix_from (ps : list package) : world := mkWorld true (fun _ => Some fix_tree) (Ok (lock_of ps)) (fun _ => None).
Definition base1 := pkg "base" v100 (Some git_index).
Definition base2 := pkg "base" v200 (Some git_index).
Definition other1 := pkg "other" v100 (Some git_index).
Definition fix_db : database := match db_open fix_tree with Ok db => db | _ => ex_db end.
(** "The following advisories have patched versions" fails for a vulnerability that the update introduced; and the one that the update
    removed is not counted as fixed. *)
Theorem C98_listed_have_patched_versions_refuted :
  messages (run_fix_full false ex_config false (fun _ => true) (fix_from [base1]) (fix_from [base2; other1])) =
    [Verifying; StillThere [a_id no_patch_adv]] /\
  patched (a_versions no_patch_adv) = [] /\
  finds false ex_config fix_db (lock_of [base1]) [mkVuln (crates adv1) base1] /\
  finds false ex_config fix_db (lock_of [base2; other1]) [mkVuln (crates no_patch_adv) other1].
Proof.
  split; [vm_compute; reflexivity|]. split; [reflexivity|]. split; eexists; (split; [vm_compute; reflexivity|reflexivity]).
Qed.
Lemma fix_from_in_order c ps : cf_format c <> FTerminal -> in_order false c (fix_from ps) fix_db (lock_of ps).
Proof.
  intros J. split; [reflexivity|]. split; [reflexivity|]. split; [exists fix_tree; split; [reflexivity|vm_compute; reflexivity]|].
  split; [exists ex_truth; intros ix K; discriminate|]. intros K. contradiction.
Qed.
Definition json_config : config := mkConfig [] None None None None true false [] FJson false true None None true true.
(** Two findings, one without a patched version: what is said, with the hypotheses of the theorems above met. *)
Example C98_example :
  let w := fix_from [base1; other1] in let w' := fix_from [base2; other1] in
  in_order false json_config w fix_db (lock_of [base1; other1]) /\
  in_order false (quiet_config json_config) w' fix_db (lock_of [base2; other1]) /\
  finds false json_config fix_db (lock_of [base1; other1]) [mkVuln (crates adv1) base1; mkVuln (crates no_patch_adv) other1] /\
  finds false json_config fix_db (lock_of [base2; other1]) [mkVuln (crates no_patch_adv) other1] /\
  run_fix_full false json_config false (fun _ => true) w w' =
    ([NoPatch (a_id no_patch_adv) "other"; Verifying; FixedSome 1 1], [["update"; "registry+https://github.com/rust-lang/crates.io-index#base@1.0.0"]], Exit 0) /\
  messages (run_fix_full false json_config false (fun _ => true) w w) = [NoPatch (a_id no_patch_adv) "other"; Verifying; StillThere [a_id adv1]] /\
  messages (run_fix_full false json_config false (fun _ => true) (fix_from [base1]) (fix_from [base2])) = [Verifying; FixedAll 1] /\
  run_fix_full false json_config true (fun _ => false) w w' =
    ([DryRunOnly; CannotRun "base"; NoPatch (a_id no_patch_adv) "other"], [["update"; "--dry-run"; "registry+https://github.com/rust-lang/crates.io-index#base@1.0.0"]], Exit 2).
Proof.
  cbv zeta. split; [apply fix_from_in_order; discriminate|]. split; [apply fix_from_in_order; discriminate|].
  split; [eexists; split; [vm_compute; reflexivity|reflexivity]|]. split; [eexists; split; [vm_compute; reflexivity|reflexivity]|].
  split; [vm_compute; reflexivity|]. split; [vm_compute; reflexivity|]. split; vm_compute; reflexivity.
Qed.
