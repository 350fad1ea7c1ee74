(** Property theorems C96 (which lock file is audited; where updates run). *)
From Coq Require Import List NArith ZArith Ascii String Bool Lia Arith.
From Verif Require Import Base SemverModel OsvModel StrLib VerText IdModel PkgModel DbModel DbSpec DbProofs DbProofs2 PropsDb LockModel
  IndexModel IndexSpec AuditModel AuditSpec AuditProofs PropsAudit PropsAudit7 FetchHeadModel FetchHeadSpec PropsFetchHead LocateModel LocateSpec.
Import ListNotations.
Local Open Scope string_scope.
Local Infix "++" := String.append (right associativity, at level 60).

(** ** The path *)
Theorem C96_what_is_standard_input : forall p, is_dash p = true <-> dash_path p.
Proof.
  intros p. unfold is_dash. split.
  - destruct (split_on "/" p) as [|c r] eqn:E; [discriminate|]. intros H. apply andb_true_iff in H as [H1 H2].
    apply String.eqb_eq in H1 as ->.
    assert (P : p = join_on "/" ("-" :: r)) by (rewrite <- E; symmetry; apply join_split).
    assert (Q : forall r, forallb (fun x => String.eqb x "" || String.eqb x ".") r = true -> dash_path (join_on "/" ("-" :: r))).
    { clear. intros r. induction r as [|x r IH] using rev_ind; intros H; [constructor|].
      rewrite forallb_app in H. apply andb_true_iff in H as [H1 H2]. specialize (IH H1). clear H1.
      assert (J : forall l y x, join_on "/" (y :: l ++ [x])%list = join_on "/" (y :: l) ++ String "/" x).
      { clear. induction l as [|z l IH]; intros y x; [reflexivity|]. cbn [List.app]. rewrite !join_cons2, IH. rewrite !sapp_assoc. reflexivity. }
      rewrite J. cbn [forallb] in H2. rewrite andb_true_r in H2. apply orb_true_iff in H2 as [H2|H2]; apply String.eqb_eq in H2 as ->.
      - apply dash_slash. exact IH.
      - apply dash_dot. exact IH. }
    rewrite P. apply Q. exact H2.
  - assert (A : forall a b, split_on "/" (a ++ String "/" b) = (split_on "/" a ++ split_on "/" b)%list).
    { clear. induction a as [|x a IH]; intros b; [reflexivity|]. cbn [String.append split_on]. rewrite IH.
      destruct (Ascii.eqb x "/"); [reflexivity|]. pose proof (split_on_nonempty "/" a) as N. destruct (split_on "/" a); [congruence|reflexivity]. }
    induction 1 as [|p _ IH|p _ IH]; [reflexivity| |]; rewrite A; destruct (split_on "/" p) as [|c r]; try discriminate;
      cbn [List.app]; apply andb_true_iff in IH as [I1 I2]; rewrite I1, forallb_app, I2; reflexivity.
Qed.
Print Assumptions C96_what_is_standard_input.

(** The parent of a canonical path. *)
Lemma parent_iff q d : parent q = Some d <-> in_directory q d.
Proof.
  unfold parent, in_directory. destruct (split_once "/" (srev q)) as [[n e]|] eqn:E.
  - apply split_once_spec in E as [E Hn]. assert (Q : q = srev e ++ "/" ++ srev n).
    { rewrite <- (srev_involutive q), E, srev_sapp, srev_cons, sapp_assoc. reflexivity. }
    assert (HR : forall s, has_char "/" (srev s) = has_char "/" s).
    { clear. induction s as [|a s IH]; [reflexivity|]. rewrite srev_cons, has_char_app, IH. cbn [has_char]. rewrite orb_false_r. apply orb_comm. }
    assert (HE : forall s, srev s = "" <-> s = "").
    { clear. intros s. split; [intros H; rewrite <- (srev_involutive s), H; reflexivity|intros ->; reflexivity]. }
    assert (U : forall d' n', q = d' ++ "/" ++ n' -> has_char "/" n' = false -> d' = srev e /\ n' = srev n).
    { intros d' n' Hq Hn'. assert (S : srev q = srev n' ++ String "/" (srev d')).
      { rewrite Hq, srev_sapp. change ("/" ++ n') with (String "/" n'). rewrite srev_cons, sapp_assoc. reflexivity. }
      assert (S2 : split_once "/" (srev q) = Some (srev n', srev d')) by (apply split_once_spec; rewrite HR; auto).
      assert (S3 : split_once "/" (srev q) = Some (n, e)) by (apply split_once_spec; auto).
      assert (Ep : (srev n', srev d') = (n, e)) by congruence. split.
      - rewrite <- (srev_involutive d'). f_equal. congruence.
      - rewrite <- (srev_involutive n'). f_equal. congruence. }
    destruct (String.eqb_spec n "") as [->|Nn].
    + split; [discriminate|]. intros (d' & n' & Hq & N1 & N2 & _). destruct (U d' n' Hq N2) as [_ ->]. now elim N1.
    + split.
      * intros H. exists (srev e), (srev n). split; [exact Q|]. split; [rewrite HE; exact Nn|]. split; [rewrite HR; exact Hn|].
        destruct (String.eqb_spec e "") as [->|Ne]; [cbn; congruence|]. destruct (String.eqb_spec (srev e) "") as [K|K]; [apply (proj1 (HE _)) in K; contradiction|congruence].
      * intros (d' & n' & Hq & N1 & N2 & ->). destruct (U d' n' Hq N2) as [-> ->].
        destruct (String.eqb_spec e "") as [->|Ne]; [reflexivity|]. destruct (String.eqb_spec (srev e) "") as [K|K]; [apply (proj1 (HE _)) in K; contradiction|reflexivity].
  - apply split_once_none in E. split; [discriminate|]. intros (d' & n & -> & _). exfalso.
    rewrite srev_sapp in E. change ("/" ++ n) with (String "/" n) in E. rewrite srev_cons, !has_char_app in E. cbn [has_char] in E.
    rewrite Ascii.eqb_refl in E. destruct (has_char "/" (srev n)); discriminate.
Qed.

(** ** Locating *)
Lemma is_dash_false p : is_dash p = false <-> ~ dash_path p.
Proof. rewrite <- C96_what_is_standard_input. destruct (is_dash p); split; congruence. Qed.
Lemma to_generate_iff m : negb (mc_exists m CARGO_LOCK_FILE) && mc_exists m "Cargo.toml" = true <-> to_generate None m.
Proof. unfold to_generate, CARGO_LOCK_FILE. destruct (mc_exists m "Cargo.lock"), (mc_exists m "Cargo.toml"); cbn; split; intuition congruence. Qed.

Section Statements.
  Context (cargo : list string -> machine -> ending * machine) (parse : string -> outcome lockfile).

  (** A lock file that was named is never generated: no program is run, and it is looked for where it was said to be. *)
  Theorem C96_named_file_as_given : forall p m, locate_or_generate cargo (Some p) m = ([], m, Ok p).
  Proof. reflexivity. Qed.
  (** cargo is run exactly if no lock file was named, there is no [Cargo.lock], and there is a [Cargo.toml]; then it is
      [cargo update --workspace], once. *)
  Theorem C96_when_generated : forall file m,
    (to_generate file m -> fst (fst (locate_or_generate cargo file m)) = [["update"; "--workspace"]] /\
                           snd (fst (locate_or_generate cargo file m)) = snd (cargo ["update"; "--workspace"] m)) /\
    (~ to_generate file m -> fst (locate_or_generate cargo file m) = ([], m)).
  Proof.
    intros [p|] m; [split; [intros (K & _); discriminate|reflexivity]|]. cbn [locate_or_generate].
    destruct (negb (mc_exists m CARGO_LOCK_FILE) && mc_exists m "Cargo.toml") eqn:E.
    - pose proof (proj1 (to_generate_iff m) E) as G. split; [intros _|contradiction].
      unfold generate. fold UPDATE. destruct (cargo UPDATE m) as [[|c|] m']; split; reflexivity.
    - split; [|reflexivity]. intros G. apply to_generate_iff in G. congruence.
  Qed.
  (** Locating succeeds unless cargo had to be run and did not exit with 0; never panics; the file is the one named, or [Cargo.lock]. *)
  Theorem C96_located : forall file m,
    let r := snd (locate_or_generate cargo file m) in
    let p := match file with Some p => p | None => "Cargo.lock" end in
    (r = Err <-> to_generate file m /\ fst (cargo ["update"; "--workspace"] m) <> Exited 0) /\ (r <> Err -> r = Ok p).
  Proof.
    intros [p|] m; [split; [split; [discriminate|intros ((K & _) & _); discriminate]|reflexivity]|]. cbn [locate_or_generate]. cbv zeta.
    destruct (negb (mc_exists m CARGO_LOCK_FILE) && mc_exists m "Cargo.toml") eqn:E.
    - pose proof (proj1 (to_generate_iff m) E) as G. unfold generate. fold UPDATE. destruct (cargo UPDATE m) as [[|c|] m']; cbn [fst snd success obind].
      + split; [split; [intros _; split; [exact G|discriminate]|reflexivity]|congruence].
      + destruct c as [|x|x]; cbn [snd obind]; split.
        * split; [discriminate|intros (_ & K); now elim K].
        * reflexivity.
        * split; [intros _; split; [exact G|discriminate]|reflexivity].
        * congruence.
        * split; [intros _; split; [exact G|discriminate]|reflexivity].
        * congruence.
      + split; [split; [intros _; split; [exact G|discriminate]|reflexivity]|congruence].
    - cbn [snd]. split; [|reflexivity]. split; [discriminate|]. intros (G & _). apply to_generate_iff in G. congruence.
  Qed.

  (** ** Loading *)
  (** What is loaded is the lock file there: from standard input if the path is "-", else from the file. *)
  Theorem C96_what_is_loaded : forall p m l, snd (load_lockfile parse p m) = Ok l <-> lock_file_at parse m p l.
  Proof.
    intros p m l. unfold load_lockfile, lock_file_at, contents, load, read_text.
    destruct (is_dash p) eqn:D; cbn [snd].
    - apply C96_what_is_standard_input in D. split.
      + destruct (mc_stdin m) as [s|]; [|discriminate]. destruct (utf8 s) eqn:U; [|discriminate]. cbn [obind]. intros H.
        exists s. split; [split; [reflexivity|intros K; contradiction]|]. split; [apply C95_what_is_text; exact U|exact H].
      + intros (s & (H & _) & T & P). rewrite (H D). apply C95_what_is_text in T. rewrite T. exact P.
    - apply is_dash_false in D. split.
      + destruct (mc_file m p) as [s|]; [|discriminate]. destruct (utf8 s) eqn:U; [|discriminate]. cbn [obind]. intros H.
        exists s. split; [split; [intros K; contradiction|reflexivity]|]. split; [apply C95_what_is_text; exact U|exact H].
      + intros (s & (_ & H) & T & P). rewrite (H D). apply C95_what_is_text in T. rewrite T. exact P.
  Qed.
  (** Reading a file leaves the machine as it is; standard input can be read once. *)
  Theorem C96_standard_input_once : forall p m, dash_path p ->
    forall s, mc_stdin m = Some s -> mc_stdin (fst (load_lockfile parse p m)) = Some "".
  Proof. intros p m D s H. apply C96_what_is_standard_input in D. unfold load_lockfile. rewrite D, H. reflexivity. Qed.
  Theorem C96_reading_a_file_changes_nothing : forall p m, ~ dash_path p -> fst (load_lockfile parse p m) = m.
  Proof. intros p m D. apply is_dash_false in D. unfold load_lockfile. rewrite D. reflexivity. Qed.

  Lemma load_no_panic p m : (forall s, parse s <> Panic) -> snd (load_lockfile parse p m) <> Panic.
  Proof.
    intros H. unfold load_lockfile, load, read_text.
    destruct (is_dash p); cbn [snd]; [destruct (mc_stdin m) as [s|]|destruct (mc_file m p) as [s|]]; try discriminate; destruct (utf8 s); try discriminate; apply H.
  Qed.

  Context (checkout : config -> option fs_tree) (open_index : bool -> option IndexModel.index) (checks : bool).
  (** ** Auditing *)
  (** cargo audit runs cargo exactly when a lock file is to be generated. *)
  Theorem C96_audit_runs : forall c file m,
    (to_generate file m -> fst (audit_command cargo parse checkout open_index checks c file m) = [["update"; "--workspace"]]) /\
    (~ to_generate file m -> fst (audit_command cargo parse checkout open_index checks c file m) = []).
  Proof.
    intros c file m. destruct (C96_when_generated file m) as [H1 H2]. unfold audit_command.
    destruct (locate_or_generate cargo file m) as [[cs m'] r]. cbn [fst snd] in *.
    assert (E : forall X, fst match r with Ok p => (cs, run_audit checks c (audited checkout open_index (snd (load_lockfile parse p m')))) | Err => (cs, ([], Exit 2)) | Panic => (cs, X) end = cs)
      by (intros X; destruct r; reflexivity).
    rewrite E. split; intros K; [apply H1; exact K|specialize (H2 K); congruence].
  Qed.
  (** What is printed and the exit code are those of auditing the lock file at the path: the one named, or [Cargo.lock] as it
      is after the generation. *)
  Theorem C96_audits_that_file : forall c file m l,
    let p := match file with Some p => p | None => "Cargo.lock" end in
    (to_generate file m -> fst (cargo ["update"; "--workspace"] m) = Exited 0 /\ lock_file_at parse (snd (cargo ["update"; "--workspace"] m)) p l) ->
    (~ to_generate file m -> lock_file_at parse m p l) ->
    snd (audit_command cargo parse checkout open_index checks c file m) = run_audit checks c (mkWorld true checkout (Ok l) open_index).
  Proof.
    intros c file m l p H1 H2. destruct (C96_when_generated file m) as [G1 G2]. destruct (C96_located file m) as [L1 L2].
    unfold audit_command. destruct (locate_or_generate cargo file m) as [[cs m'] r]. cbn [fst snd] in *.
    assert (R : r = Ok p).
    { apply L2. intros K. apply L1 in K as [K1 K2]. destruct (H1 K1). contradiction. }
    rewrite R. cbn [snd]. unfold audited. f_equal. f_equal. apply C96_what_is_loaded.
    destruct (locate_or_generate cargo file m) as [[cs2 m2] r2] eqn:EL.
    assert (D : to_generate file m \/ ~ to_generate file m).
    { destruct file as [x|]; [right; intros (K & _); discriminate|].
      destruct (negb (mc_exists m CARGO_LOCK_FILE) && mc_exists m "Cargo.toml") eqn:E; [left; now apply to_generate_iff|].
      right. intros K. apply to_generate_iff in K. congruence. }
    destruct D as [D|D].
    - destruct (G1 D) as [_ ->]. apply H1. exact D.
    - specialize (G2 D). assert (m' = m) as -> by congruence. apply H2. exact D.
  Qed.
  (** Given the database, the exit code is 2 exactly if cargo had to be run and did not exit with 0, or there is then no lock file
      at the path. *)
  Theorem C96_status_2_exactly : forall c file m t db, checkout c = Some t -> db_open t = Ok db -> (forall s, parse s <> Panic) ->
    let p := match file with Some p => p | None => "Cargo.lock" end in
    let after := snd (cargo ["update"; "--workspace"] m) in
    (snd (snd (audit_command cargo parse checkout open_index checks c file m)) = Exit 2 <->
     (to_generate file m /\ (fst (cargo ["update"; "--workspace"] m) <> Exited 0 \/ ~ exists l, lock_file_at parse after p l)) \/
     (~ to_generate file m /\ ~ exists l, lock_file_at parse m p l)).
  Proof.
    intros c file m t db Hc Hd NP p after. destruct (C96_when_generated file m) as [G1 G2]. destruct (C96_located file m) as [L1 L2].
    assert (D : to_generate file m \/ ~ to_generate file m).
    { destruct file as [x|]; [right; intros (K & _); discriminate|].
      destruct (negb (mc_exists m CARGO_LOCK_FILE) && mc_exists m "Cargo.toml") eqn:E; [left; now apply to_generate_iff|].
      right. intros K. apply to_generate_iff in K. congruence. }
    unfold audit_command. destruct (locate_or_generate cargo file m) as [[cs m'] r] eqn:EL. cbn [fst snd] in *.
    assert (Sx : forall m', snd (run_audit checks c (audited checkout open_index (snd (load_lockfile parse p m')))) = Exit 2 <-> ~ exists l, lock_file_at parse m' p l).
    { intros mm. rewrite (C26_status_2_iff_no_lockfile checks c (audited checkout open_index (snd (load_lockfile parse p mm))) t db Hc Hd). cbn [wd_located wd_lockfile audited].
      pose proof (load_no_panic p mm NP) as X. destruct (snd (load_lockfile parse p mm)) as [l| |] eqn:EX; [| |contradiction].
      - split; [intros [K|K]; discriminate|]. intros K. exfalso. apply K. exists l. apply C96_what_is_loaded. exact EX.
      - split; [|auto]. intros _ (l & K). apply C96_what_is_loaded in K. congruence. }
    destruct r as [p'| |].
    - assert (p' = p) as -> by (assert (Ok p' = Ok p) by (apply L2; discriminate); congruence). cbn [snd]. rewrite Sx. destruct D as [D|D].
      + destruct (G1 D) as [_ Em]. subst m'. fold after. split.
        * intros K. left. auto.
        * intros [(_ & [K|K])|(K & _)]; [|exact K|contradiction]. exfalso. assert (X : Ok p = Err) by (apply L1; auto). discriminate.
      + specialize (G2 D). assert (m' = m) as -> by congruence. split; [intros K; right; auto|]. intros [(K & _)|(_ & K)]; [contradiction|exact K].
    - cbn [snd]. split; [|reflexivity]. intros _. left. destruct (proj1 L1 eq_refl). auto.
    - assert (X : Panic = Ok p) by (apply L2; discriminate). discriminate.
  Qed.

  (** ** Fixing *)
  (** Where the update commands are run: in the directory of the lock file that was named, once links are followed; in the current
      directory if none was. *)
  Definition runs_in (file : option string) (m : machine) (dir : option string) : Prop :=
    match file with
    | None => dir = None
    | Some p => exists q d, mc_canonical m p = Some q /\ in_directory q d /\ dir = Some d
    end.
  Lemma update_dir_iff file m d : update_dir file m = Ok d <-> runs_in file m d.
  Proof.
    unfold update_dir, runs_in. destruct file as [p|]; [|split; congruence]. destruct (mc_canonical m p) as [q|].
    - destruct (parent q) as [x|] eqn:E.
      + apply parent_iff in E. split; [intros H; exists q, x; split; [reflexivity|]; split; [exact E|congruence]|].
        intros (q' & d' & Hq & Hd & ->). injection Hq as <-. apply parent_iff in E, Hd. congruence.
      + split; [discriminate|]. intros (q' & d' & Hq & Hd & ->). injection Hq as <-. apply parent_iff in Hd. congruence.
    - split; [discriminate|]. intros (q & d' & K & _). discriminate.
  Qed.
  (** cargo audit fix on a lock file that is a file: the run of AuditModel ([run_fix], of which C49 and C50 speak) on the lock
      file that was located, with every command run in that file's directory. *)
  Theorem C96_fix_runs : forall c file dry spawn m after cs m1 p,
    locate_or_generate cargo file m = (cs, m1, Ok p) -> ~ dash_path p -> coherent m1 ->
    exists w dir, wd_located w = true /\ wd_checkout w = checkout /\ wd_index w = open_index /\ (forall l, wd_lockfile w = Ok l <-> lock_file_at parse m1 p l) /\
      (exists w', wd_located w' = true /\ wd_checkout w' = checkout /\ wd_index w' = open_index /\ (forall l, wd_lockfile w' = Ok l <-> lock_file_at parse after p l) /\
        fix_command cargo parse checkout open_index checks c file dry spawn m after =
        (cs, map (pair dir) (fst (run_fix checks c dry (spawn dir) w w')), snd (run_fix checks c dry (spawn dir) w w'))) /\
      (fst (run_fix checks c dry (spawn dir) w w) <> [] -> runs_in file m1 dir).
  Proof.
    intros c file dry spawn m after cs m1 p HL ND CO. set (w := audited checkout open_index (snd (load_lockfile parse p m1))).
    set (w' := audited checkout open_index (snd (load_lockfile parse p after))).
    assert (F : load_lockfile parse p m1 = (m1, load parse p m1)) by (unfold load_lockfile; apply is_dash_false in ND; rewrite ND; reflexivity).
    set (dir := match update_dir file m1 with Ok d => d | _ => None end).
    exists w, dir. split; [reflexivity|]. split; [reflexivity|]. split; [reflexivity|]. split; [intros l; apply C96_what_is_loaded|].
    assert (FP : forall q, file = Some q -> q = p) by (intros q ->; cbn in HL; congruence).
    assert (DIR : forall l, load parse p m1 = Ok l -> runs_in file m1 dir).
    { intros l Hl. apply update_dir_iff. unfold dir. destruct file as [q|]; [|reflexivity]. rewrite (FP q eq_refl).
      unfold load, read_text in Hl. destruct (mc_file m1 p) as [s|] eqn:Ms; [|discriminate]. destruct (CO p s Ms) as (y & d & Hy & Hd).
      cbn [update_dir]. rewrite Hy. apply parent_iff in Hd. rewrite Hd. reflexivity. }
    split.
    - exists w'. split; [reflexivity|]. split; [reflexivity|]. split; [reflexivity|]. split; [intros l; apply C96_what_is_loaded|].
      unfold fix_command, run_fix. rewrite HL, F.
      assert (WL : wd_lockfile w = load parse p m1) by (unfold w, audited; cbn [wd_lockfile]; rewrite F; reflexivity).
      rewrite WL. change (negb (wd_located w)) with false. cbv iota.
      change (auditor_new c w) with (auditor_new c (audited checkout open_index (load parse p m1))).
      destruct (auditor_new c (audited checkout open_index (load parse p m1))) as [a|e]; [|reflexivity].
      destruct (audit_lockfile checks a (load parse p m1)) as [[[[r out] a']|]| |] eqn:EA; try reflexivity.
      destruct (vi_list (r_vulns r)) as [|v0 vs0]; [reflexivity|]. remember (v0 :: vs0) as vs. clear Heqvs.
      destruct (load parse p m1) as [l| |] eqn:EL; try reflexivity.
      pose proof (DIR l eq_refl) as RI. apply update_dir_iff in RI.
      assert (EX : existsb (fun v => match patched (a_versions (v_advisory v)) with [] => false | _ => true end) vs = existsb has_patch vs) by reflexivity.
      rewrite EX. clear EX. rewrite RI. unfold fix_status. fold w'.
      destruct (existsb has_patch vs) eqn:EE.
      + destruct (fix_loop checks l dry (spawn dir) vs) as [[cmds un] failed]. reflexivity.
      + assert (NIL : filter has_patch vs = []).
        { clear -EE. induction vs as [|v vs IH]; [reflexivity|]. cbn [existsb] in EE. apply orb_false_iff in EE as [E1 E2]. cbn [filter]. rewrite E1. auto. }
        rewrite !fix_loop_spec, NIL. cbn [map filter List.length]. reflexivity.
    - intros NE. assert (WL : wd_lockfile w = load parse p m1) by (unfold w, audited; cbn [wd_lockfile]; rewrite F; reflexivity).
      destruct (load parse p m1) as [l| |]; [apply (DIR l); reflexivity| |]; exfalso; apply NE; unfold run_fix;
        destruct (negb (wd_located w)); try reflexivity; destruct (auditor_new c w); try reflexivity; rewrite WL; reflexivity.
  Qed.
End Statements.
Print Assumptions C96_named_file_as_given.
Print Assumptions C96_when_generated.
Print Assumptions C96_located.
Print Assumptions C96_what_is_loaded.
Print Assumptions C96_standard_input_once.
Print Assumptions C96_reading_a_file_changes_nothing.
Print Assumptions C96_audit_runs.
Print Assumptions C96_audits_that_file.
Print Assumptions C96_status_2_exactly.
Print Assumptions C96_fix_runs.

(** If the lock file cannot be located, nothing is run to update it and the exit code is 2. *)
Theorem C96_fix_not_located : forall cargo parse checkout open_index checks c file dry spawn m after,
  to_generate file m -> fst (cargo ["update"; "--workspace"] m) <> Exited 0 ->
  fix_command cargo parse checkout open_index checks c file dry spawn m after = ([["update"; "--workspace"]], [], Exit 2).
Proof.
  intros cargo parse checkout open_index checks c file dry spawn m after G H.
  destruct (C96_when_generated cargo file m) as [G1 _]. destruct (C96_located cargo file m) as [L1 _]. unfold fix_command.
  destruct (locate_or_generate cargo file m) as [[cs m'] r]. cbn [fst snd] in *. destruct (G1 G) as [-> _].
  assert (r = Err) as -> by (apply L1; auto). reflexivity.
Qed.
Print Assumptions C96_fix_not_located.

(** Updating the lock file on standard input: if it has no vulnerability nothing is run and the exit code is 0; if it has one the
    program crashes without running a command, unless there is a lock file whose name is "-". *)
Theorem C96_fix_of_standard_input : forall cargo parse checkout open_index checks c p dry spawn m after truth t db l,
  dash_path p -> lock_file_at parse m p l -> checkout c = Some t -> db_open t = Ok db ->
  index_answers c (mkWorld true checkout (Ok l) open_index) truth -> printable checks c (db_iter db) l ->
  (forall s, mc_file m p = Some s -> ~ is_text s) ->
  exists r, report_generate checks db (lk_packages l) (report_settings c) = Ok r /\
    (vi_list (r_vulns r) = [] -> fix_command cargo parse checkout open_index checks c (Some p) dry spawn m after = ([], [], Exit 0)) /\
    (vi_list (r_vulns r) <> [] -> fix_command cargo parse checkout open_index checks c (Some p) dry spawn m after = ([], [], Crash)).
Proof.
  intros cargo parse checkout open_index checks c p dry spawn m after truth t db l D HL Hc Hd I P NF.
  set (w := mkWorld true checkout (Ok l) open_index).
  destruct (auditor_new_ok c w t db Hc Hd) as (a & EA & Ac & Ad & As & Ai).
  destruct (new_index_ok c w truth a I Ai) as (Io & _).
  destruct (audit_spec checks t a l truth) as (r0 & ws & r & out & a' & E & Er & EA' & _).
  { rewrite Ad. exact Hd. } { exact Io. } { rewrite Ac, Ad. exact P. }
  destruct (self_spec checks t db Hd) as (s & ES & _). rewrite Ac, Ad in E. exists r0. split; [exact E|].
  apply C96_what_is_loaded in HL.
  assert (FC : fix_command cargo parse checkout open_index checks c (Some p) dry spawn m after =
               match vi_list (r_vulns r0) with [] => ([], [], Exit 0) | _ => ([], [], Crash) end).
  { unfold fix_command. cbn [locate_or_generate]. destruct (load_lockfile parse p m) as [m2 x] eqn:EL. cbn [snd] in HL. subst x.
    change (auditor_new c (audited checkout open_index (Ok l))) with (auditor_new c w). rewrite EA. unfold audit_lockfile. rewrite EA'. cbn [obind].
    rewrite Ad, ES. cbn [obind fst snd]. rewrite Er, with_yanked_vulns. destruct (vi_list (r_vulns r0)) as [|v vs]; [reflexivity|].
    assert (LF : load parse p m2 = Err).
    { assert (MF : mc_file m2 = mc_file m) by (unfold load_lockfile in EL; destruct (is_dash p); injection EL as <- _; reflexivity).
      unfold load, read_text. rewrite MF. destruct (mc_file m p) as [b|] eqn:EB; [|reflexivity].
      destruct (utf8 b) eqn:U; [|reflexivity]. apply C95_what_is_text in U. elim (NF b eq_refl U). }
    rewrite LF. reflexivity. }
  rewrite FC. destruct (vi_list (r_vulns r0)); split; congruence.
Qed.
Print Assumptions C96_fix_of_standard_input.

(** ** Examples *)
Definition ex_parse (s : string) : outcome lockfile := if String.eqb s "lock" then Ok ex_lock else Err.
Definition ex_machine (has_lock : bool) : machine :=
  mkMachine (fun p => if String.eqb p "Cargo.toml" then true else has_lock && String.eqb p "Cargo.lock")
            (fun p => if (has_lock && String.eqb p "Cargo.lock") || String.eqb p "ws/Cargo.lock" then Some "lock" else None)
            (Some "lock")
            (fun p => if has_lock && String.eqb p "Cargo.lock" then Some "/home/p/Cargo.lock"
                      else if String.eqb p "ws/Cargo.lock" then Some "/home/ws/Cargo.lock" else None).
Definition ex_cargo (code : Z) (args : list string) (m : machine) : ending * machine := (Exited code, ex_machine (Z.eqb code 0)).
Definition ex_check : config -> option fs_tree := fun _ => Some ex_tree.
Example C96_nonvacuous :
  coherent (ex_machine true) /\ to_generate None (ex_machine false) /\ ~ to_generate None (ex_machine true) /\
  (exists l, lock_file_at ex_parse (ex_machine true) "-/." l) /\
  audit_command (ex_cargo 0) ex_parse ex_check (fun _ => None) false ex_config None (ex_machine false) =
    ([["update"; "--workspace"]], run_audit false ex_config ex_world) /\
  snd (snd (audit_command (ex_cargo 101) ex_parse ex_check (fun _ => None) false ex_config None (ex_machine false))) = Exit 2 /\
  map fst (snd (fst (fix_command (ex_cargo 0) ex_parse ex_check (fun _ => None) false ex_config (Some "ws/Cargo.lock") false (fun _ _ => true) (ex_machine true) (ex_machine true))))
    = [Some "/home/ws"; Some "/home/ws"] /\
  map fst (snd (fst (fix_command (ex_cargo 0) ex_parse ex_check (fun _ => None) false ex_config None false (fun _ _ => true) (ex_machine true) (ex_machine true))))
    = [None; None].
Proof.
  split; [|split; [|split; [|split; [|split; [|split; [|split]]]]]].
  - intros p s. cbn. destruct (String.eqb p "Cargo.lock"); cbn.
    + intros _. exists "/home/p/Cargo.lock", "/home/p". split; [reflexivity|]. exists "/home/p", "Cargo.lock". split; [reflexivity|]. split; [discriminate|]. split; reflexivity.
    + destruct (String.eqb p "ws/Cargo.lock"); [|discriminate]. intros _. exists "/home/ws/Cargo.lock", "/home/ws". split; [reflexivity|].
      exists "/home/ws", "Cargo.lock". split; [reflexivity|]. split; [discriminate|]. split; reflexivity.
  - split; [reflexivity|]. split; reflexivity.
  - intros (_ & K & _). discriminate.
  - exists ex_lock. apply C96_what_is_loaded. reflexivity.
  - vm_compute. reflexivity.
  - vm_compute. reflexivity.
  - vm_compute. reflexivity.
  - vm_compute. reflexivity.
Qed.
(** "Whatever lock file can be audited can be fixed" fails: the lock file on standard input is audited, with its findings
    and exit code 1, but [cargo audit fix --file -] crashes on it. *)
Theorem C96_fix_of_standard_input_refuted :
  audit_command (ex_cargo 0) ex_parse ex_check (fun _ => None) false ex_config (Some "-") (ex_machine true) = ([], run_audit false ex_config ex_world) /\
  snd (run_audit false ex_config ex_world) = Exit 1 /\
  fix_command (ex_cargo 0) ex_parse ex_check (fun _ => None) false ex_config (Some "-") true (fun _ _ => true) (ex_machine true) (ex_machine true) = ([], [], Crash).
Proof. split; [vm_compute; reflexivity|]. split; vm_compute; reflexivity. Qed.
Print Assumptions C96_fix_of_standard_input_refuted.
