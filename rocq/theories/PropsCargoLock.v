(** C97: the package lock of cargo, the locks of the database directories, and the cargo an audit runs (CargoLockModel.v). *)
From Coq Require Import List NArith Ascii String Bool Arith Lia.
From Verif Require Import Base AuditModel CargoLockModel.
Import ListNotations.
Local Open Scope string_scope.
Local Open Scope list_scope.

(** * What is said *)
(** The process has a lock: the package lock, itself or through the cargo it runs, or that of a directory. *)
Definition holds (s : shared) (i : nat) : Prop := s_audit s = Some i \/ s_cargo s = Some i \/ exists l, s_db s l = Some i.
(** It is waiting for a lock: for the package lock, itself or the cargo it runs, or for the lock of its database's directory. *)
Definition waiting (x : pstate) : Prop :=
  match x with WaitDb _ | WaitPkg _ | Started _ _ => True | _ => False end.
(** It runs cargo. *)
Definition runs_cargo (x : pstate) : Prop := match x with Started _ _ | Updating _ _ => True | _ => False end.
(** Process [i] waits for process [j], who has what it needs. *)
Definition waits_for (dir : nat -> string) (s : shared) (i j : nat) : Prop :=
  match s_proc s i with
  | WaitDb _ => s_db s (dir i) = Some j
  | WaitPkg _ => s_cargo s = Some j \/ s_audit s = Some j
  | Started _ _ => s_cargo s = Some j \/ s_audit s = Some j
  | _ => False
  end.
(** Process [i] can go on by itself, neither killed nor giving up. *)
Definition can_go_on (dir : nat -> string) (s : shared) (i : nat) : Prop := exists s', step dir i Ahead s s'.
(** At most how often a process steps: by the cargo commands it may run. *)
Definition steps_of (j : job) : nat :=
  match j with
  | JAudit g _ => 4 * List.length g + 8
  | JFix g u _ _ => 4 * List.length g + 4 * List.length u + 20
  | JBin _ => 8
  end.
Fixpoint total (f : nat -> nat) (n : nat) : nat := match n with 0 => 0 | S m => f m + total f m end.

(** * The discipline: no cargo while the package lock is had. *)
Inductive ok : bool -> prog -> Prop :=
  | ok_done h : ok h Done
  | ok_choose h a b : ok h a -> ok h b -> ok h (Choose a b)
  | ok_exec c k : ok false k -> ok false (Exec c k)
  | ok_db k : (forall b, ok false (k b)) -> ok false (Db k)
  | ok_pkg k : ok true (k true) -> ok false (k false) -> ok false (Pkg k)
  | ok_drop h k : ok false k -> ok h (Drop k).

Lemma ok_auditor c k : (forall b, ok b (k b)) -> ok false (auditor c k).
Proof.
  intros H. assert (I : ok false (if cf_yanked c then Pkg k else k false)) by (destruct (cf_yanked c); [constructor|]; auto).
  unfold auditor. cbv zeta. destruct (cf_fetch c); [constructor; intros []|]; repeat constructor; exact I.
Qed.
Lemma ok_locate cs k : ok false k -> ok false (locate cs k).
Proof. intros H. induction cs; cbn [locate]; [exact H|]. repeat constructor. exact IHcs. Qed.
Lemma ok_execs cs k : ok false k -> ok false (execs cs k).
Proof. intros H. induction cs; cbn [execs]; [exact H|]. repeat constructor. exact IHcs. Qed.
Lemma ok_prog j : ok false (prog_of j).
Proof.
  destruct j as [g c|g u c n|c]; cbn [prog_of]; unfold audit_prog, fix_prog, bin_prog.
  - apply ok_locate, ok_auditor. intros b. constructor.
  - apply ok_locate, ok_auditor. intros b. constructor. constructor; [constructor|]. apply ok_execs. destruct n; [constructor|].
    constructor; [constructor|]. apply ok_auditor. intros b'. constructor.
  - apply ok_auditor. intros b. constructor.
Qed.

(** * The invariant: what a process has, by where it is *)
Definition has_what (dir : nat -> string) (i : nat) (x : pstate) (sh ex : Prop) (db : string -> Prop) : Prop :=
  match x with
  | Run p => (ok true p /\ sh \/ ok false p /\ ~ sh) /\ ~ ex /\ forall l, ~ db l
  | WaitDb k => (forall b, ok false (k b)) /\ ~ sh /\ ~ ex /\ forall l, ~ db l
  | Fetching k => (forall b, ok false (k b)) /\ ~ sh /\ ~ ex /\ forall l, db l <-> l = dir i
  | WaitPkg k => (ok true (k true) /\ ok false (k false)) /\ ~ sh /\ ~ ex /\ forall l, ~ db l
  | Started _ k => ok false k /\ ~ sh /\ ~ ex /\ forall l, ~ db l
  | Updating _ k => ok false k /\ ~ sh /\ ex /\ forall l, ~ db l
  | Ended => ~ sh /\ ~ ex /\ forall l, ~ db l
  end.
Definition inv (dir : nat -> string) (s : shared) : Prop :=
  (forall i, has_what dir i (s_proc s i) (s_audit s = Some i) (s_cargo s = Some i) (fun l => s_db s l = Some i)) /\
  (s_cargo s <> None -> s_audit s = None).

Lemma set_same i x f : set_proc i x f i = x.
Proof. unfold set_proc. rewrite Nat.eqb_refl. reflexivity. Qed.
Lemma set_other i j x f : j <> i -> set_proc i x f j = f j.
Proof. intros H. unfold set_proc. destruct (Nat.eqb_spec j i); [contradiction|reflexivity]. Qed.
Lemma release_some i j o : release i o = Some j <-> o = Some j /\ j <> i.
Proof. destruct o as [k|]; cbn; [|intuition discriminate]. destruct (Nat.eqb_spec k i); intuition congruence. Qed.

Lemma has_what_iff dir i x sh ex db sh' ex' db' :
  (sh <-> sh') -> (ex <-> ex') -> (forall l, db l <-> db' l) -> has_what dir i x sh ex db -> has_what dir i x sh' ex' db'.
Proof.
  intros A B C. assert (D : (forall l, ~ db l) -> forall l, ~ db' l) by (intros H l E; apply (H l), C, E).
  assert (F : (forall l, db l <-> l = dir i) -> forall l, db' l <-> l = dir i) by (intros H l; rewrite <- C; apply H).
  destruct x; cbn; intuition.
Qed.

Lemma inv_start dir progs : (forall i p, progs i = Some p -> ok false p) -> inv dir (start progs).
Proof.
  intros H. split; [intros i|intros E; now elim E]. unfold start; cbn [s_proc s_audit s_cargo s_db].
  destruct (progs i) as [p|] eqn:E; cbn.
  - split; [right; split; [eapply H; exact E|discriminate]|]. split; [|intros l]; discriminate.
  - split; [discriminate|]. split; [|intros l]; discriminate.
Qed.

(** What a process does leaves what the others have alone. *)
Lemma step_frame dir i w s s' : inv dir s -> step dir i w s s' -> forall j, j <> i ->
  s_proc s' j = s_proc s j /\ (s_audit s' = Some j <-> s_audit s = Some j) /\ (s_cargo s' = Some j <-> s_cargo s = Some j) /\
  forall l, s_db s' l = Some j <-> s_db s l = Some j.
Proof.
  intros (I & _) T j N. specialize (I i).
  inversion T; subst; cbn [s_proc s_audit s_cargo s_db] in *;
    rewrite ?(set_other i j) by assumption; (split; [reflexivity|]); rewrite ?release_some, ?release_some; cbn [In];
    repeat split; try tauto; try (intuition congruence).
  - intros X. match goal with F : f i = _ |- _ => rewrite F in I end. destruct I as (_ & _ & E & _). congruence.
  - unfold set_db. destruct (String.eqb_spec l (dir i)) as [e|e]; congruence.
  - unfold set_db. destruct (String.eqb_spec l (dir i)) as [e|e]; [subst l|]; congruence.
  - unfold set_db. destruct (String.eqb_spec l (dir i)) as [e|e]; congruence.
  - unfold set_db. destruct (String.eqb_spec l (dir i)) as [e|e]; [|congruence]. intros X. exfalso.
    match goal with F : f i = _ |- _ => rewrite F in I end. destruct I as (_ & _ & _ & E). pose proof (proj2 (E l) e). congruence.
  - intros X. unfold release_db in X. apply release_some in X. tauto.
  - intros X. apply release_some. tauto.
Qed.
Lemma set_db_mine dir i (d : string -> option nat) : (forall l, d l <> Some i) -> forall l, set_db (dir i) (Some i) d l = Some i <-> l = dir i.
Proof. intros H l. unfold set_db. destruct (String.eqb_spec l (dir i)) as [e|e]; [tauto|]. split; [intros X; now elim (H l)|contradiction]. Qed.
Lemma inv_step dir i w s s' : inv dir s -> step dir i w s s' -> inv dir s'.
Proof.
  intros Hi T. pose proof (step_frame _ _ _ _ _ Hi T) as Fr. destruct Hi as (I & A). split.
  - intros j. destruct (Nat.eq_dec j i) as [->|N].
    + clear Fr. specialize (I i). inversion T; subst; cbn [s_proc s_audit s_cargo s_db] in *; rewrite set_same;
        repeat match goal with F : _ = Run _ \/ _ |- _ => destruct F end;
        match goal with F : ?g ?n = _ |- _ => rewrite F in I | _ => idtac end; cbn in I |- *.
      all: try (destruct I as ([[X ?]|[X ?]] & ? & ?); inversion X; subst; tauto).
      * rewrite release_some. tauto.
      * destruct I as ([[X ?]|[X ?]] & ? & ?); inversion X; subst; rewrite release_some; tauto.
      * tauto.
      * destruct I as (? & ? & ? & ?). split; [tauto|]. split; [discriminate|assumption].
      * destruct I as ([[X ?]|[X ?]] & ? & ?); inversion X; subst. auto.
      * destruct I as ([[X ?]|[X ?]] & ? & ?); inversion X; subst. repeat (split; [assumption|]). apply (set_db_mine dir i d). assumption.
      * destruct I as (X & ? & ? & ?). repeat (split; [assumption|]). apply (set_db_mine dir i d). assumption.
      * destruct I as (X & ? & ? & ?). auto.
      * destruct I as (X & ? & ? & Y). split; [auto|]. split; [assumption|]. intros l. unfold set_db.
        destruct (String.eqb_spec l (dir i)); [discriminate|]. rewrite Y. assumption.
      * destruct I as ((X & ?) & ? & ? & ?). split; [auto|]. split; [discriminate|assumption].
      * destruct I as ((X & ?) & ? & ? & ?). auto.
      * destruct I as ((X & ?) & ? & ? & ?). auto.
      * rewrite release_some, release_some. split; [tauto|]. split; [tauto|]. intros l. unfold release_db. rewrite release_some. tauto.
    + destruct (Fr j N) as (E & B & C & D). rewrite E. eapply has_what_iff; [symmetry; exact B|symmetry; exact C| |apply I].
      intros l. symmetry. apply D.
  - inversion T; subst; cbn [s_audit s_cargo] in *; try exact A; try reflexivity; try congruence.
    + intros X. rewrite (A X). reflexivity.
    + intros X. rewrite (A X). reflexivity.
    + intros X. rewrite A; [reflexivity|]. intros ->. now apply X.
Qed.
Lemma inv_reach dir progs t s : (forall i p, progs i = Some p -> ok false p) -> reach dir progs t s -> inv dir s.
Proof. intros H R. induction R as [|t i w s s' R IH T]; [apply inv_start, H|eapply inv_step; eassumption]. Qed.
Lemma ok_programs jobs i p : programs jobs i = Some p -> ok false p.
Proof. unfold programs. destruct (jobs i); [|discriminate]. intros [= <-]. apply ok_prog. Qed.
Lemma inv_jobs dir jobs t s : reach dir (programs jobs) t s -> inv dir s.
Proof. apply inv_reach, ok_programs. Qed.

(** * C97 *)
(** An audit that runs cargo has no lock, of cargo's or of a database: the cargo never waits for the audit that runs it.  And whoever
    waits for a lock has none, so that nobody waits for one who waits. *)
Theorem C97_waits_empty_handed : forall dir jobs t s i, reach dir (programs jobs) t s ->
  (waiting (s_proc s i) -> ~ holds s i) /\
  (runs_cargo (s_proc s i) -> ~ s_audit s = Some i /\ forall l, s_db s l <> Some i).
Proof.
  intros dir jobs t s i R. destruct (inv_jobs _ _ _ _ R) as (I & _). specialize (I i).
  unfold holds. destruct (s_proc s i); cbn in I |- *; (split; intros X); try tauto; destruct I as (_ & ? & ? & H).
  all: try (intros [?|[?|[l E]]]; try contradiction; now apply (H l)).
  all: split; [assumption|]; exact H.
Qed.
Theorem C97_nobody_waits_for_who_waits : forall dir jobs t s i j, reach dir (programs jobs) t s ->
  waits_for dir s i j -> holds s j /\ ~ waiting (s_proc s j) /\ i <> j.
Proof.
  intros dir jobs t s i j R W.
  assert (Hj : holds s j) by (unfold waits_for, holds in *; destruct (s_proc s i); eauto; try contradiction; tauto).
  split; [exact Hj|]. split; [intros X; exact (proj1 (C97_waits_empty_handed _ _ _ _ j R) X Hj)|]. intros ->.
  refine (proj1 (C97_waits_empty_handed _ _ _ _ j R) _ Hj). unfold waits_for in W. destruct (s_proc s j); cbn; tauto.
Qed.

(** A lock is had by one process at a time; the package lock by an audit or by a cargo; who has ended has none. *)
Theorem C97_the_locks : forall dir jobs t s i, reach dir (programs jobs) t s ->
  (s_cargo s = Some i <-> exists c k, s_proc s i = Updating c k) /\
  (forall l, s_db s l = Some i <-> (exists k, s_proc s i = Fetching k) /\ dir i = l) /\
  (s_audit s = Some i -> exists p, s_proc s i = Run p) /\
  (forall j, s_cargo s = Some j -> s_audit s = None) /\
  (s_proc s i = Ended -> ~ holds s i).
Proof.
  intros dir jobs t s i R. destruct (inv_jobs _ _ _ _ R) as (I & A). specialize (I i). split; [|split; [|split; [|split]]].
  - destruct (s_proc s i) eqn:E; cbn in I; (split; [intros X; try solve [exfalso; tauto]|intros (c & k' & X); try discriminate; try tauto]); eauto.
  - intros l. destruct (s_proc s i) eqn:E; cbn in I;
      (split; [intros X; try solve [exfalso; now apply (proj2 (proj2 (proj2 I)) l)|exfalso; now apply (proj2 (proj2 I) l)]|
               intros ((k' & X) & Y); try discriminate]).
    + split; [eauto|]. symmetry. now apply I.
    + now apply I.
  - intros X. destruct (s_proc s i) eqn:E; cbn in I; try tauto. eauto.
  - intros j X. apply A. congruence.
  - intros E [X|[X|[l X]]]; rewrite E in I; cbn in I; try tauto. now apply (proj2 (proj2 I) l).
Qed.

(** No deadlock: each process has ended, or can go on by itself, or waits for one that can. *)
Theorem C97_no_deadlock : forall dir jobs t s i, reach dir (programs jobs) t s ->
  s_proc s i = Ended \/ can_go_on dir s i \/ exists j, waits_for dir s i j /\ can_go_on dir s j.
Proof.
  intros dir jobs t s i R. pose proof (fun j => C97_the_locks dir jobs t s j R) as L.
  destruct s as [h o d f]. cbn [s_audit s_cargo s_db s_proc] in *.
  assert (Run_on : forall j p, f j = Run p -> can_go_on dir (mkShared h o d f) j).
  { intros j p E. destruct p; eexists.
    - now apply s_end.
    - eapply s_left; eassumption.
    - eapply s_start; eassumption.
    - eapply s_db_refused; eassumption.
    - eapply s_no_index; eassumption.
    - eapply s_drop; eassumption. }
  assert (Excl : forall j, o = Some j -> can_go_on dir (mkShared h o d f) j).
  { intros j E. destruct (proj1 (proj1 (L j)) E) as (c & k & X). eexists. eapply s_cargo_ends; eassumption. }
  destruct (f i) eqn:E.
  - right. left. eapply Run_on; eassumption.
  - right. destruct (d (dir i)) as [j|] eqn:D.
    + right. exists j. unfold waits_for. cbn [s_proc s_db]. rewrite E. split; [exact D|].
      destruct (proj1 (proj1 (proj2 (L j)) (dir i)) D) as ((k' & X) & Y). eexists. eapply s_db_done with (ok := true); eassumption.
    + left. eexists. eapply s_db_takes; [right; eassumption|assumption].
  - right. left. eexists. eapply s_db_done with (ok := true); eassumption.
  - right. destruct o as [j|] eqn:O; [|destruct h as [j|] eqn:K].
    + right. exists j. unfold waits_for. cbn [s_proc s_cargo]. rewrite E. split; [now left|]. now apply Excl.
    + right. exists j. unfold waits_for. cbn [s_proc s_audit s_cargo]. rewrite E. split; [now right|].
      destruct (proj1 (proj2 (proj2 (L j))) eq_refl) as (p & X). eapply Run_on; eassumption.
    + left. eexists. eapply s_pkg_takes. right. eassumption.
  - right. destruct o as [j|] eqn:O; [|destruct h as [j|] eqn:K].
    + right. exists j. unfold waits_for. cbn [s_proc s_cargo]. rewrite E. split; [now left|]. now apply Excl.
    + right. exists j. unfold waits_for. cbn [s_proc s_audit s_cargo]. rewrite E. split; [now right|].
      destruct (proj1 (proj2 (proj2 (L j))) eq_refl) as (p & X). eapply Run_on; eassumption.
    + left. eexists. eapply s_cargo_takes; eassumption.
  - right. left. eexists. eapply s_cargo_ends; eassumption.
  - now left.
Qed.

(** * Every process ends *)
Fixpoint size (p : prog) : nat :=
  match p with
  | Done => 1
  | Choose a b => S (Nat.max (size a) (size b))
  | Exec _ k => 3 + size k
  | Db k => 3 + Nat.max (size (k true)) (size (k false))
  | Pkg k => 2 + Nat.max (size (k true)) (size (k false))
  | Drop k => S (size k)
  end.
Definition left_of (x : pstate) : nat :=
  match x with
  | Run p => size p
  | WaitDb k => 2 + Nat.max (size (k true)) (size (k false))
  | Fetching k => 1 + Nat.max (size (k true)) (size (k false))
  | WaitPkg k => 1 + Nat.max (size (k true)) (size (k false))
  | Started _ k => 2 + size k
  | Updating _ k => 1 + size k
  | Ended => 0
  end.
Lemma step_left dir i w s s' : step dir i w s s' -> left_of (s_proc s' i) < left_of (s_proc s i) /\ forall j, j <> i -> s_proc s' j = s_proc s j.
Proof.
  intros T. inversion T; subst; cbn [s_proc]; (split; [rewrite set_same|intros x X; now apply set_other]);
    repeat match goal with F : _ = Run _ \/ _ |- _ => destruct F end.
  all: try (match goal with F : _ = _ |- _ => rewrite F end; cbn [left_of size]; try lia).
  all: try match goal with b : bool |- _ => destruct b; lia end.
  all: destruct (f i) as [[]| | | | | |]; cbn; try lia; contradiction.
Qed.
Lemma reach_left dir progs t s : reach dir progs t s ->
  forall i, count_occ Nat.eq_dec t i + left_of (s_proc s i) <= match progs i with Some p => size p | None => 0 end.
Proof.
  intros R. induction R as [|t i w s s' R IH T]; intros j.
  - cbn. destruct (progs j); cbn; lia.
  - destruct (step_left _ _ _ _ _ T) as (A & B). specialize (IH j). cbn [count_occ]. destruct (Nat.eq_dec i j) as [->|N].
    + lia.
    + rewrite B by congruence. lia.
Qed.
Lemma size_auditor c k n : (forall b, size (k b) <= n) -> size (auditor c k) <= 7 + n.
Proof.
  intros H. pose proof (H true). pose proof (H false). unfold auditor. cbv zeta.
  destruct (cf_yanked c), (cf_fetch c); cbn [size]; lia.
Qed.
Lemma size_pos p : size p > 0.
Proof. destruct p; cbn; lia. Qed.
Lemma size_locate cs k : size (locate cs k) <= 4 * List.length cs + size k.
Proof. pose proof (size_pos k). induction cs as [|c cs IH]; cbn [locate size List.length]; [lia|]. pose proof (size_pos (locate cs k)). lia. Qed.
Lemma size_execs cs k : size (execs cs k) <= 4 * List.length cs + size k.
Proof. pose proof (size_pos k). induction cs as [|c cs IH]; cbn [execs size List.length]; lia. Qed.
Lemma size_prog j : size (prog_of j) <= steps_of j.
Proof.
  destruct j as [g c|g u c n|c]; cbn [prog_of steps_of]; unfold audit_prog, fix_prog, bin_prog.
  - eapply Nat.le_trans; [apply size_locate|]. pose proof (size_auditor c (fun _ => Done) 1 (fun _ => le_n _)). lia.
  - eapply Nat.le_trans; [apply size_locate|].
    pose proof (size_auditor c (fun _ => Done) 1 (fun _ => le_n _)) as A.
    set (last := if n then Done else _). assert (L : size last <= 9) by (unfold last; destruct n; cbn [size] in *; lia).
    pose proof (size_execs u last) as E. clearbody last.
    assert (B : size (auditor c (fun _ : bool => Drop (Choose Done (execs u last)))) <= 7 + (4 * List.length u + 11)); [|lia].
    apply size_auditor. intros _. cbn [size]. pose proof (size_pos (execs u last)). lia.
  - pose proof (size_auditor c (fun _ => Done) 1 (fun _ => le_n _)). lia.
Qed.

(** Whatever the others do, a process steps no more often than that: it never waits in a loop. *)
Theorem C97_each_ends : forall dir jobs t s i, reach dir (programs jobs) t s ->
  count_occ Nat.eq_dec t i <= match jobs i with Some j => steps_of j | None => 0 end.
Proof.
  intros dir jobs t s i R. pose proof (reach_left _ _ _ _ R i) as H. unfold programs in H.
  destruct (jobs i) as [j|]; cbn in H; [pose proof (size_prog j)|]; lia.
Qed.
(** So with finitely many processes every history is finite, and when nothing more can happen by itself all of them have ended. *)
Lemma count_total t n : (forall i, count_occ Nat.eq_dec t i > 0 -> i < n) -> List.length t = total (count_occ Nat.eq_dec t) n.
Proof.
  assert (Z : forall m, total (count_occ Nat.eq_dec []) m = 0) by (intros m; induction m; cbn; auto).
  assert (S1 : forall a u m, total (count_occ Nat.eq_dec (a :: u)) m = (if Nat.ltb a m then 1 else 0) + total (count_occ Nat.eq_dec u) m).
  { intros a u m. induction m as [|m IH]; [reflexivity|]. cbn [total]. rewrite IH. cbn [count_occ].
    destruct (Nat.eq_dec a m), (Nat.ltb_spec a m), (Nat.ltb_spec a (S m)); lia. }
  induction t as [|a t IH]; intros H; [rewrite Z; reflexivity|]. rewrite S1. cbn [List.length]. rewrite <- IH.
  - assert (a < n). { apply H. cbn [count_occ]. destruct (Nat.eq_dec a a); [lia|contradiction]. }
    destruct (Nat.ltb_spec a n); lia.
  - intros i X. apply H. cbn [count_occ]. destruct (Nat.eq_dec a i); lia.
Qed.
Lemma total_le f g n : (forall i, f i <= g i) -> total f n <= total g n.
Proof. intros H. induction n; cbn; [lia|]. specialize (H n). lia. Qed.
Theorem C97_all_end : forall dir jobs t s n, (forall i, jobs i <> None -> i < n) -> reach dir (programs jobs) t s ->
  List.length t <= total (fun i => match jobs i with Some j => steps_of j | None => 0 end) n /\
  ((forall i, ~ can_go_on dir s i) -> forall i, s_proc s i = Ended).
Proof.
  intros dir jobs t s n F R. split.
  - rewrite (count_total t n).
    + apply total_le. intros i. eapply C97_each_ends; eassumption.
    + intros i X. apply F. intros E. pose proof (C97_each_ends _ _ _ _ i R) as Y. rewrite E in Y. lia.
  - intros H i. destruct (C97_no_deadlock _ _ _ _ i R) as [E|[E|(j & _ & E)]]; [exact E|now elim (H i)|now elim (H j)].
Qed.

(** * Examples *)
Ltac go R i tac :=
  match type of R with reach ?d ?p ?t ?s =>
    let T := fresh in eassert (T : step d i Ahead s _) by tac; apply (r_step _ _ _ _ _ _ _ R) in T; clear R; rename T into R end.
(** The order matters: an audit that made its auditor before it generated the lock file would wait for itself for ever. *)
Definition wrong_order (cs : list (list string)) (c : config) : prog := auditor c (fun _ => locate cs Done).
Definition one_directory : nat -> string := fun _ => "db"%string.
Definition wrong_programs (i : nat) : option prog :=
  match i with 0 => Some (wrong_order [["update"; "--workspace"]%string] default_config) | S _ => None end.
Example C97_the_order_matters : exists s, reach one_directory wrong_programs [0; 0; 0; 0; 0] s /\
  waits_for one_directory s 0 0 /\ forall i, ~ can_go_on one_directory s i.
Proof.
  pose proof (r_start one_directory wrong_programs) as R. unfold start in R.
  go R 0 ltac:(eapply s_db_takes; [left|]; reflexivity).
  go R 0 ltac:(eapply s_db_done with (ok := true); reflexivity).
  go R 0 ltac:(eapply s_right; reflexivity).
  go R 0 ltac:(eapply s_pkg_takes; left; reflexivity).
  go R 0 ltac:(eapply s_start; reflexivity).
  eexists. split; [exact R|]. split; [right; reflexivity|]. intros i (s' & T). destruct i as [|i]; inversion T; subst;
    repeat match goal with F : _ \/ _ |- _ => destruct F end; discriminate.
Qed.
(** Two fixes in two directories with one database: the second's cargo waits for the first's audit, which goes on. *)
Definition two_fixes (i : nat) : option job :=
  match i with 0 | 1 => Some (JFix [] [["update"; "--package"; "a"]%string] default_config false) | _ => None end.
Example C97_example : exists t s, reach one_directory (programs two_fixes) t s /\
  waits_for one_directory s 1 0 /\ can_go_on one_directory s 0.
Proof.
  pose proof (r_start one_directory (programs two_fixes)) as R. unfold start in R.
  go R 1 ltac:(eapply s_db_takes; [left|]; reflexivity).
  go R 1 ltac:(eapply s_db_done with (ok := true); reflexivity).
  go R 1 ltac:(eapply s_right; reflexivity).
  go R 1 ltac:(eapply s_pkg_takes; left; reflexivity).
  go R 1 ltac:(eapply s_drop; reflexivity).
  go R 1 ltac:(eapply s_right; reflexivity).
  go R 1 ltac:(eapply s_right; reflexivity).
  go R 1 ltac:(eapply s_start; reflexivity).
  go R 0 ltac:(eapply s_db_takes; [left|]; reflexivity).
  go R 0 ltac:(eapply s_db_done with (ok := true); reflexivity).
  go R 0 ltac:(eapply s_right; reflexivity).
  go R 0 ltac:(eapply s_pkg_takes; left; reflexivity).
  eexists. eexists. split; [exact R|split].
  - right. reflexivity.
  - eexists. apply s_drop. reflexivity.
Qed.
