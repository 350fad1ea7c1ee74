(** Property theorems C92: the empty directory that a fetch removes before it has the lock. *)
From Coq Require Import List NArith Ascii String Bool Arith Lia.
From Verif Require Import Base EmptyDirModel.
Import ListNotations.

Lemma move_same i x f : move i x f i = x.
Proof. unfold move. rewrite Nat.eqb_refl. reflexivity. Qed.
Lemma move_other i j x f : j <> i -> move i x f j = f j.
Proof. intros H. unfold move. apply Nat.eqb_neq in H. rewrite H. reflexivity. Qed.
Lemma move_cases i x f j : (j = i /\ move i x f j = x) \/ (j <> i /\ move i x f j = f j).
Proof. destruct (Nat.eq_dec j i) as [->|H]; [left; split; [reflexivity|apply move_same]|right; split; [exact H|apply move_other; exact H]]. Qed.

(** A repository is never removed: once there, it stays. *)
Theorem C92_content_is_not_removed n s s' : fstep n s s' -> f_dir s = Filled -> f_dir s' = Filled.
Proof. intros H F. inversion H; subst; cbn [f_dir] in *; congruence. Qed.

(** With a repository in the directory nobody fails. *)
Theorem C92_existing_clone n s i : freach n Filled s -> f_dir s = Filled /\ f_at s i <> Fails.
Proof.
  intros R.
  assert (Inv : f_dir s = Filled /\ forall j, f_at s j <> Fails /\ f_at s j <> SawEmpty /\ f_at s j <> Cloning).
  { induction R as [|s s' R [D IH] H].
    - split; [reflexivity|]. intros j. cbn. repeat split; discriminate.
    - inversion H; subst; cbn [f_dir f_at] in *; try congruence;
        (split; [reflexivity || assumption|]; intros j;
         match goal with |- context [move ?a ?x ?g ?b] => destruct (move_cases a x g b) as [[-> ->]|[_ ->]] end;
         [repeat split; try discriminate; destruct (IH i0) as (? & ? & ?); congruence|apply IH]). }
  split; [apply Inv|apply Inv].
Qed.

(** One at a time, an empty directory or none does no harm. *)
Theorem C92_alone d0 s i : freach 1 d0 s -> f_at s i <> Fails.
Proof.
  intros R.
  assert (Inv : (forall j, 0 < j -> f_at s j = Begins) /\
    match f_at s 0 with Begins | Wants | Has => True | SawDir => f_dir s <> Absent | SawEmpty => f_dir s = EmptyDir | Cloning => f_dir s = EmptyDir
    | Done => True | Fails => False end).
  { induction R as [|s s' R [O IH] H]; [split; [reflexivity|exact Logic.I]|].
    inversion H; subst; (assert (i0 = 0) as -> by lia); cbn [f_dir f_at] in *;
      match goal with E : _ 0 = _ |- _ => rewrite E in IH end; rewrite move_same;
      (split; [intros j J; rewrite move_other by lia; apply O; exact J|]); try exact Logic.I; try reflexivity; try assumption; try congruence. }
  destruct Inv as [O Z]. destruct i as [|i]; [intros E; rewrite E in Z; exact Z|]. rewrite O by lia. discriminate.
Qed.

(** Together they may fail: two first runs on an empty directory, when the other has removed it first; and a clone just
    begun, when another audit takes its directory for a left-over. *)
Ltac step_by c := eapply fr_step; [|eapply c; [lia|cbn; reflexivity|..]; try discriminate].
Theorem C92_empty_directory_refuted :
  (exists s, freach 2 EmptyDir s /\ f_at s 0 = Wants /\ f_at s 1 = Fails /\ f_lock s = None) /\
  (exists s, freach 2 Absent s /\ f_at s 0 = Fails /\ f_at s 1 = Wants).
Proof.
  split.
  - assert (R0 := fr_start 2 EmptyDir).
    assert (R1 := fr_step 2 _ _ _ R0 (fs_dir 2 0 EmptyDir None (fun _ => Begins) ltac:(lia) eq_refl ltac:(discriminate))).
    assert (R2 := fr_step 2 _ _ _ R1 (fs_dir 2 1 EmptyDir None _ ltac:(lia) eq_refl ltac:(discriminate))).
    assert (R3 := fr_step 2 _ _ _ R2 (fs_read_empty 2 0 None _ ltac:(lia) eq_refl)).
    assert (R4 := fr_step 2 _ _ _ R3 (fs_read_empty 2 1 None _ ltac:(lia) eq_refl)).
    assert (R5 := fr_step 2 _ _ _ R4 (fs_remove 2 0 None _ ltac:(lia) eq_refl)).
    assert (R6 := fr_step 2 _ _ _ R5 (fs_remove_fails 2 1 Absent None _ ltac:(lia) eq_refl ltac:(discriminate))).
    eexists. split; [exact R6|]. repeat split; reflexivity.
  - assert (R0 := fr_start 2 Absent).
    assert (R1 := fr_step 2 _ _ _ R0 (fs_no_dir 2 0 None (fun _ => Begins) ltac:(lia) eq_refl)).
    assert (R2 := fr_step 2 _ _ _ R1 (fs_lock 2 0 Absent _ ltac:(lia) eq_refl)).
    assert (R3 := fr_step 2 _ _ _ R2 (fs_make 2 0 Absent (Some 0) _ ltac:(lia) eq_refl ltac:(discriminate))).
    assert (R4 := fr_step 2 _ _ _ R3 (fs_dir 2 1 EmptyDir (Some 0) _ ltac:(lia) eq_refl ltac:(discriminate))).
    assert (R5 := fr_step 2 _ _ _ R4 (fs_read_empty 2 1 (Some 0) _ ltac:(lia) eq_refl)).
    assert (R6 := fr_step 2 _ _ _ R5 (fs_remove 2 1 (Some 0) _ ltac:(lia) eq_refl)).
    assert (R7 := fr_step 2 _ _ _ R6 (fs_clone_fails 2 0 (Some 0) _ ltac:(lia) eq_refl)).
    eexists. split; [exact R7|]. repeat split; reflexivity.
Qed.

(** But never all of them: when one has failed, another has its repository or is past the removal and cannot be made to fail
    but by yet another one that is. *)
Definition on_the_way (x : look) (d : dir) : Prop := x = Wants \/ x = Has \/ x = Done \/ (x = Cloning /\ d = EmptyDir).
Definition trouble (s : first) : Prop :=
  (exists i, f_at s i = Fails) \/ (f_dir s = Absent /\ exists i, f_at s i = SawDir \/ f_at s i = SawEmpty \/ f_at s i = Cloning).
Definition rescue (d0 : dir) (n : nat) (s : first) : Prop :=
  exists w, w < n /\ on_the_way (f_at s w) (f_dir s).
Lemma rescue_moved d0 n i d l f x d' l' : rescue d0 n (mkFirst d l f) ->
  (on_the_way (f i) d -> on_the_way x d') -> (forall w, w <> i -> on_the_way (f w) d -> on_the_way (f w) d') -> rescue d0 n (mkFirst d' l' (move i x f)).
Proof.
  intros (w & W & H) K O. exists w. split; [exact W|]. cbn [f_at f_dir] in *. destruct (move_cases i x f w) as [[-> ->]|[N ->]]; [apply K; exact H|].
  apply O; assumption.
Qed.
Lemma inv_all n d0 s : freach n d0 s ->
  (trouble s -> rescue d0 n s) /\ (f_dir s = Filled -> d0 = Filled \/ exists w, w < n /\ f_at s w = Done) /\
  (forall i, f_at s i = SawEmpty -> d0 = Filled -> False) /\ (forall i, n <= i -> f_at s i = Begins).
Proof.
  intros R. induction R as [|s s' R (IT & IF & IE & IO) H].
  { cbn. repeat apply conj; [intros [[i T]|[_ [i [T|[T|T]]]]]; discriminate T| |intros i T; discriminate T|reflexivity].
    intros ->. left. reflexivity. }
  assert (F0 : d0 = Filled -> f_dir s = Filled).
  { intros ->. exact (proj1 (C92_existing_clone n s 0 R)). }
  unfold trouble in *. inversion H; subst; cbn [f_dir f_at] in *;
    (split; [|split; [|split; [intros j J E; match type of J with move ?a ?x ?g ?b = _ => destruct (move_cases a x g b) as [[-> K]|[_ K]] end; rewrite K in J; try discriminate J; try (apply F0 in E; discriminate E); exact (IE j J E)|
       intros j J; rewrite move_other by lia; apply IO; exact J]]]).
  all: try (intros T; exists i; split; [assumption|]; unfold on_the_way; cbn [f_at f_dir]; rewrite move_same; tauto).
  all: try (intros E; discriminate E).
  all: try (intros E; destruct (IF E) as [Z|(w & W & K)]; [left; exact Z|]; right; exists w; split; [exact W|]; rewrite move_other; [exact K|intros ->; congruence]).
  all: try (intros _; right; exists i; split; [assumption|apply move_same]).
  (* looks at a directory that is there *)
  - intros [[j J]|[A _]]; [|contradiction]. destruct (move_cases i SawDir f j) as [[-> K]|[_ K]]; rewrite K in J; [discriminate J|].
    eapply rescue_moved; [apply IT; left; exists j; exact J| |tauto]. intros [Q|[Q|[Q|[Q _]]]]; congruence.
  (* the directory has gone *)
  - intros _. eapply rescue_moved; [apply IT; right; split; [reflexivity|]; exists i; tauto| |tauto]. intros [Q|[Q|[Q|[Q _]]]]; congruence.
  - intros [[j J]|[A _]]; [|discriminate A]. destruct (move_cases i SawEmpty f j) as [[-> K]|[_ K]]; rewrite K in J; [discriminate J|].
    eapply rescue_moved; [apply IT; left; exists j; exact J| |tauto]. intros [Q|[Q|[Q|[Q _]]]]; congruence.
  (* removal fails *)
  - intros T. destruct d as [| |]; [|contradiction|].
    + eapply rescue_moved; [apply IT; right; split; [reflexivity|]; exists i; tauto| |tauto]. intros [Q|[Q|[Q|[Q _]]]]; congruence.
    + destruct (IF eq_refl) as [Z|(w & W & K)]; [exfalso; eauto|]. exists w. split; [exact W|]. cbn [f_at]. rewrite move_other by (intros ->; congruence).
      unfold on_the_way. tauto.
  (* the clone fails *)
  - intros _. eapply rescue_moved; [apply IT; right; split; [reflexivity|]; exists i; tauto| |tauto]. intros [Q|[Q|[Q|[_ Q]]]]; congruence.
Qed.
Theorem C92_never_all_fail n d0 s : 0 < n -> freach n d0 s -> (forall i, i < n -> f_at s i = Done \/ f_at s i = Fails) ->
  f_dir s = Filled /\ exists w, w < n /\ f_at s w = Done.
Proof.
  intros Pn R E. destruct (inv_all n d0 s R) as (IT & IF & _ & _).
  assert (D : exists w, w < n /\ f_at s w = Done).
  { destruct (E 0 Pn) as [D|F]; [eauto|]. destruct IT as (w & W & [Q|[Q|[Q|[Q _]]]]); try (destruct (E w W); congruence); [left; eauto|eauto]. }
  split; [|exact D]. destruct D as (w & _ & D). clear IT IF E Pn. revert w D.
  induction R as [|s s' R IH H]; intros w D; [discriminate D|].
  inversion H; subst; cbn [f_dir f_at] in *; try reflexivity;
    match type of D with move ?a ?x ?g ?b = _ => destruct (move_cases a x g b) as [[-> K]|[_ K]] end; rewrite K in D; try discriminate D; specialize (IH w D); congruence.
Qed.
(** Who makes a clone has the lock, so one at a time. *)
Lemma holder n d0 s : freach n d0 s -> (forall j, f_at s j = Has \/ f_at s j = Cloning -> f_lock s = Some j) /\
  forall j, f_lock s = Some j -> j < n /\ (f_at s j = Has \/ (f_at s j = Cloning /\ f_dir s <> Filled)).
Proof.
  intros R. induction R as [|s s' R [A IH] H]; [split; [intros j [E|E]; discriminate E|discriminate]|].
  inversion H; subst; cbn [f_dir f_at f_lock] in *; (split; intros j J;
      [match type of J with move ?a ?x ?g ?b = _ \/ _ => destruct (move_cases a x g b) as [[-> K]|[N K]] end; rewrite K in J;
       try (destruct J as [J|J]; discriminate J); try reflexivity; try (apply A in J; congruence); try (apply A; tauto);
       try (assert (P := A _ J); assert (Q := A i ltac:(tauto)); congruence)
      |try discriminate J]).
  all: try (injection J as <-; split; [assumption|left; apply move_same]).
  all: try (destruct (IH _ J) as [Jn [Q|[Q Qd]]]; (split; [exact Jn|]); match goal with |- context [move ?a ?x ?g ?b] => destruct (move_cases a x g b) as [[-> K]|[N K]]; rewrite K end; try congruence; try tauto).
  all: try (right; split; [|discriminate]; congruence || tauto).
Qed.
Theorem C92_one_clones n d0 s i j : freach n d0 s -> f_at s i = Has \/ f_at s i = Cloning -> f_at s j = Has \/ f_at s j = Cloning -> i = j.
Proof. intros R A B. destruct (holder n d0 s R) as [L _]. apply L in A. apply L in B. congruence. Qed.
(** Nobody is stuck: while somebody has not finished, somebody can go on. *)
Theorem C92_first_steps_go_on n d0 s i : freach n d0 s -> i < n -> f_at s i <> Done -> f_at s i <> Fails -> exists s', fstep n s s'.
Proof.
  intros R I D F. destruct (holder n d0 s R) as [A L].
  destruct s as [d l f]. cbn [f_at f_lock f_dir] in *. destruct (f i) eqn:E; try contradiction.
  - destruct d; eexists; [apply fs_no_dir|apply fs_dir|apply fs_dir]; eauto; discriminate.
  - destruct d; eexists; [apply fs_read_gone|apply fs_read_empty|apply fs_read_files]; eauto.
  - destruct d; eexists; [apply fs_remove_fails with (i := i)|apply fs_remove|apply fs_remove_fails with (i := i)]; eauto; discriminate.
  - destruct l as [j|]; [|eexists; apply fs_lock; eauto].
    destruct (L j eq_refl) as [J [Q|[Q Qd]]].
    + destruct d; eexists; [apply fs_make with (i := j)|apply fs_make with (i := j)|apply fs_open with (i := j)]; eauto; discriminate.
    + destruct d; [eexists; apply fs_clone_fails with (i := j)|eexists; apply fs_fill with (i := j)|congruence]; eauto.
  - destruct d; eexists; [apply fs_make with (i := i)|apply fs_make with (i := i)|apply fs_open with (i := i)]; eauto; discriminate.
  - destruct d; [eexists; apply fs_clone_fails with (i := i); eauto|eexists; apply fs_fill with (i := i); eauto|].
    exfalso. destruct (L i (A i (or_intror E))) as [_ [Q|[_ Q]]]; congruence.
Qed.
Print Assumptions C92_never_all_fail. Print Assumptions C92_first_steps_go_on. Print Assumptions C92_empty_directory_refuted.
Example C92_empty_example : exists s, freach 2 EmptyDir s /\ f_at s 0 = Done /\ f_at s 1 = Fails /\ f_dir s = Filled.
Proof.
  assert (R0 := fr_start 2 EmptyDir).
  assert (R1 := fr_step 2 _ _ _ R0 (fs_dir 2 0 EmptyDir None (fun _ => Begins) ltac:(lia) eq_refl ltac:(discriminate))).
  assert (R2 := fr_step 2 _ _ _ R1 (fs_dir 2 1 EmptyDir None _ ltac:(lia) eq_refl ltac:(discriminate))).
  assert (R3 := fr_step 2 _ _ _ R2 (fs_read_empty 2 0 None _ ltac:(lia) eq_refl)).
  assert (R4 := fr_step 2 _ _ _ R3 (fs_remove 2 0 None _ ltac:(lia) eq_refl)).
  assert (R5 := fr_step 2 _ _ _ R4 (fs_read_gone 2 1 None _ ltac:(lia) eq_refl)).
  assert (R6 := fr_step 2 _ _ _ R5 (fs_lock 2 0 Absent _ ltac:(lia) eq_refl)).
  assert (R7 := fr_step 2 _ _ _ R6 (fs_make 2 0 Absent (Some 0) _ ltac:(lia) eq_refl ltac:(discriminate))).
  assert (R8 := fr_step 2 _ _ _ R7 (fs_fill 2 0 (Some 0) _ ltac:(lia) eq_refl)).
  eexists. split; [exact R8|]. repeat split; reflexivity.
Qed.
