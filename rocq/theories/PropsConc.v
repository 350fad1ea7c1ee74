(** Property C92: several audits at the same time. *)
From Coq Require Import List NArith ZArith Ascii String Bool Arith Lia.
From Verif Require Import Base StrLib IdModel DbModel MtimeModel AuditModel FetchModel FetchSpec ConcModel PropsFetch.
Import ListNotations.
Local Open Scope string_scope.

Lemma set_proc_same i x f : set_proc i x f i = x.
Proof. unfold set_proc. now rewrite Nat.eqb_refl. Qed.
Lemma set_proc_other i j x f : j <> i -> set_proc i x f j = f j.
Proof. intros H. unfold set_proc. destruct (Nat.eqb_spec j i); [contradiction|reflexivity]. Qed.
Lemma set_lock_same l x f : set_lock l x f l = x.
Proof. unfold set_lock. now rewrite String.eqb_refl. Qed.
Lemma set_lock_other l m x f : m <> l -> set_lock l x f m = f m.
Proof. intros H. unfold set_lock. destruct (String.eqb_spec m l); [contradiction|reflexivity]. Qed.

(** ** The lock *)
Definition is_fetching (x : pstate) : Prop := exists q todo r, x = Fetching q todo r.
Section Locks.
  Context (above : string -> option string) (jobs : nat -> job).
  Definition locks_right (s : shared) : Prop :=
    (forall i, is_fetching (s_proc s i) -> s_lock s (lock_of jobs i) = Some i) /\
    (forall l i, s_lock s l = Some i -> is_fetching (s_proc s i) /\ l = lock_of jobs i).
  (** A process that neither had nor gets the lock. *)
  Lemma locks_aside i x d d' l f : ~ is_fetching (f i) -> ~ is_fetching x -> locks_right (mkShared d l f) -> locks_right (mkShared d' l (set_proc i x f)).
  Proof.
    intros N N' [A B]. split; cbn [s_lock s_proc] in *.
    - intros j H. destruct (Nat.eq_dec j i) as [->|J]; [rewrite set_proc_same in H; contradiction|]. rewrite set_proc_other in H by exact J. auto.
    - intros m j H. destruct (B m j H) as [F E]. split; [|exact E]. destruct (Nat.eq_dec j i) as [->|J]; [contradiction|]. rewrite set_proc_other by exact J. exact F.
  Qed.
  Lemma locks_step new s s' : locks_right s -> step above jobs new s s' -> locks_right s'.
  Proof.
    intros I St. destruct St as [i d l f H _|i j d l f H _ _|i j d l f H _|i server now states r d l f H M Fr E|i q x todo r d l f H|i q r d l f H|i q d l f H|i q p todo got t d l f H _|i q p todo got d l f H _|i q got d l f H|i d l f].
    all: try (eapply locks_aside; [rewrite H; intros (? & ? & ? & ?); discriminate|intros (? & ? & ? & ?); discriminate|exact I]).
    - assert (N : ~ is_fetching (f i)) by (intros (? & ? & ? & X); destruct H; congruence).
      destruct I as [A B]. split; cbn [s_lock s_proc] in *.
      + intros j F. destruct (Nat.eq_dec j i) as [->|J]; [apply set_lock_same|]. rewrite set_proc_other in F by exact J.
        rewrite set_lock_other; [auto|]. intros E'. specialize (A j F). rewrite E' in A. congruence.
      + intros m j F. destruct (String.string_dec m (lock_of jobs i)) as [->|J].
        * rewrite set_lock_same in F. injection F as <-. split; [rewrite set_proc_same; do 3 eexists; reflexivity|reflexivity].
        * rewrite set_lock_other in F by exact J. destruct (B m j F) as [G E']. split; [|exact E'].
          destruct (Nat.eq_dec j i) as [->|K]; [contradiction|]. rewrite set_proc_other by exact K. exact G.
    - destruct I as [A B]. split; cbn [s_lock s_proc] in *.
      + intros j F. destruct (Nat.eq_dec j i) as [->|J]; [apply A; rewrite H; do 3 eexists; reflexivity|]. rewrite set_proc_other in F by exact J. auto.
      + intros m j F. destruct (B m j F) as [G E']. split; [|exact E'].
        destruct (Nat.eq_dec j i) as [->|K]; [rewrite set_proc_same; do 3 eexists; reflexivity|]. rewrite set_proc_other by exact K. exact G.
    - destruct I as [A B]. assert (Hi : l (lock_of jobs i) = Some i) by (apply A; cbn; rewrite H; do 3 eexists; reflexivity). split; cbn [s_lock s_proc] in *.
      + intros j F. destruct (Nat.eq_dec j i) as [->|J]; [rewrite set_proc_same in F; destruct F as (? & ? & ? & F); destruct r; discriminate|].
        rewrite set_proc_other in F by exact J. rewrite set_lock_other; [auto|]. intros E'. specialize (A j F). rewrite E' in A. congruence.
      + intros m j F. destruct (String.string_dec m (lock_of jobs i)) as [->|J]; [rewrite set_lock_same in F; discriminate|].
        rewrite set_lock_other in F by exact J. destruct (B m j F) as [G E']. split; [|exact E'].
        destruct (Nat.eq_dec j i) as [->|K]; [congruence|]. rewrite set_proc_other by exact K. exact G.
    - destruct I as [A B]. split; cbn [s_lock s_proc] in *; unfold unlock_all in *.
      + intros j F. destruct (Nat.eq_dec j i) as [->|J]; [rewrite set_proc_same in F; destruct F as (? & ? & ? & F); discriminate|].
        rewrite set_proc_other in F by exact J. rewrite (A j F). destruct (Nat.eqb_spec j i); [contradiction|reflexivity].
      + intros m j F. destruct (l m) as [k|] eqn:L; [|discriminate]. destruct (Nat.eqb_spec k i) as [|K]; [discriminate|]. injection F as <-.
        destruct (B m k L) as [G E']. split; [|exact E']. rewrite set_proc_other by exact K. exact G.
  Qed.
  Lemma locks_reach d0 served s : reach above jobs d0 served s -> locks_right s.
  Proof.
    induction 1 as [|served new s s' R IH St]; [|eapply locks_step; eassumption]. split; cbn; [intros i (? & ? & ? & X)|intros l i X]; discriminate.
  Qed.

  Lemma result_not_locked d0 served s : reach above jobs d0 served s -> forall i q todo r, s_proc s i = Fetching q todo r -> r <> Locked.
  Proof.
    induction 1 as [|served new s s' R IH St]; [discriminate|]. intros k q' todo' r' X.
    assert (K : forall i x f, set_proc i x f k = Fetching q' todo' r' -> (f k = Fetching q' todo' r' -> r' <> Locked) -> (x = Fetching q' todo' r' -> r' <> Locked) -> r' <> Locked).
    { intros i x f E A B. destruct (Nat.eq_dec k i) as [->|J]; [rewrite set_proc_same in E; auto|]. rewrite set_proc_other in E by exact J. auto. }
    destruct St as [i d l f P _|i j d l f P _ _|i j d l f P L|i server now states r d l f P M Fr E|i q x todo r d l f P|i q r d l f P|i q d l f P|i q p todo got t d l f P _|i q p todo got d l f P _|i q got d l f P|i d l f];
      cbn [s_proc s_lock s_disk] in *; apply (K _ _ _ X); try (intros Y; exact (IH _ _ _ _ Y)); try discriminate.
    - intros Y. injection Y as <- <- <-. pose proof (C80_locked server above now (j_url (jobs i)) (j_path (jobs i)) (j_fresh (jobs i)) true d) as C. rewrite E in C. cbn [snd] in C.
      intros Z. apply C in Z. destruct Z as (_ & _ & _ & Z). discriminate.
    - intros Y. injection Y as <- <- <-. exact (IH _ _ _ _ P).
    - destruct r; discriminate.
  Qed.

  (** *** C92: at any time at most one process is between obtaining and giving up the lock of a path. *)
  Theorem C92_one_at_a_time : forall d0 served s i j q todo r q' todo' r', reach above jobs d0 served s ->
    s_proc s i = Fetching q todo r -> s_proc s j = Fetching q' todo' r' -> j_path (jobs i) = j_path (jobs j) -> i = j.
  Proof.
    intros d0 served s i j q todo r q' todo' r' R H H' E. destruct (locks_reach _ _ _ R) as [A _].
    assert (Hi : s_lock s (lock_of jobs i) = Some i) by (apply A; rewrite H; do 3 eexists; reflexivity).
    assert (Hj : s_lock s (lock_of jobs j) = Some j) by (apply A; rewrite H'; do 3 eexists; reflexivity).
    unfold lock_of in *. rewrite E in Hi. congruence.
  Qed.
  (** *** C92: no lock is left behind: while no process is fetching with that path every process that wants to can go on at once, no
      matter which processes were killed before and where. *)
  Theorem C92_no_stale_lock : forall d0 served s i server now, reach above jobs d0 served s ->
    (forall j q todo r, s_proc s j = Fetching q todo r -> lock_path (j_path (jobs j)) <> lock_path (j_path (jobs i))) ->
    s_proc s i = Starting \/ s_proc s i = Waiting -> may_fetch (j_url (jobs i)) (j_path (jobs i)) = true ->
    exists new s' q todo r, step above jobs new s s' /\ s_proc s' i = Fetching q todo r /\
      r = snd (fetch server above now (j_url (jobs i)) (j_path (jobs i)) (j_fresh (jobs i)) true (s_disk s)).
  Proof.
    intros d0 served s i server now R N H M. destruct (locks_reach _ _ _ R) as [_ B]. destruct s as [d l f]. cbn [s_proc s_lock s_disk] in *.
    destruct (fetch server above now (j_url (jobs i)) (j_path (jobs i)) (j_fresh (jobs i)) true d) as [states r] eqn:E.
    do 5 eexists. split; [eapply st_acquire; [exact H|exact M| |exact E]|]; [|split; [cbn [s_proc]; apply set_proc_same|reflexivity]].
    destruct (l (lock_of jobs i)) as [j|] eqn:L; [|reflexivity]. exfalso. destruct (B _ _ L) as [(q & todo & r' & F) E'].
    apply (N j q todo r' F). symmetry. exact E'.
  Qed.
  (** Killing a process that is fetching frees its lock and leaves the disk as it is. *)
  Theorem C92_killed : forall d0 served s i q todo r, reach above jobs d0 served s -> s_proc s i = Fetching q todo r ->
    exists s', step above jobs [] s s' /\ s_proc s' i = Killed /\ s_lock s' (lock_path (j_path (jobs i))) = None /\ s_disk s' = s_disk s /\
      forall j, j <> i -> s_proc s' j = s_proc s j.
  Proof.
    intros d0 served s i q todo r R H. destruct (locks_reach _ _ _ R) as [A _]. specialize (A i ltac:(rewrite H; do 3 eexists; reflexivity)).
    destruct s as [d l f]. cbn [s_proc s_lock s_disk] in *. eexists. split; [apply (st_kill above jobs i)|]. cbn [s_proc s_lock s_disk].
    split; [apply set_proc_same|]. split; [unfold unlock_all; fold (lock_of jobs i); rewrite A, Nat.eqb_refl; reflexivity|]. split; [reflexivity|].
    intros j J. apply set_proc_other. exact J.
  Qed.
  (** *** C92: a process gives up for lack of the lock only while another one, with the same lock, is fetching. *)
  Theorem C92_gives_up_only_if_locked : forall d0 served new s s' i, reach above jobs d0 served s -> step above jobs new s s' ->
    s_proc s i <> Stopped Locked -> s_proc s' i = Stopped Locked ->
    exists j q todo r, j <> i /\ s_proc s j = Fetching q todo r /\ lock_path (j_path (jobs j)) = lock_path (j_path (jobs i)).
  Proof.
    intros d0 served new s s' i R St N H. destruct (locks_reach _ _ _ R) as [_ B].
    assert (K : forall k x f, set_proc k x f i = Stopped Locked -> f i <> Stopped Locked -> k = i /\ x = Stopped Locked).
    { intros k x f E F. destruct (Nat.eq_dec i k) as [->|J]; [rewrite set_proc_same in E; auto|]. rewrite set_proc_other in E by exact J. contradiction. }
    destruct St as [k d l f P _|k j d l f P _ _|k j d l f P L|k server now states r d l f P M Fr E|k q x todo r d l f P|k q r d l f P|k q d l f P|k q p todo got t d l f P _|k q p todo got d l f P _|k q got d l f P|k d l f];
      cbn [s_proc s_lock s_disk] in *; destruct (K _ _ _ H N) as [-> X]; try discriminate X.
    - destruct (B _ _ L) as [(q & todo & r & F) E]. exists j, q, todo, r. split; [intros ->; congruence|]. split; [exact F|]. symmetry. exact E.
    - destruct r; try discriminate X. elim (result_not_locked _ _ _ R _ _ _ _ P eq_refl).
  Qed.
  (** *** C92: when no path lies below a repository, at most one process writes to a directory, whatever the paths are. *)
  Lemma writes_to_its_path d0 served s : (forall p, above p = None) -> reach above jobs d0 served s ->
    forall i q todo r, s_proc s i = Fetching q todo r -> q = j_path (jobs i).
  Proof.
    intros Ab. induction 1 as [|served new s s' R IH St]; [discriminate|]. intros k q' todo' r' X.
    assert (K : forall i x f, set_proc i x f k = Fetching q' todo' r' -> (f k = Fetching q' todo' r' -> q' = j_path (jobs k)) ->
              (x = Fetching q' todo' r' -> q' = j_path (jobs i)) -> q' = j_path (jobs k)).
    { intros i x f E A B. destruct (Nat.eq_dec k i) as [->|J]; [rewrite set_proc_same in E; auto|]. rewrite set_proc_other in E by exact J. auto. }
    destruct St as [i d l f P _|i j d l f P _ _|i j d l f P L|i server now states r d l f P M Fr E|i q x todo r d l f P|i q r d l f P|i q d l f P|i q p todo got t d l f P _|i q p todo got d l f P _|i q got d l f P|i d l f];
      cbn [s_proc s_lock s_disk] in *; apply (K _ _ _ X); try (intros Y; exact (IH _ _ _ _ Y)); try discriminate.
    - intros Y. injection Y as <- _ _. unfold target, opened, discovered. rewrite Ab. destruct (d (j_path (jobs i))); try reflexivity. destruct (origin_is _ _ _); reflexivity.
    - intros Y. injection Y as <- <- <-. exact (IH _ _ _ _ P).
    - destruct r; discriminate.
  Qed.
  Theorem C92_one_writer : forall d0 served s i j q todo r todo' r', (forall p, above p = None) -> reach above jobs d0 served s ->
    s_proc s i = Fetching q todo r -> s_proc s j = Fetching q todo' r' -> i = j.
  Proof.
    intros d0 served s i j q todo r todo' r' Ab R H H'. eapply C92_one_at_a_time; [exact R|exact H|exact H'|].
    rewrite <- (writes_to_its_path _ _ _ Ab R _ _ _ _ H). exact (writes_to_its_path _ _ _ Ab R _ _ _ _ H').
  Qed.
  (** *** C92: no deadlock: a process that has not ended can always take a step of its own. *)
  Lemma waiting_may d0 served s : reach above jobs d0 served s -> forall i, s_proc s i = Waiting -> may_fetch (j_url (jobs i)) (j_path (jobs i)) = true.
  Proof.
    induction 1 as [|served new s s' R IH St]; [discriminate|]. intros k X.
    assert (K : forall i x f, set_proc i x f k = Waiting -> (f k = Waiting -> may_fetch (j_url (jobs k)) (j_path (jobs k)) = true) ->
              (x = Waiting -> may_fetch (j_url (jobs i)) (j_path (jobs i)) = true) -> may_fetch (j_url (jobs k)) (j_path (jobs k)) = true).
    { intros i x f E A B. destruct (Nat.eq_dec k i) as [->|J]; [rewrite set_proc_same in E; auto|]. rewrite set_proc_other in E by exact J. auto. }
    destruct St as [i d l f P _|i j d l f P M _|i j d l f P L|i server now states r d l f P M Fr E|i q x todo r d l f P|i q r d l f P|i q d l f P|i q p todo got t d l f P _|i q p todo got d l f P _|i q got d l f P|i d l f];
      cbn [s_proc s_lock s_disk] in *; apply (K _ _ _ X); try (intros Y; exact (IH _ Y)); try discriminate.
    - intros _. exact M.
    - destruct r; discriminate.
  Qed.
  Definition ended (x : pstate) : Prop := x = Killed \/ (exists got, x = Loaded got) \/ exists r, x = Stopped r.
  Theorem C92_never_stuck : forall d0 served s i, reach above jobs d0 served s -> ~ ended (s_proc s i) ->
    exists new s', step above jobs new s s' /\ s_proc s' i <> s_proc s i /\ s_proc s' i <> Killed /\ forall j, j <> i -> s_proc s' j = s_proc s j.
  Proof.
    intros d0 served s i R N. pose proof (waiting_may _ _ _ R i) as W. destruct s as [d l f]. cbn [s_proc] in *.
    assert (Put : forall new d' l' x, step above jobs new (mkShared d l f) (mkShared d' l' (set_proc i x f)) -> x <> f i -> x <> Killed ->
      exists new s', step above jobs new (mkShared d l f) s' /\ s_proc s' i <> f i /\ s_proc s' i <> Killed /\ forall j, j <> i -> s_proc s' j = f j).
    { intros new d' l' x St X Y. exists new, (mkShared d' l' (set_proc i x f)). split; [exact St|]. cbn [s_proc]. rewrite set_proc_same. split; [exact X|]. split; [exact Y|].
      intros j J. apply set_proc_other. exact J. }
    destruct (f i) as [| |q todo r|q|q todo got|got|r|] eqn:F.
    - destruct (may_fetch (j_url (jobs i)) (j_path (jobs i))) eqn:M; [|eapply Put; [apply (st_refused above jobs i); eassumption| |]; discriminate].
      destruct (l (lock_of jobs i)) as [j|] eqn:L; [eapply Put; [apply (st_busy above jobs i j); eassumption| |]; discriminate|].
      eapply Put; [eapply (st_acquire above jobs i (fun _ => None) 0%Z); [left; exact F|exact M|exact L|apply surjective_pairing]| |]; discriminate.
    - specialize (W eq_refl). destruct (l (lock_of jobs i)) as [j|] eqn:L; [eapply Put; [apply (st_timeout above jobs i j); eassumption| |]; discriminate|].
      eapply Put; [eapply (st_acquire above jobs i (fun _ => None) 0%Z); [right; exact F|exact W|exact L|apply surjective_pairing]| |]; discriminate.
    - destruct todo as [|x todo].
      + eapply Put; [apply (st_release above jobs i q r); exact F| |]; destruct r; discriminate.
      + eapply Put; [apply (st_write above jobs i q x todo r); exact F| |]; [|discriminate]. intros E. injection E as E. apply (f_equal (@List.length place)) in E. cbn in E. lia.
    - eapply Put; [apply (st_list above jobs i q); exact F| |]; discriminate.
    - destruct todo as [|p todo]; [eapply Put; [apply (st_loaded above jobs i q); exact F| |]; discriminate|].
      destruct (content p (work_at d q)) as [t|] eqn:C.
      + eapply Put; [eapply (st_read above jobs i q p todo got t); eassumption| |]; [|discriminate]. intros E. injection E as E _. apply (f_equal (@List.length gpath)) in E. cbn in E. lia.
      + eapply Put; [eapply (st_vanished above jobs i q p todo got); eassumption| |]; discriminate.
    - elim N. right. left. eauto.
    - elim N. right. right. eauto.
    - elim N. left. reflexivity.
  Qed.
End Locks.
Print Assumptions C92_one_at_a_time.
Print Assumptions C92_no_stale_lock.
Print Assumptions C92_killed.
Print Assumptions C92_gives_up_only_if_locked.
Print Assumptions C92_one_writer.
Print Assumptions C92_never_stuck.
