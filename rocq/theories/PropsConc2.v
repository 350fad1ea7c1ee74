(** Property C92, continued: several audits with the same URL and path. *)
From Coq Require Import List NArith ZArith Ascii String Bool Arith Lia.
From Verif Require Import Base StrLib IdModel DbModel MtimeModel AuditModel FetchModel FetchSpec ConcModel PropsFetch PropsConc.
Import ListNotations.
Local Open Scope string_scope.

Section Together.
  Context (above : string -> option string) (jobs : nat -> job) (url path : string).
  Context (same : forall i, j_url (jobs i) = url /\ j_path (jobs i) = path).

  Definition pinv (served : list gcommit) (x : place) : Prop :=
    x = Nothing \/ x = Repo (mkClone None None []) \/
    exists h w, x = Repo (mkClone (Some url) h w) /\ (forall c, h = Some c -> In c served) /\ from_served served w.
  Definition complete (served : list gcommit) (x : place) : Prop :=
    exists c w, x = Repo (mkClone (Some url) (Some c) w) /\ In c served /\
      (good_tree (gc_tree c) -> forall p t, In (p, t) (gc_tree c) -> content p w = Some t).
  Definition proc_ok (served : list gcommit) (here : place) (x : pstate) : Prop :=
    match x with
    | Fetching q todo r => q = path /\ (forall y, In y todo -> pinv served y) /\ (forall q', r = Fetched q' -> q' = path /\ complete served (last todo here))
    | Ready q => q = path
    | Loading q _ got => q = path /\ from_served served got
    | Loaded got => from_served served got
    | _ => True
    end.
  Definition all_ok (served : list gcommit) (s : shared) : Prop :=
    pinv served (s_disk s path) /\ forall i, proc_ok served (s_disk s path) (s_proc s i).

  Lemma served_more new served w : from_served served w -> from_served (new ++ served) w.
  Proof. apply from_served_more. intros c I. apply in_or_app. right. exact I. Qed.
  Lemma pinv_more new served x : pinv served x -> pinv (new ++ served) x.
  Proof.
    intros [H|[H|(h & w & -> & A & B)]]; [left; exact H|right; left; exact H|]. right. right. exists h, w. split; [reflexivity|].
    split; [intros c E; apply in_or_app; right; exact (A c E)|apply served_more; exact B].
  Qed.
  Lemma proc_ok_more new served here x : proc_ok served here x -> proc_ok (new ++ served) here x.
  Proof.
    destruct x as [| |q todo r|q|q todo got|got|r|]; cbn; try exact (fun H => H).
    - intros (A & B & C). split; [exact A|]. split; [intros y I; apply pinv_more; auto|]. intros q' E. destruct (C q' E) as (D & c & w & F & G & K).
      split; [exact D|]. exists c, w. split; [exact F|]. split; [apply in_or_app; right; exact G|exact K].
    - intros [A B]. split; [exact A|apply served_more; exact B].
    - apply served_more.
  Qed.
  Lemma target_here served d : pinv served (d path) -> target above url path d = path.
  Proof.
    intros [H|[H|(h & w & H & _)]]; unfold target; [rewrite opened_nothing by exact H; reflexivity| |]; rewrite (opened_at _ _ _ _ _ H); reflexivity.
  Qed.
  Lemma same_locks i j : lock_of jobs i = lock_of jobs j.
  Proof. unfold lock_of. rewrite (proj2 (same i)), (proj2 (same j)). reflexivity. Qed.

  Lemma acquired server now ef served d states r : pinv served (d path) -> fetch server above now url path ef true d = (states, r) ->
    proc_ok (offered server url ++ served) (d path) (Fetching path (map (fun x => x path) states) r).
  Proof.
    intros I E. assert (St : forall x, In x states -> pinv (offered server url ++ served) (x path)).
    { intros x Hx. pose proof (step_inv server above now url path ef true served d x I) as K. unfold offered.
      assert (FC : fetch_crash server above now url path ef true d x) by (right; rewrite E; exact Hx). specialize (K FC).
      destruct (server url); exact K. }
    cbn [proc_ok]. split; [reflexivity|]. split; [intros y Hy; apply in_map_iff in Hy as (x & <- & Hx); apply St; exact Hx|].
    intros q' ->. assert (H : snd (fetch server above now url path ef true d) = Fetched q') by (rewrite E; reflexivity).
    pose proof (C80_what_is_fetched _ _ _ _ _ _ _ _ _ H) as (u & c & w' & Fe & Sv & Up & Or & _).
    destruct (fetched_inv _ _ _ _ _ _ _ _ _ H) as (u1 & c1 & w1 & _ & S & _).
    assert (Q : q' = path).
    { inversion S as [D c' S' |q r' u' O D U' ]; subst; [reflexivity|].
      destruct I as [I|[I|(h & w & I & _)]]; [rewrite opened_nothing in O by exact I; discriminate| |]; rewrite (opened_at _ _ _ _ _ I) in O; congruence. }
    subst q'. split; [reflexivity|].
    assert (U : u = url).
    { destruct Or as [U|(_ & r0 & D & Or)]; [exact U|]. destruct I as [I|[I|(h & w & I & _)]]; rewrite I in D; try discriminate D; injection D as <-; cbn in Or; congruence. }
    subst u. exists c, w'. split.
    - rewrite (last_map (fun x : disk => x path)). unfold fetch_end in Fe. rewrite E in Fe. exact Fe.
    - split; [unfold offered; rewrite Sv; left; reflexivity|]. intros G p t Hp. apply (Up G). exact Hp.
  Qed.

  Lemma all_ok_aside served i x d l f : proc_ok served (d path) x -> all_ok served (mkShared d l f) -> forall l', all_ok served (mkShared d l' (set_proc i x f)).
  Proof.
    intros X [A B] l'. split; [exact A|]. intros j. cbn [s_proc s_disk]. destruct (Nat.eq_dec j i) as [->|J]; [rewrite set_proc_same; exact X|].
    rewrite set_proc_other by exact J. apply B.
  Qed.
  Lemma all_ok_step served new s s' : locks_right jobs s -> all_ok served s -> step above jobs new s s' -> all_ok (new ++ served) s'.
  Proof.
    intros L I St.
    assert (Loc : forall p t d q, all_ok served (mkShared d (s_lock s) (s_proc s)) -> q = path -> content p (work_at d q) = Some t ->
       exists c, In c served /\ In (p, t) (gc_tree c)).
    { intros p t d q [A _] -> C. cbn in A. apply content_in in C. unfold work_at in C. destruct A as [A|[A|(h & w & A & _ & B)]]; rewrite A in C; try destruct C. exact (B p t C). }
    destruct St as [i d l f H _|i j d l f H _ _|i j d l f H Hl|i server now states r d l f H M Fr E|i q x todo r d l f H|i q r d l f H|i q d l f H|i q p todo got t d l f H C|i q p todo got d l f H _|i q got d l f H|i d l f];
      cbn [List.app] in *; try (apply (all_ok_aside served _ _ d l f); [exact Logic.I|exact I]).
    - destruct (same i) as [Eu Ep]. rewrite Eu, Ep in *. pose proof I as [A B]. cbn [s_disk s_proc] in *. rewrite (target_here served d A).
      split; cbn [s_disk s_proc]; [apply pinv_more; exact A|]. intros j. destruct (Nat.eq_dec j i) as [->|J].
      + rewrite set_proc_same. eapply acquired; eassumption.
      + rewrite set_proc_other by exact J. apply proc_ok_more, B.
    - pose proof I as [A B]. cbn [s_disk s_proc] in *. pose proof (B i) as Bi. rewrite H in Bi. destruct Bi as (-> & B1 & B2).
      split; cbn [s_disk s_proc]; rewrite put_same; [apply B1; left; reflexivity|]. intros j. destruct (Nat.eq_dec j i) as [->|J].
      + rewrite set_proc_same. split; [reflexivity|]. split; [intros y Hy; apply B1; right; exact Hy|]. intros q' E. rewrite <- (last_cons todo x (d path)). exact (B2 q' E).
      + rewrite set_proc_other by exact J. specialize (B j). destruct (f j) as [| |q2 todo2 r2|q2|q2 todo2 got2|got2|r2|] eqn:Fj; try exact B.
        exfalso. apply J. destruct L as [L _]. cbn [s_lock s_proc] in L.
        assert (Li : l (lock_of jobs i) = Some i) by (apply L; rewrite H; do 3 eexists; reflexivity).
        assert (Lj : l (lock_of jobs j) = Some j) by (apply L; rewrite Fj; do 3 eexists; reflexivity).
        rewrite (same_locks j i) in Lj. congruence.
    - pose proof I as [A B]. specialize (B i). cbn [s_disk s_proc] in *. rewrite H in B. destruct B as (_ & _ & B). apply (all_ok_aside served _ _ d l f); [|exact I].
      destruct r; try exact Logic.I. cbn [proc_ok]. destruct (B dir eq_refl) as [Q _]. exact Q.
    - pose proof I as [A B]. specialize (B i). cbn [s_disk s_proc] in *. rewrite H in B. apply (all_ok_aside served _ _ d l f); [|exact I].
      split; [exact B|intros ? ? []].
    - pose proof I as [A B]. specialize (B i). cbn [s_disk s_proc] in *. rewrite H in B. destruct B as [Q B]. apply (all_ok_aside served _ _ d l f); [|exact I].
      split; [exact Q|]. intros p' t' K. apply in_app_or in K as [K|[K|[]]]; [exact (B p' t' K)|]. injection K as <- <-. eapply Loc; eassumption.
    - pose proof I as [A B]. specialize (B i). cbn [s_disk s_proc] in *. rewrite H in B. apply (all_ok_aside served _ _ d l f); [|exact I]. exact (proj2 B).
  Qed.
  Lemma all_ok_reach d0 served s : d0 path = Nothing -> reach above jobs d0 served s -> all_ok served s.
  Proof.
    intros D R. induction R as [|served new s s' R IH St]; [|eapply all_ok_step; [eapply locks_reach; exact R|exact IH|exact St]].
    split; [left; exact D|]. intros i. exact Logic.I.
  Qed.

  (** *** C92: whatever the order of the steps and wherever processes are killed, the working tree and everything a process loads
      has been served by the URL under that very path, and HEAD is a commit that has been served. *)
  Theorem C92_only_served_content : forall d0 served s, d0 path = Nothing -> reach above jobs d0 served s ->
    (forall p t, In (p, t) (work_at (s_disk s) path) -> exists c, In c served /\ In (p, t) (gc_tree c)) /\
    (forall r c, s_disk s path = Repo r -> k_head r = Some c -> In c served) /\
    (forall i got p t, s_proc s i = Loaded got -> In (p, t) got -> exists c, In c served /\ In (p, t) (gc_tree c)).
  Proof.
    intros d0 served s D R. destruct (all_ok_reach d0 served s D R) as [A B]. split; [|split].
    - intros p t K. unfold work_at in K. destruct A as [A|[A|(h & w & A & _ & F)]]; rewrite A in K; try destruct K. exact (F p t K).
    - intros r c E K. destruct A as [A|[A|(h & w & A & F & _)]]; rewrite A in E; try discriminate E; injection E as <-; [discriminate|]. exact (F c K).
    - intros i got p t H K. specialize (B i). rewrite H in B. exact (B p t K).
  Qed.
  (** *** C92: when a fetch ends with success, the directory is a clone whose HEAD is a commit that was served, with every file of
      it, no matter what the other processes have done meanwhile. *)
  Theorem C92_success_is_complete : forall d0 served s i q q', d0 path = Nothing -> reach above jobs d0 served s ->
    s_proc s i = Fetching q [] (Fetched q') ->
    q' = path /\ exists c w, s_disk s path = Repo (mkClone (Some url) (Some c) w) /\ In c served /\
      (good_tree (gc_tree c) -> forall p t, In (p, t) (gc_tree c) -> content p w = Some t).
  Proof.
    intros d0 served s i q q' D R H. destruct (all_ok_reach d0 served s D R) as [A B]. specialize (B i). rewrite H in B.
    destruct B as (_ & _ & B). exact (B q' eq_refl).
  Qed.

  (** ** While the server serves the same files *)
  Context (T : work) (good : good_tree T).
  Definition full (x : place) : Prop := exists r, x = Repo r /\ k_origin r = Some url /\ forall p, content p (k_work r) = content p T.
  Definition past (x : pstate) : Prop := match x with Ready _ | Loading _ _ _ => True | _ => False end.
  Definition load_ok (x : pstate) : Prop :=
    match x with
    | Loading _ todo got => (forall p t, In (p, t) got -> In (p, t) T) /\ (forall p, In p todo -> In p (map fst T)) /\
        (forall p, In p (map fst T) -> In p todo \/ In p (map fst got))
    | Loaded got => forall p t, In (p, t) got <-> In (p, t) T
    | _ => True
    end.
  Definition settled (s : shared) : Prop :=
    ((exists i, past (s_proc s i)) -> full (s_disk s path) /\ forall j q todo r, s_proc s j = Fetching q todo r -> forall x, In x todo -> full x) /\
    forall i, load_ok (s_proc s i).
  Lemma full_write w e : In e T -> (forall p, content p w = content p T) -> forall p, content p (write_file w e) = content p T.
  Proof.
    intros I H p. rewrite content_write. destruct good as [N G]. destruct (gpath_eqb (fst e) p) eqn:E.
    - apply gpath_eqb_iff in E. subst p. symmetry. apply in_content; [exact N|]. destruct e; exact I.
    - destruct (conflict (fst e) p) eqn:C; [|apply H]. symmetry. apply content_none. intros J. apply conflict_iff in C.
      assert (Ie : In (fst e) (map fst T)) by (apply in_map; exact I).
      assert (fst e = p) by (destruct C as [C|C]; [apply G; assumption|symmetry; apply G; assumption]). subst p. rewrite gpath_eqb_refl in E. discriminate.
  Qed.
  Lemma full_checkout t : (forall e, In e t -> In e T) -> forall w w', (forall p, content p w = content p T) -> In w' (checkout w t) -> forall p, content p w' = content p T.
  Proof.
    induction t as [|e t IH]; intros S w w' H I; [destruct I|]. cbn [checkout] in I.
    assert (H' : forall p, content p (write_file w e) = content p T) by (apply full_write; [apply S; left; reflexivity|exact H]).
    destruct I as [<-|I]; [exact H'|]. eapply IH; [intros x J; apply S; right; exact J|exact H'|exact I].
  Qed.
  Lemma full_fetch server now ef d states r : (forall c, server url = Some c -> gc_tree c = T) -> full (d path) -> fetch server above now url path ef true d = (states, r) ->
    forall x, In x states -> full (x path).
  Proof.
    intros Sv (k & Dk & O & F) E x I.
    destruct (fetch_cases server above now url path ef true d) as [[Em _]|(q & u & c & w & pre & _ & S & Su & L & _ & E' & X)]; [rewrite E in Em; cbn in Em; subst states; destruct I|].
    assert (Q : q = path /\ u = url /\ w = k_work k).
    { inversion S as [D c' S' |q0 r' u' Op D U' ]; subst; [congruence|]. rewrite (opened_at _ _ _ _ _ Dk) in Op. injection Op as <-. rewrite Dk in D. injection D as <-.
      split; [reflexivity|]. split; [congruence|reflexivity]. }
    destruct Q as (-> & -> & ->). rewrite E in E'. injection E' as -> _. specialize (Sv c Su).
    assert (F0 : full (done d path url c (k_work k) path)).
    { unfold done. rewrite put_same. eexists. split; [reflexivity|]. split; [reflexivity|exact F]. }
    apply in_app_or in I as [I|I].
    - destruct (X x I) as [->|(D & _)]; [exact F0|congruence].
    - rewrite L, finish_done in I. destruct (from_repo_head _); cbn [fst] in I; try destruct I. apply in_map_iff in I as (w' & <- & I).
      rewrite put_same. eexists. split; [reflexivity|]. split; [reflexivity|]. cbn [k_work]. rewrite Sv in I. eapply full_checkout; [|exact F|exact I]. auto.
  Qed.
  Lemma complete_full served x : (forall c, In c served -> gc_tree c = T) -> pinv served x -> complete served x -> full x.
  Proof.
    intros Sv P (c & w & -> & I & C). eexists. split; [reflexivity|]. split; [reflexivity|]. cbn [k_work].
    destruct P as [P|[P|(h & w' & P & _ & F)]]; try discriminate. injection P as _ <-.
    rewrite (Sv c I) in C. specialize (C good). destruct good as [N _].
    intros p. destruct (content p w) as [t|] eqn:E.
    - apply content_in in E. destruct (F p t E) as (c' & I' & J). rewrite (Sv c' I') in J. symmetry. apply in_content; assumption.
    - symmetry. destruct (content p T) as [t|] eqn:E'; [|reflexivity]. apply content_in in E'. rewrite (C p t E') in E. discriminate.
  Qed.
  Lemma settled_aside i x d l l' f : (past x -> past (f i)) -> (forall q todo r, x <> Fetching q todo r) -> load_ok x -> settled (mkShared d l f) -> settled (mkShared d l' (set_proc i x f)).
  Proof.
    intros P N K [A B]. cbn [s_proc s_disk] in *. split; cbn [s_proc s_disk].
    - intros [j Hj]. assert (Ex : exists k, past (f k)).
      { destruct (Nat.eq_dec j i) as [->|J]; [rewrite set_proc_same in Hj; exists i; auto|]. rewrite set_proc_other in Hj by exact J. eauto. }
      destruct (A Ex) as [A1 A2]. split; [exact A1|]. intros k q todo r Hk. destruct (Nat.eq_dec k i) as [->|J]; [rewrite set_proc_same in Hk; elim (N _ _ _ Hk)|].
      rewrite set_proc_other in Hk by exact J. eauto.
    - intros j. destruct (Nat.eq_dec j i) as [->|J]; [rewrite set_proc_same; exact K|]. rewrite set_proc_other by exact J. apply B.
  Qed.
  Lemma settled_step served new s s' : (forall c, In c (new ++ served)%list -> gc_tree c = T) -> locks_right jobs s -> all_ok served s -> settled s -> step above jobs new s s' -> settled s'.
  Proof.
    intros Sv L OK I St.
    destruct St as [i d l f H _|i j d l f H _ _|i j d l f H Hl|i server now states r d l f H M Fr E|i q x todo r d l f H|i q r d l f H|i q d l f H|i q p todo got t d l f H C|i q p todo got d l f H _|i q got d l f H|i d l f];
      cbn [List.app] in *; try (apply (settled_aside i _ d l _ f); [solve [intros []]|intros; discriminate|exact Logic.I|exact I]).
    - destruct (same i) as [Eu Ep]. rewrite Eu, Ep in *. pose proof OK as [A _]. cbn [s_disk] in A. rewrite (target_here served d A). destruct I as [I1 I2]. cbn [s_disk s_proc] in *.
      split; cbn [s_disk s_proc].
      + intros [j Hj]. assert (Ex : exists k, past (f k)).
        { destruct (Nat.eq_dec j i) as [->|J]; [rewrite set_proc_same in Hj; destruct Hj|]. rewrite set_proc_other in Hj by exact J. eauto. }
        destruct (I1 Ex) as [A1 A2]. split; [exact A1|]. intros k q todo r' Hk. destruct (Nat.eq_dec k i) as [->|J].
        * rewrite set_proc_same in Hk. injection Hk as <- <- _. intros y Hy. apply in_map_iff in Hy as (x & <- & Hx).
          eapply full_fetch; [|exact A1|exact E|exact Hx]. intros c Sc. apply Sv. unfold offered. rewrite Sc. left. reflexivity.
        * rewrite set_proc_other in Hk by exact J. eauto.
      + intros j. destruct (Nat.eq_dec j i) as [->|J]; [rewrite set_proc_same; exact Logic.I|]. rewrite set_proc_other by exact J. apply I2.
    - pose proof OK as [_ B]. specialize (B i). cbn [s_proc] in B. rewrite H in B. destruct B as (-> & _). destruct I as [I1 I2]. cbn [s_disk s_proc] in *.
      split; cbn [s_disk s_proc]; [|intros j; destruct (Nat.eq_dec j i) as [->|J]; [rewrite set_proc_same; exact Logic.I|rewrite set_proc_other by exact J; apply I2]].
      rewrite put_same. intros [j Hj]. assert (Ex : exists k, past (f k)).
      { destruct (Nat.eq_dec j i) as [->|J]; [rewrite set_proc_same in Hj; destruct Hj|]. rewrite set_proc_other in Hj by exact J. eauto. }
      destruct (I1 Ex) as [A1 A2]. split; [apply (A2 _ _ _ _ H); left; reflexivity|]. intros k q' todo' r' Hk. destruct (Nat.eq_dec k i) as [->|J].
      + rewrite set_proc_same in Hk. injection Hk as _ <- _. intros y Hy. apply (A2 _ _ _ _ H). right. exact Hy.
      + rewrite set_proc_other in Hk by exact J. eauto.
    - pose proof OK as [Pi B]. specialize (B i). cbn [s_proc s_disk] in *. rewrite H in B. destruct B as (-> & _ & B).
      destruct r as [q'| | |]; try (apply (settled_aside i _ d l _ f); [solve [intros []]|intros; discriminate|exact Logic.I|exact I]).
      destruct (B q' eq_refl) as [-> Cm]. cbn [last] in Cm. pose proof (complete_full served _ Sv Pi Cm) as Fu. destruct I as [I1 I2]. cbn [s_disk s_proc] in *. split; cbn [s_disk s_proc].
      + intros _. split; [exact Fu|]. intros k q'' todo' r' Hk. exfalso. destruct (Nat.eq_dec k i) as [->|J]; [rewrite set_proc_same in Hk; discriminate|]. rewrite set_proc_other in Hk by exact J.
        apply J. destruct L as [L _]. cbn [s_lock s_proc] in L.
        assert (Li : l (lock_of jobs i) = Some i) by (apply L; rewrite H; do 3 eexists; reflexivity).
        assert (Lj : l (lock_of jobs k) = Some k) by (apply L; rewrite Hk; do 3 eexists; reflexivity).
        rewrite (same_locks k i) in Lj. congruence.
      + intros j. destruct (Nat.eq_dec j i) as [->|J]; [rewrite set_proc_same; exact Logic.I|rewrite set_proc_other by exact J; apply I2].
    - pose proof OK as [_ B]. specialize (B i). cbn [s_proc] in B. rewrite H in B. cbn in B. subst q.
      apply (settled_aside i _ d l _ f); [intros _; rewrite H; exact Logic.I|intros; discriminate| |exact I].
      destruct I as [I1 _]. cbn [s_disk s_proc] in I1. assert (Pa : past (f i)) by (rewrite H; exact Logic.I). destruct (I1 (ex_intro _ i Pa)) as [(k & Dk & _ & F) _].
      unfold work_at. rewrite Dk. cbn [load_ok]. split; [intros ? ? []|].
      assert (Iff : forall p, In p (map fst (k_work k)) <-> In p (map fst T)).
      { intros p. destruct (in_dec (list_eq_dec String.string_dec) p (map fst (k_work k))) as [X|X], (in_dec (list_eq_dec String.string_dec) p (map fst T)) as [Y|Y]; try tauto.
        - apply content_none in Y. rewrite <- F in Y. apply content_none in Y. contradiction.
        - apply content_none in X. rewrite F in X. apply content_none in X. contradiction. }
      split; [intros p; apply Iff|]. intros p J. left. apply Iff. exact J.
    - pose proof OK as [_ B]. specialize (B i). cbn [s_proc] in B. rewrite H in B. destruct B as [-> _].
      apply (settled_aside i _ d l _ f); [intros _; rewrite H; exact Logic.I|intros; discriminate| |exact I].
      destruct I as [I1 I2]. cbn [s_disk s_proc] in I1, I2. assert (Pa : past (f i)) by (rewrite H; exact Logic.I). destruct (I1 (ex_intro _ i Pa)) as [(k & Dk & _ & F) _].
      specialize (I2 i). rewrite H in I2. destruct I2 as (G1 & G2 & G3). cbn [load_ok]. unfold work_at in C. rewrite Dk, F in C. apply content_in in C.
      split; [intros p' t' K; apply in_app_or in K as [K|[K|[]]]; [auto|injection K as <- <-; exact C]|]. split; [intros p' K; apply G2; right; exact K|].
      intros p' K. rewrite map_app. destruct (G3 p' K) as [[<-|J]|J]; [right; apply in_or_app; right; left; reflexivity|left; exact J|right; apply in_or_app; left; exact J].
    - apply (settled_aside i _ d l _ f); [intros []|intros; discriminate| |exact I]. destruct I as [_ I2]. cbn [s_proc] in I2. specialize (I2 i). rewrite H in I2.
      destruct I2 as (G1 & _ & G3). cbn [load_ok]. intros p t. split; [apply G1|]. intros K. destruct (G3 p) as [[]|J]; [apply in_map_iff; exists (p, t); auto|].
      apply in_map_iff in J as ([p' t'] & <- & J). cbn [fst] in *. pose proof (G1 p' t' J) as K'. destruct good as [N _]. apply (in_content _ _ _ N) in K, K'. congruence.
  Qed.
  Lemma settled_reach d0 served s : d0 path = Nothing -> (forall c, In c served -> gc_tree c = T) -> reach above jobs d0 served s -> settled s.
  Proof.
    intros D Sv R. induction R as [|served new s s' R IH St].
    - split; [intros [i []]|intros i; exact Logic.I].
    - eapply settled_step; [exact Sv|eapply locks_reach; exact R|eapply all_ok_reach; eassumption| |exact St]. apply IH. intros c I. apply Sv. apply in_or_app. right. exact I.
  Qed.
  (** *** C92: as long as the URL serves the same files, every process that loads the database loads exactly these files, although it
      no longer has the lock and others may be rewriting them; and it never misses one it has seen in the directory. *)
  Theorem C92_same_files_same_database : forall d0 served s, d0 path = Nothing -> (forall c, In c served -> gc_tree c = T) -> reach above jobs d0 served s ->
    (forall i got, s_proc s i = Loaded got -> forall p t, In (p, t) got <-> In (p, t) T) /\
    (forall i q p todo got, s_proc s i = Loading q (p :: todo) got -> content p (work_at (s_disk s) q) <> None).
  Proof.
    intros d0 served s D Sv R. pose proof (settled_reach d0 served s D Sv R) as [I1 I2]. split.
    - intros i got H. specialize (I2 i). rewrite H in I2. exact I2.
    - intros i q p todo got H C. destruct (all_ok_reach d0 served s D R) as [_ B]. specialize (B i). rewrite H in B. destruct B as [-> _].
      assert (Pa : past (s_proc s i)) by (rewrite H; exact Logic.I). destruct (I1 (ex_intro _ i Pa)) as [(k & Dk & _ & F) _]. specialize (I2 i). rewrite H in I2. destruct I2 as (_ & G2 & _).
      unfold work_at in C. rewrite Dk, F in C. apply content_none in C. apply C, G2. left. reflexivity.
  Qed.
End Together.
Print Assumptions C92_only_served_content.
Print Assumptions C92_success_is_complete.
Print Assumptions C92_same_files_same_database.
