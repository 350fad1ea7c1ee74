(** C52: modification and creation times of files in a git history. *)
From Coq Require Import List NArith ZArith Ascii String Bool Lia Permutation.
From Verif Require Import Base StrLib IdModel MtimeModel.
Import ListNotations.
Local Open Scope Z_scope.

(** ** Specification *)
(** A commit with no parent touches the files it contains, a commit with one parent those whose content differs from the
    parent's (a parent that is not in the database counts as empty).  Merges touch nothing. *)
Definition content (db : N -> option commit) (id : N) (p : path) : option N :=
  match db id with Some c => lookup p (c_tree c) | None => None end.
Definition touches (db : N -> option commit) (i : info) (p : path) (t : gtime) : Prop :=
  exists c, db (i_id i) = Some c /\ c_time c = t /\
    ((i_parents i = [] /\ content db (i_id i) p <> None) \/
     exists q, i_parents i = [q] /\ content db q p <> content db (i_id i) p).
(** Earlier or at the same time: by the instant, then by the offset. *)
Definition not_after (a b : gtime) : Prop :=
  t_seconds a < t_seconds b \/ (t_seconds a = t_seconds b /\ t_offset a <= t_offset b).
Definition latest (P : gtime -> Prop) (t : gtime) : Prop := P t /\ forall t', P t' -> not_after t' t.
Definition earliest (P : gtime -> Prop) (t : gtime) : Prop := P t /\ forall t', P t' -> not_after t t'.
Definition touched_in (db : N -> option commit) (walk : list info) (p : path) (t : gtime) : Prop :=
  exists i, In i walk /\ touches db i p t.

(** ** Proofs *)
Lemma max_spec a b : (time_max a b = a \/ time_max a b = b) /\ not_after a (time_max a b) /\ not_after b (time_max a b).
Proof.
  unfold time_max, time_cmp, not_after. destruct (Z.compare_spec (t_seconds a) (t_seconds b)) as [E|L|G].
  - destruct (Z.compare_spec (t_offset a) (t_offset b)); (split; [auto|lia]).
  - split; [auto|lia].
  - split; [auto|lia].
Qed.
Lemma min_spec a b : (time_min a b = a \/ time_min a b = b) /\ not_after (time_min a b) a /\ not_after (time_min a b) b.
Proof.
  unfold time_min, time_cmp, not_after. destruct (Z.compare_spec (t_seconds a) (t_seconds b)) as [E|L|G].
  - destruct (Z.compare_spec (t_offset a) (t_offset b)); (split; [auto|lia]).
  - split; [auto|lia].
  - split; [auto|lia].
Qed.
Lemma not_after_trans a b c : not_after a b -> not_after b c -> not_after a c.
Proof. unfold not_after. lia. Qed.
Lemma not_after_refl a : not_after a a. Proof. unfold not_after. lia. Qed.
Lemma not_after_antisym a b : not_after a b -> not_after b a -> a = b.
Proof. unfold not_after. intros H H'. destruct a as [s o], b as [s' o']. cbn in *. f_equal; lia. Qed.
Lemma latest_unique P a b : latest P a -> latest P b -> a = b.
Proof. intros [A A'] [B B']. apply not_after_antisym; auto. Qed.
Lemma earliest_unique P a b : earliest P a -> earliest P b -> a = b.
Proof. intros [A A'] [B B']. apply not_after_antisym; auto. Qed.

Lemma lookup_upsert f t p q m : lookup q (upsert f t p m) =
  if String.eqb p q then Some (match lookup q m with Some v => f v | None => t end) else lookup q m.
Proof.
  induction m as [|[k v] m IH]; cbn; [reflexivity|]. destruct (String.eqb_spec k p) as [->|N]; cbn.
  - destruct (String.eqb_spec p q); reflexivity.
  - rewrite IH. destruct (String.eqb_spec k q) as [->|N2]; [|reflexivity].
    destruct (String.eqb_spec p q) as [->|]; [congruence|reflexivity].
Qed.
(** What a map says about the times in [P]. *)
Definition holds_latest (P : gtime -> Prop) (o : option gtime) : Prop :=
  match o with None => forall t, ~ P t | Some t => latest P t end.
Definition holds_earliest (P : gtime -> Prop) (o : option gtime) : Prop :=
  match o with None => forall t, ~ P t | Some t => earliest P t end.
Lemma holds_latest_ext P Q o : (forall t, P t <-> Q t) -> holds_latest P o -> holds_latest Q o.
Proof.
  intros E. destruct o as [t|]; cbn; [|intros H u Qu; exact (H u (proj2 (E u) Qu))].
  intros [A B]. split; [apply E, A|]. intros u Qu. apply B, E, Qu.
Qed.
Lemma holds_earliest_ext P Q o : (forall t, P t <-> Q t) -> holds_earliest P o -> holds_earliest Q o.
Proof.
  intros E. destruct o as [t|]; cbn; [|intros H u Qu; exact (H u (proj2 (E u) Qu))].
  intros [A B]. split; [apply E, A|]. intros u Qu. apply B, E, Qu.
Qed.
Lemma add_latest P o t : holds_latest P o ->
  holds_latest (fun u => P u \/ u = t) (Some (match o with Some v => time_max v t | None => t end)).
Proof.
  destruct o as [v|]; cbn.
  - intros [A B]. destruct (max_spec v t) as (C & D & E). split.
    + destruct C as [->| ->]; auto.
    + intros u [Pu| ->]; [|exact E]. apply (not_after_trans _ v); auto.
  - intros H. split; [auto|]. intros u [Pu| ->]; [destruct (H u Pu)|apply not_after_refl].
Qed.
Lemma add_earliest P o t : holds_earliest P o ->
  holds_earliest (fun u => P u \/ u = t) (Some (match o with Some v => time_min v t | None => t end)).
Proof.
  destruct o as [v|]; cbn.
  - intros [A B]. destruct (min_spec v t) as (C & D & E). split.
    + destruct C as [->| ->]; auto.
    + intros u [Pu| ->]; [|exact E]. apply (not_after_trans _ v); auto.
  - intros H. split; [auto|]. intros u [Pu| ->]; [destruct (H u Pu)|apply not_after_refl].
Qed.
Definition holds (P : path -> gtime -> Prop) (m : mod_times) : Prop :=
  forall p, holds_latest (P p) (lookup p (mt_mtimes m)) /\ holds_earliest (P p) (lookup p (mt_ctimes m)).
Lemma record_all t ps : forall P m, holds P m ->
  holds (fun p u => P p u \/ (u = t /\ In p ps)) (fold_left (record t) ps m).
Proof.
  induction ps as [|q ps IH]; intros P m H; cbn [fold_left].
  - intros p. destruct (H p) as [A B]. split; [eapply holds_latest_ext; [|exact A]|eapply holds_earliest_ext; [|exact B]]; cbn; tauto.
  - assert (H1 : holds (fun p u => P p u \/ (u = t /\ p = q)) (record t m q)).
    { intros p. destruct (H p) as [A B]. unfold record. cbn [mt_mtimes mt_ctimes]. rewrite !lookup_upsert.
      destruct (String.eqb_spec q p) as [->|N].
      - split; [eapply holds_latest_ext; [|apply add_latest; exact A]|eapply holds_earliest_ext; [|apply add_earliest; exact B]]; cbn; tauto.
      - split; [eapply holds_latest_ext; [|exact A]|eapply holds_earliest_ext; [|exact B]]; cbn; intuition congruence. }
    specialize (IH _ _ H1). intros p. destruct (IH p) as [A B]. split; [eapply holds_latest_ext; [|exact A]|eapply holds_earliest_ext; [|exact B]]; cbn; intuition congruence.
Qed.
Lemma opt_eqb_eq a b : opt_eqb a b = true <-> a = b.
Proof. destruct a, b; cbn; try (split; congruence). rewrite N.eqb_eq. split; congruence. Qed.
Lemma lookup_in {A} p (m : list (path * A)) v : lookup p m = Some v -> In p (map fst m).
Proof.
  induction m as [|[q w] m IH]; cbn; [discriminate|]. destruct (String.eqb_spec q p) as [->|]; [auto|]. intros H. right. apply IH. exact H.
Qed.
Lemma changed_iff a b p : In p (changed a b) <-> lookup p a <> lookup p b.
Proof.
  unfold changed. rewrite filter_In, negb_true_iff, in_app_iff. split.
  - intros [_ H] E. apply opt_eqb_eq in E. congruence.
  - intros N. split; [|destruct (opt_eqb (lookup p a) (lookup p b)) eqn:E; [apply opt_eqb_eq in E; contradiction|reflexivity]].
    destruct (lookup p a) eqn:A; [left; eapply lookup_in; exact A|]. destruct (lookup p b) eqn:B; [right; eapply lookup_in; exact B|congruence].
Qed.
Lemma visit_holds db i P m m' : holds P m -> visit db i m = Ok m' -> holds (fun p u => P p u \/ touches db i p u) m'.
Proof.
  intros H V.
  assert (EXT : forall Q m0, (forall p u, Q p u <-> P p u \/ touches db i p u) -> holds Q m0 -> holds (fun p u => P p u \/ touches db i p u) m0).
  { intros Q m0 E HQ p. destruct (HQ p) as [A B]. split; [eapply holds_latest_ext; [|exact A]|eapply holds_earliest_ext; [|exact B]]; cbn; apply E. }
  unfold visit in V. destruct (i_parents i) as [|q [|q2 r]] eqn:PA.
  - destruct (db (i_id i)) as [c|] eqn:C; [|discriminate]. injection V; intros <-. eapply EXT; [|apply record_all; exact H]. intros p u; cbv beta.
    rewrite changed_iff. cbn [lookup]. unfold touches, content. rewrite C. split.
    + intros [A|[-> A]]; [auto|]. right. exists c. split; [reflexivity|]. split; [reflexivity|]. left. split; [exact PA|congruence].
    + intros [A|(c' & [= <-] & <- & [[_ A]|(q & A & _)])]; [auto|right; split; [reflexivity|congruence]|congruence].
  - destruct (db (i_id i)) as [c|] eqn:C; [|discriminate]. injection V; intros <-. eapply EXT; [|apply record_all; exact H]. intros p u; cbv beta.
    rewrite changed_iff. unfold touches, content. rewrite C.
    assert (X : lookup p (match db q with Some pc => c_tree pc | None => [] end) = match db q with Some c => lookup p (c_tree c) | None => None end) by (destruct (db q); reflexivity).
    rewrite X. split.
    + intros [A|[-> A]]; [auto|]. right. exists c. split; [reflexivity|]. split; [reflexivity|]. right. exists q. split; [exact PA|exact A].
    + intros [A|(c' & [= <-] & <- & [[A _]|(q' & A & B)])]; [auto|congruence|]. right. split; [reflexivity|]. rewrite PA in A. injection A; intros ->. exact B.
  - injection V; intros <-. eapply EXT; [|exact H]. cbn. intros p u. split; [auto|]. intros [A|(c & _ & _ & [[A _]|(q' & A & _)])]; [exact A|congruence|congruence].
Qed.
Lemma visit_all_holds db walk : forall P m m', holds P m -> visit_all db walk m = Ok m' ->
  holds (fun p u => P p u \/ touched_in db walk p u) m'.
Proof.
  induction walk as [|i walk IH]; intros P m m' H V; cbn [visit_all] in V.
  - injection V; intros <-. intros p. destruct (H p) as [A B].
    split; [eapply holds_latest_ext; [|exact A]|eapply holds_earliest_ext; [|exact B]]; cbn; intros t; (split; [auto|]); intros [X|(j & [] & _)]; exact X.
  - destruct (visit db i m) as [m1| |] eqn:E; cbn [obind] in V; try discriminate. pose proof (visit_holds _ _ _ _ _ H E) as H1.
    pose proof (IH _ _ _ H1 V) as H2. intros p. destruct (H2 p) as [A B].
    assert (X : forall t, (P p t \/ touches db i p t) \/ touched_in db walk p t <-> P p t \/ touched_in db (i :: walk) p t).
    { intros t. unfold touched_in. split.
      - intros [[X|X]|(j & J & X)]; [auto|right; exists i; cbn; auto|right; exists j; cbn; auto].
      - intros [X|(j & [<-|J] & X)]; [auto|auto|right; exists j; auto]. }
    split; [eapply holds_latest_ext; [exact X|exact A]|eapply holds_earliest_ext; [exact X|exact B]].
Qed.
Lemma new_holds db walk m : mod_times_new db walk = Ok m -> holds (touched_in db walk) m.
Proof.
  intros H. pose proof (visit_all_holds db walk (fun _ _ => False) (mkTimes [] []) m) as X.
  assert (H0 : holds (fun _ _ => False) (mkTimes [] [])) by (intros p; cbn; auto).
  specialize (X H0 H). intros p. destruct (X p) as [A B].
  split; [eapply holds_latest_ext; [|exact A]|eapply holds_earliest_ext; [|exact B]]; cbn; tauto.
Qed.

(** *** The recorded time is that of the latest (earliest) commit touching the file, for any order of the commits. *)
Theorem C52_latest db walk m p t : mod_times_new db walk = Ok m ->
  (lookup p (mt_mtimes m) = Some t <-> latest (touched_in db walk p) t).
Proof.
  intros H. destruct (new_holds _ _ _ H p) as [A _]. destruct (lookup p (mt_mtimes m)) as [u|]; cbn in A; split.
  - intros [= <-]. exact A.
  - intros B. f_equal. eapply latest_unique; eassumption.
  - discriminate.
  - intros [B _]. destruct (A t B).
Qed.
Theorem C52_earliest db walk m p t : mod_times_new db walk = Ok m ->
  (lookup p (mt_ctimes m) = Some t <-> earliest (touched_in db walk p) t).
Proof.
  intros H. destruct (new_holds _ _ _ H p) as [_ A]. destruct (lookup p (mt_ctimes m)) as [u|]; cbn in A; split.
  - intros [= <-]. exact A.
  - intros B. f_equal. eapply earliest_unique; eassumption.
  - discriminate.
  - intros [B _]. destruct (A t B).
Qed.
Theorem C52_order_independent db walk walk' m m' civil_of_day civil p :
  (forall i, In i walk <-> In i walk') -> mod_times_new db walk = Ok m -> mod_times_new db walk' = Ok m' ->
  for_path m p = for_path m' p /\ mdate_for_path civil_of_day civil m p = mdate_for_path civil_of_day civil m' p /\
  cdate_for_path civil_of_day civil m p = cdate_for_path civil_of_day civil m' p.
Proof.
  intros E H H'. assert (T : forall t, touched_in db walk p t <-> touched_in db walk' p t).
  { intros t. unfold touched_in. split; intros (i & I & X); exists i; (split; [apply E, I|exact X]). }
  assert (L : lookup p (mt_mtimes m) = lookup p (mt_mtimes m')).
  { destruct (new_holds _ _ _ H p) as [A _], (new_holds _ _ _ H' p) as [A' _]. apply (holds_latest_ext _ _ _ T) in A.
    destruct (lookup p (mt_mtimes m)) as [u|], (lookup p (mt_mtimes m')) as [u'|]; cbn in A, A'; try reflexivity.
    - f_equal. eapply latest_unique; eassumption.
    - destruct A as [A _]. destruct (A' u A).
    - destruct A' as [A' _]. destruct (A u' A'). }
  assert (L' : lookup p (mt_ctimes m) = lookup p (mt_ctimes m')).
  { destruct (new_holds _ _ _ H p) as [_ A], (new_holds _ _ _ H' p) as [_ A']. apply (holds_earliest_ext _ _ _ T) in A.
    destruct (lookup p (mt_ctimes m)) as [u|], (lookup p (mt_ctimes m')) as [u'|]; cbn in A, A'; try reflexivity.
    - f_equal. eapply earliest_unique; eassumption.
    - destruct A as [A _]. destruct (A' u A).
    - destruct A' as [A' _]. destruct (A u' A'). }
  unfold for_path, mdate_for_path, cdate_for_path. rewrite L, L'. auto.
Qed.

(** *** Looking up a tracked file *)
(** A complete history: every commit is there with its parents, and commits come after their parents. *)
Record complete_history (db : N -> option commit) (walk : list info) : Prop := {
  ch_present : forall i, In i walk -> db (i_id i) <> None;
  ch_parents : forall i q, In i walk -> In q (i_parents i) -> exists j, In j walk /\ i_id j = q;
  ch_acyclic : exists age : N -> nat, forall i q, In i walk -> In q (i_parents i) -> (age q < age (i_id i))%nat;
  ch_times : forall i c, In i walk -> db (i_id i) = Some c -> valid_time (c_time c) = true }.
(** A merge that adds a file none of its parents has. *)
Definition added_by_merge (db : N -> option commit) (walk : list info) (p : path) : Prop :=
  exists i, In i walk /\ (2 <= List.length (i_parents i))%nat /\ content db (i_id i) p <> None /\
    forall q, In q (i_parents i) -> content db q p = None.
Lemma new_total db walk : (forall i, In i walk -> db (i_id i) <> None) -> exists m, mod_times_new db walk = Ok m.
Proof.
  unfold mod_times_new. intros H. generalize (mkTimes [] []). induction walk as [|i walk IH]; intros m; [exists m; reflexivity|].
  cbn [visit_all]. assert (V : exists m1, visit db i m = Ok m1).
  { unfold visit. pose proof (H i (or_introl eq_refl)) as P. destruct (db (i_id i)) as [c|]; [|congruence].
    destruct (i_parents i) as [|q [|]]; eexists; reflexivity. }
  destruct V as [m1 ->]. cbn [obind]. apply IH. intros j J. apply H. right. exact J.
Qed.
(** The times are there exactly if no commit is missing whose files are compared, and nothing stops the program before. *)
Theorem C52_missing_commits db walk :
  (mod_times_new db walk = Err <-> exists i, In i walk /\ (List.length (i_parents i) <= 1)%nat /\ db (i_id i) = None) /\
  mod_times_new db walk <> Panic.
Proof.
  unfold mod_times_new. generalize (mkTimes [] []). induction walk as [|i walk IH]; intros m; cbn [visit_all].
  - split; [|discriminate]. split; [discriminate|intros (i & [] & _)].
  - assert (V : (visit db i m = Err /\ (List.length (i_parents i) <= 1)%nat /\ db (i_id i) = None) \/
      (exists m1, visit db i m = Ok m1) /\ ((List.length (i_parents i) <= 1)%nat -> db (i_id i) <> None)).
    { unfold visit. destruct (i_parents i) as [|q [|q2 r]]; [| |right; split; [eauto|cbn; lia]];
        (destruct (db (i_id i)) as [c|]; [right; split; [eauto|discriminate]|left; cbn; auto]). }
    destruct V as [(E & L & D)|[[m1 E] D]]; rewrite E; cbn [obind].
    + split; [|discriminate]. split; [intros _; exists i; cbn; auto|reflexivity].
    + destruct (IH m1) as [A B]. split; [|exact B]. rewrite A. split.
      * intros (j & J & X). exists j. cbn. auto.
      * intros (j & [<-|J] & L & Z); [now elim (D L)|eauto].
Qed.
Theorem C52_tracked_files_have_times db walk head p :
  complete_history db walk -> In head walk -> content db (i_id head) p <> None ->
  exists m, mod_times_new db walk = Ok m /\
    ((exists s t, for_path m p = Ok s /\ latest (touched_in db walk p) t /\ s = t_seconds t) \/ added_by_merge db walk p).
Proof.
  intros [PR PA [age AC] TI] HI HC. destruct (new_total db walk PR) as [m M]. exists m. split; [exact M|].
  assert (X : forall n i, (age (i_id i) < n)%nat -> In i walk -> content db (i_id i) p <> None ->
    (exists t, touched_in db walk p t) \/ added_by_merge db walk p).
  { induction n as [|n IH]; intros i L I C; [lia|]. pose proof (PR i I) as Pi. destruct (db (i_id i)) as [c|] eqn:DC; [|congruence].
    destruct (i_parents i) as [|q r] eqn:PS.
    - left. exists (c_time c), i. split; [exact I|]. exists c. split; [exact DC|]. split; [reflexivity|]. left. auto.
    - assert (STEP : forall q0, In q0 (i_parents i) -> content db q0 p <> None -> (exists t, touched_in db walk p t) \/ added_by_merge db walk p).
      { intros q0 Q CQ. destruct (PA i q0 I Q) as (j & J & <-). apply (IH j); [|exact J|exact CQ]. pose proof (AC i _ I Q). lia. }
      destruct r as [|q2 r].
      + assert (DEC : {content db q p = content db (i_id i) p} + {content db q p <> content db (i_id i) p}) by (repeat decide equality). destruct DEC as [E|N].
        * apply (STEP q); [rewrite PS; left; reflexivity|congruence].
        * left. exists (c_time c), i. split; [exact I|]. exists c. split; [exact DC|]. split; [reflexivity|]. right. exists q. auto.
      + destruct (existsb (fun q0 => match content db q0 p with Some _ => true | None => false end) (i_parents i)) eqn:EX.
        * apply existsb_exists in EX as (q0 & Q & CQ). apply (STEP q0 Q). destruct (content db q0 p); congruence.
        * right. exists i. split; [exact I|]. rewrite PS. split; [cbn; lia|]. split; [exact C|]. intros q0 Q.
          destruct (content db q0 p) as [b|] eqn:CQ; [|reflexivity]. exfalso. rewrite <- not_true_iff_false in EX. apply EX.
          apply existsb_exists. exists q0. split; [rewrite PS; exact Q|rewrite CQ; reflexivity]. }
  destruct (X (S (age (i_id head))) head ltac:(lia) HI HC) as [[t0 T0]|T]; [left|right; exact T].
  destruct (new_holds _ _ _ M p) as [A _]. unfold for_path. destruct (lookup p (mt_mtimes m)) as [t|]; cbn in A; [|destruct (A t0 T0)].
  exists (t_seconds t), t. pose proof A as [(i & I & c & DC & TC & _) _].
  assert (V : valid_time t = true) by (rewrite <- TC; apply (TI i c I DC)). rewrite V. auto.
Qed.

(** *** Dates *)
(** The day of a commit in the time zone of its author: days since 1970-01-01. *)
Definition local_day (t : gtime) : Z := (t_seconds t + t_offset t) / 86400.
(** The parser reads what is written, for years of four digits (see Calendar.v for a calendar and a parser of which this
    holds). *)
Definition reads_dates (civil_of_day : Z -> Z * N * N) (civil : civil_parser) : Prop :=
  forall t, 0 <= fst (fst (civil_of_day (local_day t))) <= 9999 ->
  civil (time_date_text civil_of_day t) = Some (civil_of_day (local_day t)).
Theorem C52_dates db walk m p t t' civil_of_day civil :
  mod_times_new db walk = Ok m -> reads_dates civil_of_day civil ->
  latest (touched_in db walk p) t -> earliest (touched_in db walk p) t' ->
  let year u := fst (fst (civil_of_day (local_day u))) in
  0 <= year t <= 9999 -> 0 <= year t' <= 9999 ->
  (mdate_for_path civil_of_day civil m p =
     if (valid_time t && (2000 <=? year t) && (year t <=? 2100))%bool then Ok (time_date_text civil_of_day t) else Panic) /\
  (cdate_for_path civil_of_day civil m p =
     if (valid_time t' && (2000 <=? year t') && (year t' <=? 2100))%bool then Ok (time_date_text civil_of_day t') else Panic).
Proof.
  intros M R L E year Yt Yt'. apply (C52_latest _ _ _ _ _ M) in L. apply (C52_earliest _ _ _ _ _ M) in E.
  unfold mdate_for_path, cdate_for_path. rewrite L, E.
  assert (X : forall u, 0 <= year u <= 9999 -> time_to_date civil_of_day civil u =
    if (valid_time u && (2000 <=? year u) && (year u <=? 2100))%bool then Ok (time_date_text civil_of_day u) else Panic).
  { intros u Yu. unfold time_to_date. destruct (valid_time u); [|reflexivity]. cbn [negb andb]. unfold date_from_str. rewrite (R u Yu).
    unfold year in *. destruct (civil_of_day (local_day u)) as [[y mm] d]. cbn [fst] in *.
    unfold i16_as_u32. change YEAR_MIN with 2000%N. change YEAR_MAX with 2100%N. rewrite Z.mod_small by lia.
    destruct (Z.leb_spec 2000 y) as [A|A]; destruct (Z.leb_spec y 2100) as [B|B]; cbn [andb];
      destruct (N.leb_spec 2000 (Z.to_N y)); destruct (N.leb_spec (Z.to_N y) 2100); try lia; reflexivity. }
  rewrite (X t Yt), (X t' Yt'). auto.
Qed.
(** In one time zone the creation day is not after the modification day. *)
Theorem C52_days_ordered db walk p t t' :
  latest (touched_in db walk p) t -> earliest (touched_in db walk p) t' -> t_offset t = t_offset t' -> local_day t' <= local_day t.
Proof.
  intros [A _] [_ B] O. specialize (B t A). unfold local_day, not_after in *. apply Z.div_le_mono; [reflexivity|]. lia.
Qed.

(** *** Cases *)
(** The Gregorian calendar, from days since 1970-01-01. *)
Definition gregorian (day : Z) : Z * N * N :=
  let z := day + 719468 in
  let era := z / 146097 in
  let doe := z - era * 146097 in
  let yoe := (doe - doe / 1460 + doe / 36524 - doe / 146096) / 365 in
  let doy := doe - (365 * yoe + yoe / 4 - yoe / 100) in
  let mp := (5 * doy + 2) / 153 in
  let d := doy - (153 * mp + 2) / 5 + 1 in
  let m := if mp <? 10 then mp + 3 else mp - 9 in
  (yoe + era * 400 + (if m <=? 2 then 1 else 0), Z.to_N m, Z.to_N d).
Definition day_1 : Z := 1704067200. (* 2024-01-01 00:00:00 UTC *)
Definition ex_commit (files : tree) (s o : Z) : commit := mkCommit files (mkTime s o).
(** 1: adds a and b.  2 (on 1): changes a.  3 (on 1): adds c.  4: merges 2 and 3 and adds d.  5 (on 4): changes b.
    Commit 1 is made in the time zone UTC+14. *)
Definition ex_db (id : N) : option commit :=
  match id with
  | 1%N => Some (ex_commit [("a", 1%N); ("b", 2%N)]%string (day_1 + 34200) 50400)
  | 2%N => Some (ex_commit [("a", 3%N); ("b", 2%N)]%string (day_1 + 40000) 0)
  | 3%N => Some (ex_commit [("a", 1%N); ("b", 2%N); ("c", 4%N)]%string (day_1 + 90000) 0)
  | 4%N => Some (ex_commit [("a", 3%N); ("b", 2%N); ("c", 4%N); ("d", 5%N)]%string (day_1 + 100000) 0)
  | 5%N => Some (ex_commit [("a", 3%N); ("b", 6%N); ("c", 4%N); ("d", 5%N)]%string (day_1 + 200000) 0)
  | _ => None
  end.
Definition ex_walk : list info := [mkInfo 5 [4%N]; mkInfo 4 [2%N; 3%N]; mkInfo 3 [1%N]; mkInfo 2 [1%N]; mkInfo 1 []].
Lemma ex_complete : complete_history ex_db ex_walk.
Proof.
  split.
  - intros i I. repeat (destruct I as [<-|I]; [discriminate|]). destruct I.
  - assert (X : forallb (fun i => forallb (fun q => existsb (fun j => N.eqb (i_id j) q) ex_walk) (i_parents i)) ex_walk = true) by (vm_compute; reflexivity).
    rewrite forallb_forall in X. intros i q I Q. specialize (X i I). rewrite forallb_forall in X. specialize (X q Q).
    apply existsb_exists in X as (j & J & E). apply N.eqb_eq in E. exists j. auto.
  - exists N.to_nat. assert (X : forallb (fun i => forallb (fun q => N.ltb q (i_id i)) (i_parents i)) ex_walk = true) by (vm_compute; reflexivity).
    rewrite forallb_forall in X. intros i q I Q. specialize (X i I). rewrite forallb_forall in X. specialize (X q Q). apply N.ltb_lt in X. lia.
  - intros i c I. cbn in I. repeat (destruct I as [<-|I]; [cbn; intros [= <-]; vm_compute; reflexivity|]). destruct I.
Qed.
Example C52_nonvacuous : exists m, mod_times_new ex_db ex_walk = Ok m /\ complete_history ex_db ex_walk /\
  map (for_path m) ["a"; "b"; "c"; "d"]%string = [Ok (day_1 + 40000); Ok (day_1 + 200000); Ok (day_1 + 90000); Panic] /\
  ~ added_by_merge ex_db ex_walk "a"%string /\ added_by_merge ex_db ex_walk "d"%string.
Proof.
  eexists. split; [vm_compute; reflexivity|]. split; [exact ex_complete|]. split; [vm_compute; reflexivity|]. split.
  - intros (i & I & L & _ & Q). cbn in I. destruct I as [<-|[<-|[<-|[<-|[<-|[]]]]]]; cbn in L; try lia.
    specialize (Q 2%N (or_introl eq_refl)). discriminate.
  - exists (mkInfo 4 [2%N; 3%N]). split; [right; left; reflexivity|]. split; [cbn; lia|]. split; [discriminate|].
    intros q [<-|[<-|[]]]; reflexivity.
Qed.
(** "Looking up any tracked file does not panic" is false: a file added by a merge has no time. *)
Theorem C52_tracked_lookup_refuted : exists db walk head m p b,
  complete_history db walk /\ In head walk /\ mod_times_new db walk = Ok m /\
  content db (i_id head) p = Some b /\ for_path m p = Panic.
Proof.
  eexists ex_db, ex_walk, (mkInfo 5 [4%N]), _, "d"%string, 5%N. split; [exact ex_complete|]. split; [left; reflexivity|].
  split; [vm_compute; reflexivity|]. split; vm_compute; reflexivity.
Qed.
(** A [GitPath] is "guaranteed to be tracked by Git", but every relative path is accepted, tracked or not; looking it up
    panics if no commit touches it. *)
Theorem C52_git_path_refuted db walk m head p :
  mod_times_new db walk = Ok m -> (forall r, p <> String "/"%char r) -> (forall t, ~ touched_in db walk p t) ->
  git_path (Some head) p = Ok p /\ for_path m p = Panic.
Proof.
  intros M R N. split.
  - unfold git_path. destruct p as [|c r]; [reflexivity|]. cbn [starts_with has_relative_path lookup_entry_by_path].
    destruct (Ascii.eqb_spec c "/"%char) as [->|D]; [destruct (R r eq_refl)|]. unfold starts_with. cbn [strip_prefix].
    destruct (Ascii.eqb_spec "/"%char c) as [E|_]; [congruence|]. reflexivity.
  - destruct (new_holds _ _ _ M p) as [A _]. unfold for_path. destruct (lookup p (mt_mtimes m)) as [t|]; [|reflexivity].
    destruct A as [A _]. destruct (N t A).
Qed.
(** Dates are taken in each commit's time zone, so a file can be modified on the day before it is created. *)
Definition zone_db (id : N) : option commit :=
  match id with
  | 1%N => Some (ex_commit [("a", 1%N)]%string (day_1 + 40000) 50400)
  | 2%N => Some (ex_commit [("a", 2%N)]%string (day_1 + 50000) 0)
  | _ => None
  end.
Definition only_dates : civil_parser := fun s =>
  if String.eqb s "2024-01-01"%string then Some (2024, 1%N, 1%N) else if String.eqb s "2024-01-02"%string then Some (2024, 1%N, 2%N) else None.
Theorem C52_dates_ordered_refuted : exists m, mod_times_new zone_db [mkInfo 2 [1%N]; mkInfo 1 []] = Ok m /\
  cdate_for_path gregorian only_dates m "a"%string = Ok "2024-01-02"%string /\ mdate_for_path gregorian only_dates m "a"%string = Ok "2024-01-01"%string.
Proof. eexists. split; [vm_compute; reflexivity|]. split; vm_compute; reflexivity. Qed.

(** *** Freshness: the latest commit is fresh exactly during the 90 days (7776000 seconds) after it (or if it is in the
    future). *)
Theorem C52_fresh timestamp now : is_fresh timestamp now = true <-> now - timestamp < 7776000 * 1000000000.
Proof. unfold is_fresh, STALE_AFTER. rewrite Z.ltb_lt. lia. Qed.

Print Assumptions C52_missing_commits.
Print Assumptions C52_latest.
Print Assumptions C52_earliest.
Print Assumptions C52_order_independent.
Print Assumptions C52_tracked_files_have_times.
Print Assumptions C52_dates.
Print Assumptions C52_days_ordered.
Print Assumptions C52_tracked_lookup_refuted.
Print Assumptions C52_git_path_refuted.
Print Assumptions C52_dates_ordered_refuted.
Print Assumptions C52_fresh.
