(** Property theorems C92: how an audit starts when locks are busy. *)
From Coq Require Import List NArith ZArith Ascii String Bool Arith Lia.
From Verif Require Import Base StrLib IdModel DbModel PkgModel IndexModel AuditModel MtimeModel FetchModel TermModel WaitModel.
Import ListNotations.
Local Open Scope string_scope.
Local Open Scope N_scope.

(** Another process has the lock; the lock is obtained, now or within five minutes. *)
Definition busy (l : lock_state) : Prop := exists s, l = HeldFor s.
Definition obtainable (l : lock_state) : Prop := l = Free \/ exists s, l = HeldFor (Some s) /\ s <= 300.
Definition db_url (c : config) : string := match cf_db_url c with Some u => u | None => DEFAULT_URL end.
Definition db_dir (default_path : string) (c : config) : string := match cf_db_path c with Some p => p | None => default_path end.
(** The files of the advisory database, if they are obtained. *)
Definition files (c : config) (s : surroundings) (t : fs_tree) : Prop :=
  (cf_fetch c = true /\ obtainable (su_db_lock s) /\ su_fetched s = Some t) \/ (cf_fetch c = false /\ su_opened s = t).
Definition database_read (c : config) (s : surroundings) (db : database) : Prop := exists t, files c s t /\ db_open t = Ok db.

(** An error is taken for a busy lock exactly if it is one. *)
Theorem C92_busy_is_told e : from_tame e = KLockTimeout <-> e = TLock TimedOut \/ e = TLock Contested.
Proof. destruct e as [[| |]|]; cbn; split; try tauto; try discriminate; intros [H|H]; discriminate H. Qed.

Lemma attempt_now {A} l (after : option A) k : k <> KLockTimeout ->
  match l with
  | Free => attempt l after k 0 = match after with Some a => inl a | None => inr k end
  | HeldFor _ => attempt l after k 0 = inr KLockTimeout
  | Unlockable => attempt l after k 0 = inr KIo
  end.
Proof. intros K. destruct l; reflexivity. Qed.
Lemma retried_exact {A} d l (after : option A) k : k <> KLockTimeout ->
  exists r, retried d (attempt l after k) = (match l with HeldFor _ => [WaitingFor d 300] | _ => [] end, r) /\
  (obtainable l -> match after with Some a => r = inl a | None => exists q, r = inr q end) /\ (~ obtainable l -> exists q, r = inr q).
Proof.
  intros K. unfold retried. pose proof (attempt_now l after k K) as H. destruct l as [|[s|]|].
  - rewrite H. exists (match after with Some a => inl a | None => inr k end). split; [destruct after; [reflexivity|destruct k; try reflexivity; contradiction]|]. split.
    + intros _. destruct after; [reflexivity|eauto].
    + intros O. exfalso. apply O. left. reflexivity.
  - rewrite H. change DEFAULT_LOCK_TIMEOUT with 300. eexists. split; [reflexivity|]. unfold attempt, acquire_lock, wait_lock. cbn [N.eqb].
    destruct (N.leb_spec s 300) as [L|L].
    + split; [intros _; destruct after; eauto|]. intros O. exfalso. apply O. right. eauto.
    + split; [|eauto]. intros [O|(q & O & B)]; [discriminate O|]. injection O as <-. lia.
  - rewrite H. change DEFAULT_LOCK_TIMEOUT with 300. eexists. split; [reflexivity|]. unfold attempt, acquire_lock, wait_lock. cbn [N.eqb].
    split; [|eauto]. intros [O|(q & O & B)]; discriminate O.
  - rewrite H. eexists. split; [reflexivity|]. split; [|eauto]. intros [O|(q & O & B)]; discriminate O.
Qed.
Lemma obtainable_dec l : obtainable l \/ ~ obtainable l.
Proof.
  unfold obtainable. destruct l as [|[s|]|]; [left; left; reflexivity| | |].
  - destruct (N.le_gt_cases s 300) as [L|L]; [left; right; eauto|]. right. intros [O|(q & O & B)]; [discriminate O|]. injection O as <-. lia.
  - right. intros [O|(q & O & B)]; discriminate O.
  - right. intros [O|(q & O & B)]; discriminate O.
Qed.

(** The auditor started is the one all other theorems are about, in the world in which a lock that does not come free within five
    minutes (or at all) is a failure. *)
Theorem C92_same_start p c s w :
  (forall t, wd_checkout w c = Some t <-> files c s t) ->
  (forall u, wd_index w u = None \/ obtainable (su_index_lock s)) -> (forall u, obtainable (su_index_lock s) -> wd_index w u = su_index s u) ->
  snd (auditor_start p c s) = auditor_new c w.
Proof.
  intros W X1 X2. unfold auditor_new, auditor_start.
  assert (I : forall q, snd (start_index q c s) = if cf_yanked c then wd_index w (cf_update_index c && cf_fetch c) else None).
  { intros q. unfold start_index. destruct (cf_yanked c); [|reflexivity]. destruct (cf_update_index c && cf_fetch c)%bool.
    - destruct (retried_exact q (su_index_lock s) (su_index s true) KRegistry) as (r & E & A & B); [discriminate|]. rewrite E. cbn [snd].
      destruct (obtainable_dec (su_index_lock s)) as [O|O].
      + rewrite (X2 true O). specialize (A O). destruct (su_index s true); [rewrite A; reflexivity|]. destruct A as [x ->]. reflexivity.
      + destruct (B O) as [x ->]. destruct (X1 true) as [Z|Z]; [rewrite Z; reflexivity|contradiction].
    - destruct (retried_exact q (su_index_lock s) (su_index s false) KRegistry) as (r & E & A & B); [discriminate|]. rewrite E. cbn [snd].
      destruct (obtainable_dec (su_index_lock s)) as [O|O].
      + rewrite (X2 false O). specialize (A O). destruct (su_index s false); [rewrite A; reflexivity|]. destruct A as [x ->]. reflexivity.
      + destruct (B O) as [x ->]. destruct (X1 false) as [Z|Z]; [rewrite Z; reflexivity|contradiction]. }
  assert (T : forall q t, snd (start_with q c s t) = match db_open t with Err => inr (Exit 1) | Panic => inr Crash
     | Ok db => inl (mkAuditor c db (if cf_yanked c then option_map (fun ix => (ix, [])) (wd_index w (cf_update_index c && cf_fetch c)) else None) [] (Some DEFAULT_MAX_BINARY_SIZE) None) end).
  { intros q t. unfold start_with. destruct (db_open t) as [db| |]; [|reflexivity..]. specialize (I q). destruct (start_index q c s) as [m ix]. cbn [snd] in *. rewrite I.
    destruct (cf_yanked c); reflexivity. }
  destruct (cf_fetch c) eqn:F.
  - destruct (retried_exact (db_dir p c) (su_db_lock s) (su_fetched s) KRepo) as (r & E & A & B); [discriminate|]. unfold db_dir in E. rewrite E.
    assert (N : wd_checkout w c = None \/ exists t, wd_checkout w c = Some t /\ files c s t).
    { destruct (wd_checkout w c) as [t|] eqn:Q; [right; exists t; split; [reflexivity|apply W; reflexivity]|left; reflexivity]. }
    destruct N as [N|(t & N & Fi)]; rewrite N.
    + assert (R : exists q, r = inr q).
      { destruct (obtainable_dec (su_db_lock s)) as [O|O]; [|exact (B O)]. specialize (A O). destruct (su_fetched s) as [t|] eqn:G; [|exact A].
        exfalso. assert (Z : wd_checkout w c = Some t) by (apply W; left; auto). congruence. }
      destruct R as [q ->]. reflexivity.
    + destruct Fi as [(_ & O & G)|[? _]]; [|congruence]. specialize (A O). rewrite G in A. subst r.
      specialize (T (match cf_db_path c with Some p0 => p0 | None => p end) t). destruct (start_with _ c s t) as [m' o]. cbn [snd] in *. exact T.
  - assert (N : wd_checkout w c = Some (su_opened s)) by (apply W; right; auto). rewrite N. apply T.
Qed.

(** *** What is said *)
(** Everything said, item by item.  The items about the index are said only after the database has been read. *)
Definition says (p : string) (c : config) (s : surroundings) (x : said) : Prop :=
  match x with
  | FetchingDb u => cf_fetch c = true /\ is_quiet c = false /\ u = db_url c
  | WaitingFor d n => d = db_dir p c /\ n = 300 /\
      ((cf_fetch c = true /\ busy (su_db_lock s)) \/ ((exists db, database_read c s db) /\ cf_yanked c = true /\ busy (su_index_lock s)))
  | NotFetched => cf_fetch c = true /\ ~ exists t, files c s t
  | NotLoaded => exists t, files c s t /\ db_open t = Err
  | LoadedDb n d => is_quiet c = false /\ d = db_dir p c /\ exists db, database_read c s db /\ n = List.length (db_iter db)
  | UpdatingIndex => is_quiet c = false /\ (exists db, database_read c s db) /\ cf_yanked c = true /\ cf_update_index c = true /\ cf_fetch c = true
  | IndexNotUpdated => is_quiet c = false /\ (exists db, database_read c s db) /\ cf_yanked c = true /\ (cf_update_index c = true /\ cf_fetch c = true) /\
      ~ (obtainable (su_index_lock s) /\ exists i, su_index s true = Some i)
  | IndexNotOpened => is_quiet c = false /\ (exists db, database_read c s db) /\ cf_yanked c = true /\ ~ (cf_update_index c = true /\ cf_fetch c = true) /\
      ~ (obtainable (su_index_lock s) /\ exists i, su_index s false = Some i)
  end.
Definition says_index (p : string) (c : config) (s : surroundings) (x : said) : Prop :=
  cf_yanked c = true /\
  match x with
  | WaitingFor d n => d = p /\ n = 300 /\ busy (su_index_lock s)
  | UpdatingIndex => is_quiet c = false /\ cf_update_index c = true /\ cf_fetch c = true
  | IndexNotUpdated => is_quiet c = false /\ (cf_update_index c = true /\ cf_fetch c = true) /\ ~ (obtainable (su_index_lock s) /\ exists i, su_index s true = Some i)
  | IndexNotOpened => is_quiet c = false /\ ~ (cf_update_index c = true /\ cf_fetch c = true) /\ ~ (obtainable (su_index_lock s) /\ exists i, su_index s false = Some i)
  | _ => False
  end.
Lemma in_waiting l d x : In x (match l with HeldFor _ => [WaitingFor d 300] | _ => [] end) <-> x = WaitingFor d 300 /\ busy l.
Proof.
  unfold busy. destruct l; cbn [In]; split; try tauto; try (intros [_ [s H]]; discriminate H).
  - intros [<-|[]]. eauto.
  - intros [-> _]. left. reflexivity.
Qed.
Lemma in_unless c l x : In x (unless_quiet c l) <-> is_quiet c = false /\ In x l.
Proof. unfold unless_quiet. destruct (is_quiet c); cbn [In]; split; try tauto. intros [H _]; discriminate H. Qed.
Lemma result_iff {A} l (after : option A) r : (obtainable l -> match after with Some a => r = inl a | None => exists q : error_kind, r = inr q end) ->
  (~ obtainable l -> exists q, r = inr q) -> forall (q : list said) y, In y (match r with inl _ => [] | inr _ => q end) <-> In y q /\ ~ (obtainable l /\ exists i, after = Some i).
Proof.
  intros A0 B q y. destruct (obtainable_dec l) as [O|O].
  - specialize (A0 O). destruct after as [a|].
    + subst r. split; [intros []|]. intros [_ N]. apply N. eauto.
    + destruct A0 as [k ->]. split; [intros H; split; [exact H|intros [_ [i Q]]; discriminate Q]|tauto].
  - destruct (B O) as [k ->]. tauto.
Qed.
Lemma index_says p c s x : In x (fst (start_index p c s)) <-> says_index p c s x.
Proof.
  unfold start_index, says_index. destruct (cf_yanked c); cbn [fst]; [|split; [intros []|intros [H _]; discriminate H]].
  destruct (cf_update_index c && cf_fetch c)%bool eqn:U.
  - assert (UF : cf_update_index c = true /\ cf_fetch c = true) by (apply andb_true_iff; exact U).
    destruct (retried_exact p (su_index_lock s) (su_index s true) KRegistry) as (r & E & A & B); [discriminate|]. rewrite E. cbn [fst].
    rewrite !in_app_iff, in_unless, in_waiting, (result_iff _ _ _ A B), in_unless. cbn [In].
    destruct x; split; try (intros H; decompose [and or] H; discriminate); try (intros [_ H]; decompose [and] H; subst; tauto); try (intros H; decompose [and or] H; try discriminate; try congruence; tauto).
    intros [[_ [Q|[]]]|[[Q K]|[[_ [Q|[]]] _]]]; try discriminate Q. injection Q as -> ->. tauto.
  - assert (UF : ~ (cf_update_index c = true /\ cf_fetch c = true)) by (rewrite <- andb_true_iff; congruence).
    destruct (retried_exact p (su_index_lock s) (su_index s false) KRegistry) as (r & E & A & B); [discriminate|]. rewrite E. cbn [fst].
    rewrite !in_app_iff, in_waiting, (result_iff _ _ _ A B), in_unless. cbn [In].
    destruct x; split; try (intros H; decompose [and or] H; discriminate); try (intros [_ H]; decompose [and] H; subst; tauto); try (intros H; decompose [and or] H; try discriminate; try congruence; tauto).
    intros [[Q K]|[[_ [Q|[]]] _]]; try discriminate Q. injection Q as -> ->. tauto.
Qed.
Lemma with_says p c s t x : In x (fst (start_with p c s t)) <->
  match x with
  | NotLoaded => db_open t = Err
  | LoadedDb n d => is_quiet c = false /\ d = p /\ exists db, db_open t = Ok db /\ n = List.length (db_iter db)
  | _ => (exists db, db_open t = Ok db) /\ says_index p c s x
  end.
Proof.
  unfold start_with. destruct (db_open t) as [db| |] eqn:D.
  - pose proof (index_says p c s x) as IS. destruct (start_index p c s) as [m ix]. cbn [fst] in *. rewrite in_app_iff, in_unless, IS. cbn [In].
    destruct x; (split; [intros [[Q [K|[]]]|H]; try discriminate K; try (split; [eauto|exact H]); try (destruct H as [_ []])|]).
    all: try (intros [_ H]; right; exact H).
    + intros H; discriminate H.
    + injection K as <- <-. eauto.
    + intros (Q & -> & db' & E & ->). injection E as <-. left. auto.
  - cbn [fst In]. destruct x; split; try (intros [H|[]]; discriminate H); try (intros [[db H] _]; discriminate H); try (intros (_ & _ & db & H & _); discriminate H); auto.
  - cbn [fst In]. destruct x; split; try (intros [[db H] _]; discriminate H); try (intros (_ & _ & db & H & _); discriminate H); try discriminate; try (intros []).
Qed.
Theorem C92_what_is_said p c s x : In x (fst (auditor_start p c s)) <-> says p c s x.
Proof.
  unfold auditor_start. fold (db_url c). fold (db_dir p c). destruct (cf_fetch c) eqn:F.
  - destruct (retried_exact (db_dir p c) (su_db_lock s) (su_fetched s) KRepo) as (r & E & A & B); [discriminate|]. rewrite E.
    assert (C : (exists t, r = inl t /\ files c s t) \/ ((exists k, r = inr k) /\ ~ exists t, files c s t)).
    { destruct (obtainable_dec (su_db_lock s)) as [O|O].
      - specialize (A O). destruct (su_fetched s) as [t|] eqn:G; [left; exists t; split; [exact A|left; auto]|].
        right. split; [exact A|]. intros [t [(_ & _ & H)|[H _]]]; congruence.
      - right. split; [exact (B O)|]. intros [t [(_ & H & _)|[H _]]]; [contradiction|congruence]. }
    assert (U : forall t t', files c s t -> files c s t' -> t' = t).
    { intros t t' [(_ & _ & G)|[H _]] [(_ & _ & G')|[H' _]]; congruence. }
    destruct C as [(t & -> & Fi)|[[k ->] N]].
    + pose proof (with_says (db_dir p c) c s t x) as WS. destruct (start_with (db_dir p c) c s t) as [m' o]. cbn [fst] in *.
      assert (R : (exists db, db_open t = Ok db) <-> exists db, database_read c s db).
      { unfold database_read. split; [intros [db H]; eauto|]. intros (db & t' & F' & H). rewrite (U _ _ Fi F') in H. eauto. }
      rewrite !in_app_iff, in_unless, in_waiting, WS. cbn [In]. unfold says_index, says. destruct x; try rewrite R.
      * rewrite F. split; [intros [[Q [K|[]]]|[[K _]|[_ [_ []]]]]; [injection K as <-; auto|discriminate K]|]. intros (_ & Q & ->). left. auto.
      * rewrite F. split.
        -- intros [[_ [K|[]]]|[[K H]|[H (Y & -> & -> & H')]]]; [discriminate K|injection K as -> ->; auto|auto 6].
        -- intros (-> & -> & [[_ H]|(D & Y & H)]); right; [left; auto|right; auto 6].
      * split; [intros [[_ [K|[]]]|[[K _]|[_ [_ []]]]]; discriminate K|]. intros [_ N]. exfalso. apply N. eauto.
      * split; [intros [[_ [K|[]]]|[[K _]|H]]; try discriminate K; eauto|]. intros (t' & F' & H). rewrite (U _ _ Fi F') in H. auto.
      * split; [intros [[_ [K|[]]]|[[K _]|(Q & -> & db & H & ->)]]; try discriminate K|].
        -- split; [exact Q|]. split; [reflexivity|]. exists db. split; [exists t; auto|reflexivity].
        -- intros (Q & -> & db & (t' & F' & H) & ->). rewrite (U _ _ Fi F') in H. right. right. split; [exact Q|]. split; [reflexivity|]. eauto.
      * split; [intros [[_ [K|[]]]|[[K _]|H]]; try discriminate K; tauto|tauto].
      * split; [intros [[_ [K|[]]]|[[K _]|H]]; try discriminate K; tauto|tauto].
      * split; [intros [[_ [K|[]]]|[[K _]|H]]; try discriminate K; tauto|tauto].
    + cbn [fst]. assert (ND : ~ exists db, database_read c s db) by (intros (db & t & Fi & _); apply N; eauto).
      rewrite !in_app_iff, in_unless, in_waiting. cbn [In]. unfold says. destruct x; (split; [intros [[Q [K|[]]]|[[K H]|[K|[]]]]; try discriminate K|]); try tauto.
      * injection K as <-. auto.
      * intros (_ & Q & ->). left. auto.
      * injection K as -> ->. auto.
      * intros (-> & -> & [[_ H]|(D & _)]); [auto|contradiction].
      * intros (t & Fi & _). exfalso. apply N. eauto.
      * intros (_ & _ & db & D & _). exfalso. apply ND. eauto.
  - assert (Fi : forall t, files c s t <-> t = su_opened s).
    { intros t. split; [intros [[H _]|[_ H]]; [congruence|auto]|]. intros ->. right. auto. }
    assert (R : (exists db, db_open (su_opened s) = Ok db) <-> exists db, database_read c s db).
    { unfold database_read. split; [intros [db H]; exists db, (su_opened s); split; [apply Fi; reflexivity|exact H]|].
      intros (db & t' & F' & H). apply Fi in F' as ->. eauto. }
    rewrite (with_says (db_dir p c) c s (su_opened s) x). unfold says_index, says. destruct x; rewrite ?R, ?F; try (split; intros H; decompose [and or] H; try discriminate; try contradiction; tauto).
    + split; [intros H; exists (su_opened s); split; [apply Fi; reflexivity|exact H]|]. intros (t & H & E). apply Fi in H as ->. exact E.
    + split.
      * intros (Q & -> & db & H & ->). split; [exact Q|]. split; [reflexivity|]. exists db. split; [exists (su_opened s); split; [apply Fi; reflexivity|exact H]|reflexivity].
      * intros (Q & -> & db & (t & H & E) & ->). apply Fi in H as ->. eauto 6.
Qed.

(** It waits, and says so, exactly if somebody else has the lock it asks for, whether or not it is told to be quiet; other failures
    are not waited for. *)
Theorem C92_waits p c s : (exists d n, In (WaitingFor d n) (fst (auditor_start p c s))) <->
  (cf_fetch c = true /\ busy (su_db_lock s)) \/ ((exists db, database_read c s db) /\ cf_yanked c = true /\ busy (su_index_lock s)).
Proof.
  split.
  - intros (d & n & H). apply C92_what_is_said in H as (_ & _ & H). exact H.
  - intros H. exists (db_dir p c), 300. apply C92_what_is_said. split; [reflexivity|]. split; [reflexivity|exact H].
Qed.
(** A lock given up within five minutes makes no difference to the audit. *)
Lemma retried_late {A} d k (after : option A) e : k <= 300 -> e <> KLockTimeout ->
  snd (retried d (attempt (HeldFor (Some k)) after e)) = snd (retried d (attempt Free after e)).
Proof.
  intros K E. unfold retried. change (attempt (HeldFor (Some k)) after e 0) with (@inr A _ KLockTimeout). cbn [snd].
  unfold attempt, acquire_lock, wait_lock. change DEFAULT_LOCK_TIMEOUT with 300. cbn [N.eqb try_lock]. apply N.leb_le in K. rewrite K.
  destruct after; [reflexivity|]. destruct e; reflexivity.
Qed.
Theorem C92_late_is_as_good p c d f o x i k j : k <= 300 -> j <= 300 -> x = HeldFor (Some j) \/ x = Free ->
  snd (auditor_start p c (mkSur (HeldFor (Some k)) f o x i)) = snd (auditor_start p c (mkSur Free f o Free i)) /\
  (d = HeldFor (Some k) \/ d = Free -> snd (auditor_start p c (mkSur d f o x i)) = snd (auditor_start p c (mkSur Free f o Free i))).
Proof.
  intros K J X.
  assert (I : forall q y, snd (start_index q c (mkSur y f o x i)) = snd (start_index q c (mkSur Free f o Free i))).
  { intros q y. unfold start_index. cbn [su_index_lock su_index]. destruct (cf_yanked c); [|reflexivity]. destruct (cf_update_index c && cf_fetch c)%bool.
    - assert (E : snd (retried q (attempt x (i true) KRegistry)) = snd (retried q (attempt Free (i true) KRegistry))) by (destruct X as [-> | ->]; [apply retried_late; [exact J|discriminate]|reflexivity]).
      destruct (retried q (attempt x (i true) KRegistry)), (retried q (attempt Free (i true) KRegistry)). cbn [snd] in *. rewrite E. reflexivity.
    - assert (E : snd (retried q (attempt x (i false) KRegistry)) = snd (retried q (attempt Free (i false) KRegistry))) by (destruct X as [-> | ->]; [apply retried_late; [exact J|discriminate]|reflexivity]).
      destruct (retried q (attempt x (i false) KRegistry)), (retried q (attempt Free (i false) KRegistry)). cbn [snd] in *. rewrite E. reflexivity. }
  assert (T : forall q y t, snd (start_with q c (mkSur y f o x i) t) = snd (start_with q c (mkSur Free f o Free i) t)).
  { intros q y t. unfold start_with. destruct (db_open t); try reflexivity. specialize (I q y).
    destruct (start_index q c (mkSur y f o x i)), (start_index q c (mkSur Free f o Free i)). cbn [snd] in *. rewrite I. reflexivity. }
  assert (G : forall y, y = HeldFor (Some k) \/ y = Free -> snd (auditor_start p c (mkSur y f o x i)) = snd (auditor_start p c (mkSur Free f o Free i))).
  { intros y Y. unfold auditor_start. cbn [su_db_lock su_fetched su_opened]. destruct (cf_fetch c); [|apply T]. fold (db_dir p c).
    assert (E : snd (retried (db_dir p c) (attempt y f KRepo)) = snd (retried (db_dir p c) (attempt Free f KRepo))) by (destruct Y as [-> | ->]; [apply retried_late; [exact K|discriminate]|reflexivity]).
    destruct (retried (db_dir p c) (attempt y f KRepo)) as [m1 r1], (retried (db_dir p c) (attempt Free f KRepo)) as [m2 r2]. cbn [snd] in E. subst r2.
    destruct r1 as [t|]; [|reflexivity]. specialize (T (db_dir p c) y t). destruct (start_with (db_dir p c) c (mkSur y f o x i) t), (start_with (db_dir p c) c (mkSur Free f o Free i) t).
    cbn [snd] in *. exact T. }
  split; [apply G; left; reflexivity|]. apply G.
Qed.
(** Neither a busy nor a broken package lock, nor an index that cannot be had, makes an audit fail: it goes on without looking for
    yanked crates. *)
Theorem C92_without_index p c s db : database_read c s db -> exists a, snd (auditor_start p c s) = inl a /\ au_db a = db /\
  (cf_yanked c = true -> ~ obtainable (su_index_lock s) -> au_index a = None).
Proof.
  intros (t & Fi & D).
  assert (T : forall q, exists a, snd (start_with q c s t) = inl a /\ au_db a = db /\ (cf_yanked c = true -> ~ obtainable (su_index_lock s) -> au_index a = None)).
  { intros q. unfold start_with. rewrite D. destruct (start_index q c s) as [m ix] eqn:E. eexists. split; [reflexivity|]. split; [reflexivity|]. cbn [au_index].
    intros Y O. unfold start_index in E. rewrite Y in E. destruct (cf_update_index c && cf_fetch c)%bool.
    - destruct (retried_exact q (su_index_lock s) (su_index s true) KRegistry) as (r & R & _ & B); [discriminate|]. rewrite R in E. destruct (B O) as [k ->]. injection E as _ <-. reflexivity.
    - destruct (retried_exact q (su_index_lock s) (su_index s false) KRegistry) as (r & R & _ & B); [discriminate|]. rewrite R in E. destruct (B O) as [k ->]. injection E as _ <-. reflexivity. }
  unfold auditor_start. fold (db_dir p c). destruct Fi as [(F & O & G)|[F <-]]; rewrite F; [|apply T].
  destruct (retried_exact (db_dir p c) (su_db_lock s) (su_fetched s) KRepo) as (r & E & A & _); [discriminate|]. rewrite E. specialize (A O). rewrite G in A. subst r.
  specialize (T (db_dir p c)). destruct (start_with (db_dir p c) c s t) as [m' o]. exact T.
Qed.
(** The message about cargo's package lock names the directory of the advisory database, whose lock may be free, or not even
    asked for. *)
Definition only_index_busy : surroundings := mkSur Free None (DbModel.mkTree (Some []) None) (HeldFor None) (fun _ => None).
Definition no_fetch : config := mkConfig [] None None None None false false [] FTerminal false false None None true true.
Theorem C92_waiting_message_names_wrong_directory_refuted :
  exists p c s, In (WaitingFor (db_dir p c) 300) (fst (auditor_start p c s)) /\ su_db_lock s = Free /\ cf_fetch c = false.
Proof. exists "/db", no_fetch, only_index_busy. split; [|split; reflexivity]. vm_compute. tauto. Qed.
Print Assumptions C92_same_start. Print Assumptions C92_what_is_said. Print Assumptions C92_late_is_as_good. Print Assumptions C92_without_index.

Example C92_start_example :
  fst (auditor_start "/db" no_fetch only_index_busy) = [LoadedDb 0 "/db"; WaitingFor "/db" 300; IndexNotOpened] /\
  fst (auditor_start "/db" default_config (mkSur (HeldFor (Some 10)) (Some (DbModel.mkTree (Some []) None)) (DbModel.mkTree None None) Free (fun _ => None))) =
    [FetchingDb DEFAULT_URL; WaitingFor "/db" 300; LoadedDb 0 "/db"; UpdatingIndex; IndexNotUpdated] /\
  auditor_start "/db" default_config (mkSur (HeldFor (Some 301)) None (DbModel.mkTree None None) Free (fun _ => None)) =
    ([FetchingDb DEFAULT_URL; WaitingFor "/db" 300; NotFetched], inr (Exit 1)).
Proof. repeat apply conj; vm_compute; reflexivity. Qed.
