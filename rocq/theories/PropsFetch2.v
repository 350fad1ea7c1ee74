(** C80 (continued): what is loaded from the fetched directory, and what the audit makes of it. *)
From Coq Require Import List NArith ZArith Ascii String Bool Arith Lia.
From Verif Require Import Base StrLib IdModel PkgModel DbModel DbSpec LockModel MtimeModel AuditModel AuditSpec FetchModel FetchSpec IdSpec PropsDb PropsAudit PropsFetch.
Import ListNotations.
Local Open Scope string_scope.

Section Load.
  Context (parse : string -> outcome advisory).
  Lemma in_under p w s : In s (under p w) <-> s <> [] /\ In (p ++ s)%list (map fst w).
  Proof.
    unfold under. rewrite in_flat_map. split.
    - intros ([q c] & Hin & H). cbn [fst] in H. destruct (is_prefix p q) eqn:E; [|destruct H]. apply is_prefix_iff in E as (r & ->).
      rewrite skipn_app, skipn_all, Nat.sub_diag in H. cbn [skipn app] in H. destruct r as [|x r]; [destruct H|]. destruct H as [<-|[]].
      split; [discriminate|]. apply in_map_iff. exists ((p ++ x :: r)%list, c). auto.
    - intros [Hs H]. apply in_map_iff in H as ([q c] & E & H). cbn in E. exists (q, c). split; [exact H|]. cbn [fst].
      rewrite (proj2 (is_prefix_iff p q)) by (exists s; auto). rewrite E, skipn_app, skipn_all, Nat.sub_diag. cbn [skipn app].
      destruct s; [contradiction|now left].
  Qed.
  Lemma in_names p w n : In n (names_under p w) <-> exists r, In (p ++ n :: r)%list (map fst w).
  Proof.
    unfold names_under, dedup_names. rewrite nodup_In, in_flat_map. split.
    - intros (s & H & K). apply in_under in H as [_ H]. destruct s as [|x s]; [destruct K|]. destruct K as [->|[]]. eauto.
    - intros (r & H). exists (n :: r). split; [apply in_under; split; [discriminate|exact H]|now left].
  Qed.
  Definition coll_name (s : string) : Prop := s = "crates" \/ s = "rust".
  (** The working tree holds exactly the files of [T]. *)
  Definition exactly (w T : work) : Prop := forall p t, content p w = Some t <-> In (p, t) T.
  Lemma tree_file_work w T p : exactly w T -> good_tree T -> forall a, f_parsed (pl_file p) = Ok a ->
    (tree_file (fs_of_work parse w) p <->
     coll_name (pl_coll p) /\ ~ has_prefix "." (f_name (pl_file p)) /\
     exists text, In ([pl_coll p; pl_dir p; f_name (pl_file p)], text) T /\ parse text = f_parsed (pl_file p)).
  Proof.
    intros Ex [Gn Gc] a Pa. destruct p as [coll dir [name o]]. cbn [pl_coll pl_dir pl_file f_name f_parsed] in *. unfold tree_file. cbn [pl_coll pl_dir pl_file f_name].
    assert (Paths : forall q, In q (map fst w) -> In q (map fst T)).
    { intros q H. destruct (content q w) as [t|] eqn:E; [|apply content_none in E; contradiction]. apply Ex in E. apply in_map_iff. exists (q, t). auto. }
    split.
    - intros (es & e & fs & Hc & He & Hn & Hf & Hin & Hd).
      assert (Hc' : coll_name coll /\ dir_of parse w coll = Some es) by (destruct Hc as [[-> H]|[-> H]]; split; cbn in H |- *; unfold coll_name; auto).
      destruct Hc' as [C D]. split; [exact C|]. split; [exact Hd|]. unfold dir_of in D.
      assert (D' : es = map (dir_entry parse [coll] w) (names_under [coll] w)) by (destruct (names_under [coll] w); [discriminate|now injection D as <-]).
      rewrite D' in He. apply in_map_iff in He as (n & <- & _). cbn [dir_entry e_name] in Hn. subst n. cbn [dir_entry e_files app] in Hf.
      destruct (content [coll; dir] w) eqn:K; [discriminate|]. injection Hf as <-. apply in_map_iff in Hin as (m & Hm & _).
      unfold dir_file in Hm. cbn [app] in Hm. injection Hm as -> Ho. destruct (content [coll; dir; name] w) as [text|] eqn:T1; [|rewrite Pa in Ho; discriminate].
      exists text. split; [now apply Ex|exact Ho].
    - intros (C & Hd & text & Hin & Hp).
      assert (K : content [coll; dir; name] w = Some text) by now apply Ex.
      assert (Pin : In [coll; dir; name] (map fst w)).
      { apply content_in in K. apply in_map_iff. eexists (_, _). split; [|exact K]. reflexivity. }
      assert (K2 : content [coll; dir] w = None).
      { destruct (content [coll; dir] w) as [t|] eqn:E; [|reflexivity]. apply Ex in E. 
        assert (X : [coll; dir] = [coll; dir; name]); [|discriminate].
        apply Gc; [apply in_map_iff; eexists (_, _); split; [|exact E]; reflexivity|apply Paths; exact Pin|]. exists [name]. reflexivity. }
      exists (map (dir_entry parse [coll] w) (names_under [coll] w)), (dir_entry parse [coll] w dir), (map (dir_file parse [coll; dir] w) (names_under [coll; dir] w)).
      assert (N1 : In dir (names_under [coll] w)) by (apply in_names; exists [name]; exact Pin).
      split; [|split; [apply in_map; exact N1|]].
      + assert (dir_of parse w coll = Some (map (dir_entry parse [coll] w) (names_under [coll] w))).
        { unfold dir_of. destruct (names_under [coll] w); [destruct N1|reflexivity]. }
        destruct C as [->| ->]; [left|right]; (split; [reflexivity|]); exact H.
      + split; [reflexivity|]. split; [cbn [dir_entry e_files app]; now rewrite K2|]. split; [|exact Hd].
        apply in_map_iff. exists name. split; [|apply in_names; exists []; exact Pin].
        unfold dir_file. cbn [app]. rewrite K, Hp. reflexivity.
  Qed.
  Lemma loaded w T db i a : exactly w T -> good_tree T -> db_open (fs_of_work parse w) = Ok db ->
    (db_get db i = Some a <->
     exists coll dir name text,
       In ([coll; dir; name], text) T /\ ~ has_prefix "." name /\
       file_gives (mkPlaced coll dir (mkFile name (parse text))) a /\ a_id a = i /\ id_string i <> "RUSTSEC-0000-0000").
  Proof.
    intros Ex G H. rewrite (C17_get_by_id _ _ i a H). split.
    - intros ([coll dir [name o]] & Tf & Fg & R). assert (F' := Fg). destruct F' as (raw & c & stem & Pr & _ & _ & _ & _ & Cn & _).
      apply (tree_file_work w T (mkPlaced coll dir (mkFile name o)) Ex G raw Pr) in Tf as (_ & Hd & text & Hin & Hp). cbn [pl_coll pl_dir pl_file f_name f_parsed] in *.
      exists coll, dir, name, text. rewrite Hp. auto.
    - intros (coll & dir & name & text & Hin & Hd & Fg & R). exists (mkPlaced coll dir (mkFile name (parse text))). split; [|auto].
      assert (F' := Fg). destruct F' as (raw & c & stem & Pr & _ & _ & _ & _ & Cn & _). cbn [pl_file f_parsed pl_coll] in *.
      apply (tree_file_work w T (mkPlaced coll dir (mkFile name (parse text))) Ex G raw Pr). cbn [pl_coll pl_dir pl_file f_name f_parsed]. split; [|eauto].
      unfold coll_name. rewrite Cn. destruct c; cbn; auto.
  Qed.
End Load.

(** The advisories loaded after a first fetch are those in the tree of the commit the URL serves: each file two directories deep
    in "crates" or "rust", not hidden, that is well named and placed, and nothing else. *)
Theorem C80_advisories_of_first_fetch : forall parse server above now url path ef free d q c db i a,
  d path = Nothing -> snd (fetch server above now url path ef free d) = Fetched q ->
  server url = Some c -> good_tree (gc_tree c) ->
  db_open (fs_of_work parse (work_at (fetch_end server above now url path ef free d) q)) = Ok db ->
  (db_get db i = Some a <->
   exists coll dir name text,
     In ([coll; dir; name], text) (gc_tree c) /\ ~ has_prefix "." name /\
     file_gives (mkPlaced coll dir (mkFile name (parse text))) a /\ a_id a = i /\ id_string i <> "RUSTSEC-0000-0000").
Proof.
  intros parse server above now url path ef free d q c db i a D F S G H.
  destruct (C80_first_fetch _ _ _ _ _ _ _ _ _ D F) as (c' & w & -> & S' & E & X). rewrite S in S'. injection S' as <-.
  unfold work_at in H. rewrite E in H. cbn [k_work] in H. apply (loaded parse w); auto. exact (X G).
Qed.
Print Assumptions C80_advisories_of_first_fetch.

(** ** The audit *)
Lemma no_lock_when_free server above now url path ef d : snd (fetch server above now url path ef true d) <> Locked.
Proof.
  destruct (fetch_cases server above now url path ef true d) as [[_ _]|(q & u & c & w & pre & A & S & Sv & L & Lo & E & _)].
  - unfold fetch. destruct (starts_with "https://" url); cbn [negb]; [|discriminate]. destruct (has_parent path); cbn [negb]; [|discriminate].
    assert (Fin : forall q dd, snd (finish now ef q dd) <> Locked).
    { intros q dd. unfold finish. destruct (dd q); try discriminate. destruct (from_repo_head r); try discriminate. cbn [snd]. destruct (ef && _); discriminate. }
    assert (Tf : forall q pre, snd (then_finish now ef q d pre) <> Locked).
    { intros q pre. unfold then_finish. specialize (Fin q (last pre d)). destruct (finish now ef q (last pre d)). exact Fin. }
    destruct (opened above url path d) as [q|].
    + destruct (d q); try discriminate. destruct (k_origin r); try discriminate. destruct (server s); try discriminate. apply Tf.
    + destruct (d path); try discriminate. destruct (server url); try discriminate. apply Tf.
  - rewrite E. cbn [snd]. rewrite L, finish_done. destruct (from_repo_head _); try discriminate. cbn [snd]. destruct (ef && _); discriminate.
Qed.
Definition url_of (c : config) : string := match cf_db_url c with Some u => u | None => "https://github.com/RustSec/advisory-db.git" end.
Definition path_of (default_path : string) (c : config) : string := match cf_db_path c with Some p => p | None => default_path end.
Lemma obtain_fetch server above now default_path free later c d : cf_fetch c = true -> free = true \/ later = true ->
  obtain server above now default_path free later c d = fetch server above now (url_of c) (path_of default_path c) (negb (cf_stale c)) true d.
Proof.
  intros H F. unfold obtain, DEFAULT_URL. rewrite H. fold (url_of c). fold (path_of default_path c).
  destruct free.
  - pose proof (no_lock_when_free server above now (url_of c) (path_of default_path c) (negb (cf_stale c)) d) as N.
    destruct (fetch server above now (url_of c) (path_of default_path c) (negb (cf_stale c)) true d) as [s []]; cbn [snd] in N; try reflexivity. destruct (N eq_refl).
  - destruct F as [F| ->]; [discriminate|].
    unfold fetch. destruct (starts_with "https://" (url_of c)); cbn [negb]; [|reflexivity].
    destruct (has_parent (path_of default_path c)); cbn [negb]; [|reflexivity].
    cbn [last]. match goal with |- (let (s', r) := ?x in _) = _ => destruct x; reflexivity end.
Qed.

(** A database whose last commit is ninety days old or older stops the audit with status 1 unless staleness is allowed, however
    the lock was obtained; if it is allowed, or the commit is younger, the audit goes on with the fetched advisories. *)
Theorem C80_stale_database : forall checks c w server above now parse default_path free later d q r h,
  wd_located w = true -> (forall c', wd_checkout w c' = obtained server above now parse default_path free later d c') ->
  cf_fetch c = true -> free = true \/ later = true ->
  let run ef := fetch server above now (url_of c) (path_of default_path c) ef true d in
  let d' := fetch_end server above now (url_of c) (path_of default_path c) false true d in
  snd (run false) = Fetched q -> d' q = Repo r -> k_head r = Some h ->
  (cf_stale c = false -> ~ younger now h -> run_audit checks c w = ([], Exit 1)) /\
  (cf_stale c = true \/ younger now h -> wd_checkout w c = Some (fs_of_work parse (k_work r))).
Proof.
  intros checks c w server above now parse default_path free later d q r h Hl Hw Hf Hfr run d' Hrun Hr Hh.
  destruct (C80_fresh_exactly server above now (url_of c) (path_of default_path c) true d q) as [S1 S2].
  assert (Ob : obtained server above now parse default_path free later d c =
    match run (negb (cf_stale c)) with (s, Fetched q) => Some (fs_of_work parse (work_at (last s d) q)) | _ => None end).
  { unfold obtained. rewrite (obtain_fetch _ _ _ _ _ _ _ _ Hf Hfr). reflexivity. }
  split.
  - intros St Y. unfold run_audit. rewrite Hl. cbn [negb]. unfold auditor_new. rewrite Hw, Ob, St. cbn [negb].
    unfold run in *. destruct (fetch server above now (url_of c) (path_of default_path c) true true d) as [s res] eqn:E. cbn [snd] in S2.
    destruct res as [q'| | |]; try reflexivity.
    elim Y. destruct (fetched_inv server above now (url_of c) (path_of default_path c) true true d q') as (u & c0 & w0 & _ & _ & _ & R0 & Yg & En); [now rewrite E|].
    assert (q' = q).
    { destruct (C80_fresh_exactly server above now (url_of c) (path_of default_path c) true d q') as [_ [S3 _]].
      rewrite E in S3. destruct (S3 eq_refl) as [S4 _]. rewrite Hrun in S4. now injection S4. }
    subst q'. assert (X : d' q = Repo (mkClone (Some u) (Some c0) (checked_out w0 (gc_tree c0)))).
    { unfold d', fetch_end. rewrite <- S1. specialize (En q). unfold fetch_end in En. rewrite E in En. rewrite En. apply put_same. }
    rewrite Hr in X. injection X as ->. cbn in Hh. injection Hh as <-. now apply Yg.
  - intros Y. rewrite Hw, Ob.
    assert (Hs : run (negb (cf_stale c)) = (fst (run false), Fetched q)).
    { destruct (cf_stale c) eqn:St; cbn [negb].
      - destruct (run false); cbn in *; now subst.
      - destruct Y as [Y|Y]; [discriminate|]. unfold run in *. destruct (fetch server above now (url_of c) (path_of default_path c) true true d) as [s res] eqn:E.
        cbn [fst snd] in *. rewrite S1. f_equal. apply S2. split; [exact Hrun|]. exists r, h. auto. }
    rewrite Hs. f_equal. f_equal. unfold work_at. unfold d', fetch_end in Hr. unfold run. now rewrite Hr.
Qed.
Print Assumptions C80_stale_database.

(** ** Examples *)
Definition ex_url : string := "https://github.com/RustSec/advisory-db.git".
Definition ex_parse (t : string) : outcome advisory := if String.eqb t "1" then Ok adv1 else if String.eqb t "2" then Ok adv2 else Err.
Definition file1 : gpath * string := (["crates"; "base"; "RUSTSEC-2020-0001.md"], "1").
Definition file2 : gpath * string := (["crates"; "base"; "RUSTSEC-2021-0007.md"], "2").
Definition commit1 : gcommit := mkGC "c1" (mkTime 1700000000 0) "Add advisories" [file1; file2].
Definition commit2 : gcommit := mkGC "c2" (mkTime 1700100000 3600) "Remove an advisory that was a mistake" [file2].
Definition ex_now : Z := (1700200000 * 1000000000)%Z.
Definition serves (c : gcommit) (u : string) : option gcommit := if String.eqb u ex_url then Some c else None.
Definition none_above (p : string) : option string := None.
Definition empty_disk : disk := fun _ => Nothing.
Definition ex_path : string := "/home/user/.cargo/advisory-db".
Definition ex_first : disk := fetch_end (serves commit1) none_above ex_now ex_url ex_path true true empty_disk.
Lemma two_good : good_tree [file1; file2].
Proof.
  split; [repeat constructor; cbn; intuition discriminate|].
  intros a b Ha Hb (r & E). cbn in Ha, Hb. destruct Ha as [<-|[<-|[]]], Hb as [<-|[<-|[]]]; try reflexivity; discriminate.
Qed.
Example C80_nonvacuous :
  snd (fetch (serves commit1) none_above ex_now ex_url ex_path true true empty_disk) = Fetched ex_path /\
  good_tree (gc_tree commit1) /\ readable commit1 /\ younger ex_now commit1 /\ has_prefix "https://" ex_url /\
  runs none_above ex_url ex_path [commit1] ex_first /\ ex_first ex_path <> Repo (mkClone None None []) /\
  (exists db, db_open (fs_of_work ex_parse (work_at ex_first ex_path)) = Ok db /\ db_get db (a_id adv1) = Some (crates adv1)) /\
  (* a clock ninety days later, to the nanosecond *)
  (let late := ((1700000000 + 90 * 86400) * 1000000000)%Z in
   snd (fetch (serves commit1) none_above (late - 1) ex_url ex_path true true empty_disk) = Fetched ex_path /\
   snd (fetch (serves commit1) none_above late ex_url ex_path true true empty_disk) = Failed) /\
  snd (fetch (serves commit1) none_above ex_now "http://github.com/RustSec/advisory-db.git" ex_path true true empty_disk) = Failed.
Proof.
  split; [vm_compute; reflexivity|]. split; [exact two_good|]. split; [|split; [|split; [|split; [|split; [|split; [|split]]]]]].
  - split; [split; vm_compute; discriminate|]. split; [split; vm_compute; discriminate|discriminate].
  - vm_compute. reflexivity.
  - eexists. reflexivity.
  - apply (run_step none_above ex_url ex_path [] empty_disk (serves commit1) ex_now true true); [now apply run_start|].
    right. unfold ex_first, fetch_end.
    assert (L : forall (l : list disk) x, l <> [] -> In (last l x) l).
    { induction l as [|a l IH]; intros x H; [contradiction|]. rewrite last_cons. destruct l; [now left|]. right. apply IH. discriminate. }
    apply L. intros K. apply (f_equal (@List.length disk)) in K. vm_compute in K. discriminate.
  - vm_compute. discriminate.
  - eexists. split; [vm_compute; reflexivity|]. vm_compute. reflexivity.
  - split; vm_compute; reflexivity.
  - vm_compute. reflexivity.
Qed.

(** ** What does not hold *)
(** "The audit uses the advisories of the fetched commit": a file removed upstream stays in an existing clone and is still
    loaded.  The same server, configuration and lockfile give status 0 on a machine without a clone and status 1 on one that has
    fetched before. *)
Definition ignoring2 : config :=
  mkConfig [a_id adv2] None None (Some ex_path) None true false [] FJson false true None None false true.
Definition world_on (d : disk) : world :=
  mkWorld true (obtained (serves commit2) none_above ex_now ex_parse ex_path true true d) (Ok ex_lock) (fun _ => None).
Theorem C80_removed_upstream_refuted :
  content (fst file1) (gc_tree commit2) = None /\
  snd (fetch (serves commit2) none_above ex_now ex_url ex_path true true ex_first) = Fetched ex_path /\
  content (fst file1) (work_at (fetch_end (serves commit2) none_above ex_now ex_url ex_path true true ex_first) ex_path) = Some "1" /\
  snd (run_audit false ignoring2 (world_on empty_disk)) = Exit 0 /\
  snd (run_audit false ignoring2 (world_on ex_first)) = Exit 1.
Proof. repeat split; vm_compute; reflexivity. Qed.
Print Assumptions C80_removed_upstream_refuted.

(** "The advisories come from the URL asked for": a clone of another URL at the path is updated from its own origin. *)
Theorem C80_url_is_used_refuted : exists server d c other,
  server ex_url = Some c /\ other <> ex_url /\
  snd (fetch server none_above ex_now ex_url ex_path true true d) = Fetched ex_path /\
  exists r c', fetch_end server none_above ex_now ex_url ex_path true true d ex_path = Repo r /\
    k_head r = Some c' /\ c' <> c /\ server other = Some c'.
Proof.
  exists (fun u => if String.eqb u ex_url then Some commit1 else Some commit2),
         (put empty_disk ex_path (Repo (mkClone (Some "https://example.com/fork.git") (Some commit2) []))), commit1, "https://example.com/fork.git".
  split; [reflexivity|]. split; [discriminate|]. split; [vm_compute; reflexivity|].
  eexists _, commit2. split; [vm_compute; reflexivity|]. split; [reflexivity|]. split; [discriminate|reflexivity].
Qed.
Print Assumptions C80_url_is_used_refuted.

(** "A fetch that was interrupted can be repeated": after an interruption between the creation of the repository and the
    configuration of its remote, no fetch ever succeeds and nothing changes. *)
Theorem C80_interrupted_clone_refuted : exists d,
  fetch_crash (serves commit1) none_above ex_now ex_url ex_path true true empty_disk d /\
  forall server above now ef free, fst (fetch server above now ex_url ex_path ef free d) = [] /\
    (snd (fetch server above now ex_url ex_path ef free d) = Failed \/ snd (fetch server above now ex_url ex_path ef free d) = Locked).
Proof.
  exists (put empty_disk ex_path (Repo (mkClone None None []))). split.
  - right. unfold fetch. cbn -[put then_finish clone_states empty_disk]. unfold then_finish. destruct (finish _ _ _ _) as [aft res]. now left.
  - intros server above now ef free. assert (O := opened_at above ex_url ex_path (put empty_disk ex_path (Repo (mkClone None None []))) _ (put_same _ _ _)).
    unfold fetch. change (starts_with "https://" ex_url) with true. change (has_parent ex_path) with true. cbn [negb].
    destruct free; cbn [negb]; [|auto]. rewrite O, put_same. auto.
Qed.
Print Assumptions C80_interrupted_clone_refuted.

(** "A stale database is reported unless the user allows it": not without fetching, where nothing is checked. *)
Theorem C80_stale_without_fetch_refuted : forall server above now parse default_path free later d c,
  cf_fetch c = false ->
  obtained server above now parse default_path free later d c = Some (fs_of_work parse (work_at d (path_of default_path c))).
Proof. intros. unfold obtained, obtain. rewrite H. reflexivity. Qed.
Print Assumptions C80_stale_without_fetch_refuted.

(** "A fetch ends with a result": a commit dated after the year 9999 makes it panic, after the clone has been made. *)
Theorem C80_far_future_commit_refuted : exists c,
  snd (fetch (serves c) none_above ex_now ex_url ex_path true true empty_disk) = Crashed /\
  exists r, fetch_end (serves c) none_above ex_now ex_url ex_path true true empty_disk ex_path = Repo r /\ k_head r = Some c.
Proof.
  exists (mkGC "c" (mkTime 253402300800 0) "In the year 10000" [file1]). split; [vm_compute; reflexivity|]. eexists. split; vm_compute; reflexivity.
Qed.
Print Assumptions C80_far_future_commit_refuted.
