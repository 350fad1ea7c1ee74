(** Property C92, continued: schedules that happen, and what does not hold. *)
From Coq Require Import List NArith ZArith Ascii String Bool Arith Lia.
From Verif Require Import Base StrLib IdModel DbModel MtimeModel AuditModel FetchModel FetchSpec ConcModel PropsFetch PropsFetch2 PropsConc PropsConc2.
Import ListNotations.
Local Open Scope string_scope.

(** ** Schedules, to run examples *)
Inductive move := Try (i : nat) | Get (i : nat) (server : string -> option gcommit) (now : Z) | Write (i : nat) | Release (i : nat) | Look (i : nat) | Load (i : nat) | Done (i : nat) | Kill (i : nat).
Section Moves.
  Context (above : string -> option string) (jobs : nat -> job).
  Definition do_move (m : move) (s : shared) : option (list gcommit * shared) :=
    let (d, l, f) := s in
    match m with
    | Try i => match f i, may_fetch (j_url (jobs i)) (j_path (jobs i)), l (lock_of jobs i) with
               | Starting, false, _ => Some ([], mkShared d l (set_proc i (Stopped Failed) f))
               | Starting, true, Some _ => Some ([], mkShared d l (set_proc i Waiting f))
               | Waiting, _, Some _ => Some ([], mkShared d l (set_proc i (Stopped Locked) f))
               | _, _, _ => None
               end
    | Get i server now =>
        match f i, may_fetch (j_url (jobs i)) (j_path (jobs i)), l (lock_of jobs i) with
        | Starting, true, None | Waiting, true, None =>
            let q := target above (j_url (jobs i)) (j_path (jobs i)) d in
            let fr := fetch server above now (j_url (jobs i)) (j_path (jobs i)) (j_fresh (jobs i)) true d in
            Some (offered server (j_url (jobs i)), mkShared d (set_lock (lock_of jobs i) (Some i) l) (set_proc i (Fetching q (map (fun x => x q) (fst fr)) (snd fr)) f))
        | _, _, _ => None
        end
    | Write i => match f i with Fetching q (x :: todo) r => Some ([], mkShared (put d q x) l (set_proc i (Fetching q todo r) f)) | _ => None end
    | Release i => match f i with
                   | Fetching q [] r => Some ([], mkShared d (set_lock (lock_of jobs i) None l) (set_proc i (match r with Fetched q' => Ready q' | _ => Stopped r end) f))
                   | _ => None
                   end
    | Look i => match f i with Ready q => Some ([], mkShared d l (set_proc i (Loading q (map fst (work_at d q)) []) f)) | _ => None end
    | Load i => match f i with
                | Loading q (p :: todo) got => match content p (work_at d q) with
                                               | Some t => Some ([], mkShared d l (set_proc i (Loading q todo (got ++ [(p, t)])%list) f))
                                               | None => Some ([], mkShared d l (set_proc i (Stopped Failed) f))
                                               end
                | _ => None
                end
    | Done i => match f i with Loading q [] got => Some ([], mkShared d l (set_proc i (Loaded got) f)) | _ => None end
    | Kill i => Some ([], mkShared d (unlock_all i l) (set_proc i Killed f))
    end.
  Fixpoint run_moves (ms : list move) (served : list gcommit) (s : shared) : option (list gcommit * shared) :=
    match ms with
    | [] => Some (served, s)
    | m :: r => match do_move m s with Some (new, s') => run_moves r (new ++ served)%list s' | None => None end
    end.
  Lemma do_move_steps m s new s' : do_move m s = Some (new, s') -> step above jobs new s s'.
  Proof.
    destruct s as [d l f]. destruct m as [i|i server now|i|i|i|i|i|i]; cbn [do_move].
    - destruct (f i) eqn:F; try discriminate.
      + destruct (may_fetch _ _) eqn:M; [|intros [= <- <-]; apply st_refused; assumption].
        destruct (l (lock_of jobs i)) as [j|] eqn:L; [|discriminate]. intros [= <- <-]. eapply st_busy; eassumption.
      + destruct (may_fetch (j_url (jobs i)) (j_path (jobs i))); (destruct (l (lock_of jobs i)) as [j|] eqn:L; [|discriminate]; intros [= <- <-]; eapply st_timeout; eassumption).
    - intros H. assert (G : (f i = Starting \/ f i = Waiting) /\ may_fetch (j_url (jobs i)) (j_path (jobs i)) = true /\ l (lock_of jobs i) = None).
      { destruct (f i); try discriminate; destruct (may_fetch _ _); try discriminate; destruct (l (lock_of jobs i)); try discriminate; auto. }
      destruct G as (G1 & G2 & G3). rewrite G2, G3 in H.
      assert (H' : Some (offered server (j_url (jobs i)), mkShared d (set_lock (lock_of jobs i) (Some i) l)
         (set_proc i (Fetching (target above (j_url (jobs i)) (j_path (jobs i)) d)
           (map (fun x => x (target above (j_url (jobs i)) (j_path (jobs i)) d)) (fst (fetch server above now (j_url (jobs i)) (j_path (jobs i)) (j_fresh (jobs i)) true d)))
           (snd (fetch server above now (j_url (jobs i)) (j_path (jobs i)) (j_fresh (jobs i)) true d))) f)) = Some (new, s')) by (destruct G1 as [E|E]; rewrite E in H; exact H).
      injection H' as <- <-. apply (st_acquire above jobs i server now); try assumption. apply surjective_pairing.
    - destruct (f i) as [| |q [|x todo] r|q|q todo got|got|r|] eqn:F; try discriminate. intros [= <- <-]. eapply st_write; eassumption.
    - destruct (f i) as [| |q [|x todo] r|q|q todo got|got|r|] eqn:F; try discriminate. intros [= <- <-]. eapply st_release; eassumption.
    - destruct (f i) as [| |q todo r|q|q todo got|got|r|] eqn:F; try discriminate. intros [= <- <-]. eapply st_list; eassumption.
    - destruct (f i) as [| |q todo r|q|q [|p todo] got|got|r|] eqn:F; try discriminate. destruct (content p (work_at d q)) eqn:C; intros [= <- <-]; [eapply st_read|eapply st_vanished]; eassumption.
    - destruct (f i) as [| |q todo r|q|q [|p todo] got|got|r|] eqn:F; try discriminate. intros [= <- <-]. eapply st_loaded; eassumption.
    - intros [= <- <-]. apply st_kill.
  Qed.
  Lemma run_moves_reach d0 ms served s served' s' : reach above jobs d0 served s -> run_moves ms served s = Some (served', s') -> reach above jobs d0 served' s'.
  Proof.
    revert served s. induction ms as [|m ms IH]; intros served s R H; cbn [run_moves] in H; [injection H as <- <-; exact R|].
    destruct (do_move m s) as [[new s1]|] eqn:E; [|discriminate]. eapply IH; [|exact H]. eapply reach_step; [exact R|]. apply do_move_steps in E. exact E.
  Qed.
  Definition from_start (ms : list move) (d0 : disk) : option (list gcommit * shared) := run_moves ms [] (mkShared d0 (fun _ => None) (fun _ => Starting)).
  Lemma from_start_reach ms d0 served s : from_start ms d0 = Some (served, s) -> reach above jobs d0 served s.
  Proof. apply run_moves_reach. apply reach_start. Qed.
End Moves.

(** ** Lock files *)
Example lock_paths :
  lock_path "/home/user/.cargo/advisory-db" = "/home/user/.cargo/advisory-db..lock" /\
  lock_path "/home/user/.cargo/advisory-db/" = "/home/user/.cargo/advisory-db..lock" /\
  lock_path "advisory-db" = "advisory-db..lock" /\ lock_path "/tmp/.db" = "/tmp/.db..lock" /\
  (* two directories with one lock *)
  lock_path "/tmp/db.one" = "/tmp/db..lock" /\ lock_path "/tmp/db.two" = "/tmp/db..lock".
Proof. repeat split; vm_compute; reflexivity. Qed.

(** ** A schedule in which everything happens: 0 is killed after it has written one of the two files, 1 has waited for it, 2 gives up
    while 1 has the lock, 1 loads the database while 3 rewrites it, 4 has no URL with https. *)
Definition ex_job : job := mkJob ex_url ex_path true.
Definition ex_jobs (i : nat) : job := match i with 4 => mkJob "git://example.com/db" ex_path true | _ => ex_job end.
Definition steps_of (m : nat -> move) (i n : nat) : list move := repeat (m i) n.
Definition first_moves : list move :=
  [Get 0 (serves commit1) ex_now; Try 1] ++ steps_of Write 0 4 ++ [Kill 0; Try 4].
Definition second_moves : list move :=
  [Get 1 (serves commit1) ex_now; Try 2; Try 2] ++ steps_of Write 1 3.
Definition third_moves : list move :=
  [Release 1; Look 1; Get 3 (serves commit1) (ex_now + 5); Load 1; Write 3; Write 3; Load 1; Write 3; Done 1; Release 3; Look 3; Load 3; Load 3; Done 3].
Definition state_after (ms : list move) : shared := match from_start none_above ex_jobs ms empty_disk with Some (_, s) => s | None => mkShared empty_disk (fun _ => None) (fun _ => Starting) end.
Definition served_after (ms : list move) : list gcommit := match from_start none_above ex_jobs ms empty_disk with Some (l, _) => l | None => [] end.
Definition is_some {A} (x : option A) : bool := match x with Some _ => true | None => false end.
Lemma after_reach ms : is_some (from_start none_above ex_jobs ms empty_disk) = true -> reach none_above ex_jobs empty_disk (served_after ms) (state_after ms).
Proof. unfold served_after, state_after. destruct (from_start _ _ ms _) as [[l s]|] eqn:E; [|discriminate]. intros _. exact (from_start_reach _ _ _ _ _ _ E). Qed.

Example C92_nonvacuous :
  (* after the kill: the clone has one file, nobody has the lock, 1 waits, 4 has failed *)
  (let s := state_after first_moves in
   reach none_above ex_jobs empty_disk (served_after first_moves) s /\ s_disk s ex_path = Repo (mkClone (Some ex_url) (Some commit1) [file1]) /\
   s_lock s (lock_path ex_path) = None /\ s_proc s 0 = Killed /\ s_proc s 1 = Waiting /\ s_proc s 4 = Stopped Failed) /\
  (* 1 is about to release the lock, 2 has given up *)
  (let s := state_after (first_moves ++ second_moves) in
   reach none_above ex_jobs empty_disk (served_after (first_moves ++ second_moves)) s /\ s_proc s 1 = Fetching ex_path [] (Fetched ex_path) /\
   s_lock s (lock_path ex_path) = Some 1 /\ s_proc s 2 = Stopped Locked /\ s_proc s 3 = Starting) /\
  (* 1 and 3 have loaded both files *)
  (let ms := (first_moves ++ second_moves ++ third_moves)%list in let s := state_after ms in
   reach none_above ex_jobs empty_disk (served_after ms) s /\ served_after ms = [commit1; commit1; commit1] /\
   good_tree (gc_tree commit1) /\
   (exists got, s_proc s 1 = Loaded got /\ List.length got = 2) /\ (exists got, s_proc s 3 = Loaded got /\ List.length got = 2)).
Proof.
  cbv zeta. split; [|split].
  - split; [apply after_reach; vm_compute; reflexivity|]. repeat split; vm_compute; reflexivity.
  - split; [apply after_reach; vm_compute; reflexivity|]. repeat split; vm_compute; reflexivity.
  - split; [apply after_reach; vm_compute; reflexivity|]. split; [vm_compute; reflexivity|]. split; [exact two_good|].
    split; eexists; (split; [vm_compute; reflexivity|reflexivity]).
Qed.

(** ** What does not hold *)
(** "Every audit uses the database of one commit": the files are read after the lock has been given up.  0 has fetched the first
    commit and has read one of its files when 1 fetches the second, in which both advisories are different. *)
Definition file1b : gpath * string := (["crates"; "base"; "RUSTSEC-2020-0001.md"], "3").
Definition file2b : gpath * string := (["crates"; "base"; "RUSTSEC-2021-0007.md"], "4").
Definition commit3 : gcommit := mkGC "c3" (mkTime 1700100000 0) "Change both advisories" [file1b; file2b].
Definition two_jobs (i : nat) : job := ex_job.
Definition mixing : list move :=
  [Get 0 (serves commit1) ex_now] ++ steps_of Write 0 7 ++ [Release 0; Look 0; Load 0] ++
  [Get 1 (serves commit3) ex_now] ++ steps_of Write 1 3 ++ [Release 1; Load 0; Done 0].
Definition the_state (jobs : nat -> job) (above : string -> option string) (ms : list move) (d0 : disk) : shared :=
  match from_start above jobs ms d0 with Some (_, s) => s | None => mkShared d0 (fun _ => None) (fun _ => Starting) end.
Lemma the_state_reach jobs above ms d0 served : option_map fst (from_start above jobs ms d0) = Some served -> reach above jobs d0 served (the_state jobs above ms d0).
Proof.
  unfold the_state. destruct (from_start _ _ ms _) as [[l s]|] eqn:E; [|discriminate]. intros H. injection H as <-. exact (from_start_reach _ _ _ _ _ _ E).
Qed.
Theorem C92_mixed_database_refuted : exists s got a b,
  reach none_above two_jobs empty_disk [commit3; commit1] s /\ s_proc s 0 = Loaded got /\
  In (a, "2") got /\ In (b, "3") got /\
  good_tree (gc_tree commit1) /\ good_tree (gc_tree commit3) /\
  (forall t, In (a, t) (gc_tree commit3) -> t <> "2") /\ (forall t, In (b, t) (gc_tree commit1) -> t <> "3").
Proof.
  exists (the_state two_jobs none_above mixing empty_disk), [file2; file1b], (fst file2), (fst file1).
  split; [apply the_state_reach; vm_compute; reflexivity|]. split; [vm_compute; reflexivity|].
  split; [left; reflexivity|]. split; [right; left; reflexivity|]. split; [exact two_good|].
  split; [split; [repeat constructor; cbn; intuition discriminate|]|].
  - intros p q Ha Hb (r & E). cbn in Ha, Hb. destruct Ha as [<-|[<-|[]]], Hb as [<-|[<-|[]]]; try reflexivity; discriminate.
  - split; (intros t [E|[E|[]]]; [injection E as X; try discriminate|injection E as X; try discriminate]; subst t; discriminate).
Qed.
Print Assumptions C92_mixed_database_refuted.

(** "Every audit sees a database that is complete": a file can vanish between listing and reading. *)
Definition commit4 : gcommit := mkGC "c4" (mkTime 1700100000 0) "Split an advisory" [(["crates"; "base"; "RUSTSEC-2020-0001.md"; "part"], "1"); file2].
Definition vanishing : list move :=
  [Get 0 (serves commit1) ex_now] ++ steps_of Write 0 7 ++ [Release 0; Look 0; Load 0] ++ [Get 1 (serves commit4) ex_now] ++ steps_of Write 1 2 ++ [Load 0].
Theorem C92_vanished_file_refuted : exists s, reach none_above two_jobs empty_disk [commit4; commit1] s /\ s_proc s 0 = Stopped Failed /\
  good_tree (gc_tree commit1) /\ good_tree (gc_tree commit4).
Proof.
  exists (the_state two_jobs none_above vanishing empty_disk). split; [apply the_state_reach; vm_compute; reflexivity|]. split; [vm_compute; reflexivity|]. split; [exact two_good|].
  split; [repeat constructor; cbn; intuition discriminate|].
  intros p q Ha Hb (r & E). cbn in Ha, Hb. destruct Ha as [<-|[<-|[]]], Hb as [<-|[<-|[]]]; try reflexivity; discriminate.
Qed.
Print Assumptions C92_vanished_file_refuted.

(** "At most one process changes a clone at a time": two paths below one repository have different locks. *)
Definition inside (p : string) : option string := if String.eqb p "/db/a" then Some "/db" else if String.eqb p "/db/b" then Some "/db" else None.
Definition inner_jobs (i : nat) : job := mkJob ex_url (match i with O => "/db/a" | S _ => "/db/b" end) true.
Definition nested_disk : disk :=
  put (put (put empty_disk "/db" (Repo (mkClone (Some ex_url) (Some commit1) [(["a"; "x"], "1"); (["b"; "y"], "1")]))) "/db/a" (Files [(["x"], "1")])) "/db/b" (Files [(["y"], "1")]).
Definition both : list move := [Get 0 (serves commit1) ex_now; Get 1 (serves commit1) ex_now; Write 0; Write 1].
Theorem C92_paths_in_one_clone_refuted : exists s todo r todo' r' x y,
  reach inside inner_jobs nested_disk [commit1; commit1] s /\
  s_proc s 0 = Fetching "/db" (x :: todo) r /\ s_proc s 1 = Fetching "/db" (y :: todo') r'.
Proof.
  exists (the_state inner_jobs inside both nested_disk). do 6 eexists.
  split; [apply the_state_reach; vm_compute; reflexivity|]. split; vm_compute; reflexivity.
Qed.
Print Assumptions C92_paths_in_one_clone_refuted.
