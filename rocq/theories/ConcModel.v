(** Several audits at the same time: the lock of /repo/rustsec/src/repository/git/repository.rs:100-118, the waiting of
    /repo/cargo-audit/src/auditor.rs:70-110 and the loading of the database (auditor.rs:96-114) as steps of processes that share a
    disk. *)
From Coq Require Import List NArith ZArith Ascii String Bool Arith.
From Verif Require Import Base StrLib IdModel DbModel MtimeModel AuditModel FetchModel.
Import ListNotations.
Local Open Scope string_scope.

(** repository.rs:104-111: [path.with_extension(".lock")] (the names [.] and [..] are left out). *)
Fixpoint drop_slashes (s : string) : string := match s with String "/" r => drop_slashes r | _ => s end.
Definition file_stem (name : string) : string :=
  match split_once "." (srev name) with
  | Some (_, rest) => if String.eqb rest "" then name else srev rest
  | None => name
  end.
Definition lock_path (path : string) : string :=
  let back := drop_slashes (srev path) in
  match split_once "/" back with
  | Some (name, dir) => (srev dir ++ "/" ++ file_stem (srev name) ++ "..lock")%string
  | None => (file_stem (srev back) ++ "..lock")%string
  end.
(** repository.rs:80-92, before the lock is asked for; 93-98 are in EmptyDirModel. *)
Definition may_fetch (url path : string) : bool := (starts_with "https://" url && has_parent path)%bool.

(** What a process fetches: [cargo audit] with a URL, a path and whether it wants a fresh database. *)
Record job := mkJob { j_url : string; j_path : string; j_fresh : bool }.
(** Where a process is.  [Fetching]: it has the lock of its path, has yet to write these to the directory [q] and will then
    return this result. *)
Inductive pstate :=
  | Starting
  | Waiting
  | Fetching (q : string) (todo : list place) (r : fetched)
  | Ready (q : string)
  | Loading (q : string) (todo : list gpath) (got : work)
  | Loaded (got : work)
  | Stopped (r : fetched)
  | Killed.
(** The disk, who has which lock, and the processes. *)
Record shared := mkShared { s_disk : disk; s_lock : string -> option nat; s_proc : nat -> pstate }.
Definition set_proc (i : nat) (x : pstate) (f : nat -> pstate) : nat -> pstate := fun j => if Nat.eqb j i then x else f j.
Definition set_lock (l : string) (x : option nat) (f : string -> option nat) : string -> option nat := fun m => if String.eqb m l then x else f m.
(** The operating system releases the locks of a process that ends. *)
Definition unlock_all (i : nat) (f : string -> option nat) : string -> option nat :=
  fun l => match f l with Some j => if Nat.eqb j i then None else Some j | None => None end.

Section Steps.
  Context (above : string -> option string) (jobs : nat -> job).
  (** The directory a fetch works on (136-152). *)
  Definition target (url path : string) (d : disk) : string := match opened above url path d with Some q => q | None => path end.
  Definition lock_of (i : nat) : string := lock_path (j_path (jobs i)).
  (** The commit a server has for a URL. *)
  Definition offered (server : string -> option gcommit) (url : string) : list gcommit := match server url with Some c => [c] | None => [] end.

  (** A step of some process; the list holds what its server has to offer, if it asks one.  A write is one file at a time; a fetch
      sees the disk as it is when it gets the lock (the directory is changed only under that lock); the paths are listed at one
      moment and the files read one by one. *)
  Inductive step : list gcommit -> shared -> shared -> Prop :=
  | st_refused i d l f : f i = Starting -> may_fetch (j_url (jobs i)) (j_path (jobs i)) = false ->
      step [] (mkShared d l f) (mkShared d l (set_proc i (Stopped Failed) f))
  (* repository.rs:113-117 with no time to wait; auditor.rs:79-89: the message, then a second try *)
  | st_busy i j d l f : f i = Starting -> may_fetch (j_url (jobs i)) (j_path (jobs i)) = true -> l (lock_of i) = Some j ->
      step [] (mkShared d l f) (mkShared d l (set_proc i Waiting f))
  | st_timeout i j d l f : f i = Waiting -> l (lock_of i) = Some j ->
      step [] (mkShared d l f) (mkShared d l (set_proc i (Stopped Locked) f))
  | st_acquire i server now states r d l f : f i = Starting \/ f i = Waiting -> may_fetch (j_url (jobs i)) (j_path (jobs i)) = true -> l (lock_of i) = None ->
      fetch server above now (j_url (jobs i)) (j_path (jobs i)) (j_fresh (jobs i)) true d = (states, r) ->
      step (offered server (j_url (jobs i))) (mkShared d l f)
        (mkShared d (set_lock (lock_of i) (Some i) l)
           (set_proc i (Fetching (target (j_url (jobs i)) (j_path (jobs i)) d) (map (fun x => x (target (j_url (jobs i)) (j_path (jobs i)) d)) states) r) f))
  | st_write i q x todo r d l f : f i = Fetching q (x :: todo) r ->
      step [] (mkShared d l f) (mkShared (put d q x) l (set_proc i (Fetching q todo r) f))
  | st_release i q r d l f : f i = Fetching q [] r ->
      step [] (mkShared d l f) (mkShared d (set_lock (lock_of i) None l) (set_proc i (match r with Fetched q' => Ready q' | _ => Stopped r end) f))
  | st_list i q d l f : f i = Ready q -> step [] (mkShared d l f) (mkShared d l (set_proc i (Loading q (map fst (work_at d q)) []) f))
  | st_read i q p todo got t d l f : f i = Loading q (p :: todo) got -> content p (work_at d q) = Some t ->
      step [] (mkShared d l f) (mkShared d l (set_proc i (Loading q todo (got ++ [(p, t)])%list) f))
  | st_vanished i q p todo got d l f : f i = Loading q (p :: todo) got -> content p (work_at d q) = None ->
      step [] (mkShared d l f) (mkShared d l (set_proc i (Stopped Failed) f))
  | st_loaded i q got d l f : f i = Loading q [] got -> step [] (mkShared d l f) (mkShared d l (set_proc i (Loaded got) f))
  | st_kill i d l f : step [] (mkShared d l f) (mkShared d (unlock_all i l) (set_proc i Killed f)).
  (** The states reached from a disk when all processes start, with everything that has been offered. *)
  Inductive reach (d0 : disk) : list gcommit -> shared -> Prop :=
  | reach_start : reach d0 [] (mkShared d0 (fun _ => None) (fun _ => Starting))
  | reach_step served new s s' : reach d0 served s -> step new s s' -> reach d0 (new ++ served)%list s'.
End Steps.
