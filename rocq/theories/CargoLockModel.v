(** The locks of an audit and the cargo it runs: /repo/cargo-audit/src/auditor.rs:49-200 (the lock of the database's directory and
    the package lock), rustsec/src/cached_index.rs:89-140, 284-300, commands/audit.rs:286-305, commands/audit/fix.rs:46-137,
    commands/audit/binary_scanning.rs:36-49, lockfile.rs:28-34, as processes. *)
From Coq Require Import List NArith Ascii String Bool Arith.
From Verif Require Import Base AuditModel.
Import ListNotations.
Local Open Scope string_scope.

(** What a process has yet to do, as far as locks and other programs are concerned.  [Choose]: one or the other, depending on what
    is not modelled here. *)
Inductive prog :=
  | Done                                      (* [exit]; the system gives up what it holds *)
  | Choose (a b : prog)
  | Exec (command : list string) (k : prog)   (* [Command::status]: run cargo and wait for it *)
  | Db (k : bool -> prog)                     (* [Repository::fetch], twice if the directory is locked; whether it succeeded *)
  | Pkg (k : bool -> prog)                    (* [CachedIndex::fetch_as] or [open], twice if locked; whether there is an index *)
  | Drop (k : prog).                          (* the auditor goes out of scope, its index and the lock with it *)

(** auditor.rs:49-200: an error obtaining or loading the database ends the process; without an index the audit goes on. *)
Definition auditor (c : config) (k : bool -> prog) : prog :=
  let index := if cf_yanked c then Pkg k else k false in
  if cf_fetch c then Db (fun ok => if ok then Choose Done index else Done) else Choose Done index.
(** lockfile.rs:14-53 with the [exit(2)] of its callers: the commands that generate the lock file. *)
Fixpoint locate (cs : list (list string)) (k : prog) : prog :=
  match cs with [] => k | c :: r => Exec c (Choose Done (locate r k)) end.
(** fix.rs:71-106: the update commands; the process can crash before each. *)
Fixpoint execs (cs : list (list string)) (k : prog) : prog :=
  match cs with [] => k | c :: r => Choose Done (Exec c (execs r k)) end.
(** commands/audit.rs:286-305: the auditor is still there when the process exits. *)
Definition audit_prog (cs : list (list string)) (c : config) : prog := locate cs (auditor c (fun _ => Done)).
(** fix.rs:46-137: the first auditor is a temporary of the statement that uses it (line 52); the second (line 137) is made if this is
    no dry run and every command could be started. *)
Definition fix_prog (cs cmds : list (list string)) (c : config) (dry_run : bool) : prog :=
  locate cs (auditor c (fun _ => Drop (Choose Done (execs cmds (if dry_run then Done else Choose Done (auditor c (fun _ => Done))))))).
(** binary_scanning.rs:36-49. *)
Definition bin_prog (c : config) : prog := auditor c (fun _ => Done).

(** Where a process is.  The package lock is one lock in cargo's home, which an audit (cached_index.rs:284-300: tame-index's
    [exclusive(false)] is an exclusive lock that does not fall back to a shared one) and cargo both take exclusively. *)
Inductive pstate :=
  | Run (p : prog)
  | WaitDb (k : bool -> prog)                 (* the message is printed; waiting for up to five minutes *)
  | Fetching (k : bool -> prog)               (* it has the lock of the directory *)
  | WaitPkg (k : bool -> prog)
  | Started (command : list string) (k : prog) (* cargo runs, without the package lock *)
  | Updating (command : list string) (k : prog) (* cargo runs, with the package lock *)
  | Ended.
(** [s_audit]: the audit that has the package lock; [s_cargo]: the process whose cargo has it; [s_db]: who has the lock of a
    directory. *)
Record shared := mkShared { s_audit : option nat; s_cargo : option nat; s_db : string -> option nat; s_proc : nat -> pstate }.
Definition set_proc (i : nat) (x : pstate) (f : nat -> pstate) : nat -> pstate := fun j => if Nat.eqb j i then x else f j.
Definition set_db (l : string) (x : option nat) (f : string -> option nat) : string -> option nat := fun m => if String.eqb m l then x else f m.
Definition release (i : nat) (o : option nat) : option nat :=
  match o with Some j => if Nat.eqb j i then None else Some j | None => None end.
Definition release_db (i : nat) (f : string -> option nat) : string -> option nat := fun l => release i (f l).

Section Steps.
  (** The lock of each process's database directory. *)
  Context (dir : nat -> string).
  (** What a step is: [Ahead], a step the process takes by itself; [Kill], it is killed; [GiveUp], it has waited five minutes. *)
  Inductive how := Ahead | Kill | GiveUp.
  (** A step of process [i].  A process that is killed takes the cargo it runs with it (they are in one process group). *)
  Inductive step (i : nat) : how -> shared -> shared -> Prop :=
  | s_end h o d f : f i = Run Done -> step i Ahead (mkShared h o d f) (mkShared (release i h) o d (set_proc i Ended f))
  | s_left a b h o d f : f i = Run (Choose a b) -> step i Ahead (mkShared h o d f) (mkShared h o d (set_proc i (Run a) f))
  | s_right a b h o d f : f i = Run (Choose a b) -> step i Ahead (mkShared h o d f) (mkShared h o d (set_proc i (Run b) f))
  | s_drop k h o d f : f i = Run (Drop k) -> step i Ahead (mkShared h o d f) (mkShared (release i h) o d (set_proc i (Run k) f))
  (* lockfile.rs:30-33, fix.rs:92-96: cargo cannot be started, or it is *)
  | s_not_started c k h o d f : f i = Run (Exec c k) -> step i Ahead (mkShared h o d f) (mkShared h o d (set_proc i (Run k) f))
  | s_start c k h o d f : f i = Run (Exec c k) -> step i Ahead (mkShared h o d f) (mkShared h o d (set_proc i (Started c k) f))
  (* cargo waits for the package lock for as long as it takes *)
  | s_cargo_takes c k d f : f i = Started c k -> step i Ahead (mkShared None None d f) (mkShared None (Some i) d (set_proc i (Updating c k) f))
  | s_cargo_ends c k h o d f : f i = Updating c k -> step i Ahead (mkShared h o d f) (mkShared h None d (set_proc i (Run k) f))
  (* auditor.rs:68-102 *)
  | s_db_refused k h o d f : f i = Run (Db k) -> step i Ahead (mkShared h o d f) (mkShared h o d (set_proc i (Run (k false)) f))
  | s_db_busy k h o d f j : f i = Run (Db k) -> d (dir i) = Some j -> step i Ahead (mkShared h o d f) (mkShared h o d (set_proc i (WaitDb k) f))
  | s_db_takes k h o d f : f i = Run (Db k) \/ f i = WaitDb k -> d (dir i) = None ->
      step i Ahead (mkShared h o d f) (mkShared h o (set_db (dir i) (Some i) d) (set_proc i (Fetching k) f))
  | s_db_timeout k h o d f j : f i = WaitDb k -> d (dir i) = Some j -> step i GiveUp (mkShared h o d f) (mkShared h o d (set_proc i (Run (k false)) f))
  | s_db_done k ok h o d f : f i = Fetching k -> step i Ahead (mkShared h o d f) (mkShared h o (set_db (dir i) None d) (set_proc i (Run (k ok)) f))
  (* auditor.rs:122-187: no index, busy, taken, given up *)
  | s_no_index k h o d f : f i = Run (Pkg k) -> step i Ahead (mkShared h o d f) (mkShared h o d (set_proc i (Run (k false)) f))
  | s_pkg_busy k h o j d f : f i = Run (Pkg k) -> h = Some j \/ o = Some j -> step i Ahead (mkShared h o d f) (mkShared h o d (set_proc i (WaitPkg k) f))
  | s_pkg_takes k d f : f i = Run (Pkg k) \/ f i = WaitPkg k ->
      step i Ahead (mkShared None None d f) (mkShared (Some i) None d (set_proc i (Run (k true)) f))
  | s_pkg_no_client k d f : f i = WaitPkg k -> step i Ahead (mkShared None None d f) (mkShared None None d (set_proc i (Run (k false)) f))
  | s_pkg_timeout k h o j d f : f i = WaitPkg k -> h = Some j \/ o = Some j -> step i GiveUp (mkShared h o d f) (mkShared h o d (set_proc i (Run (k false)) f))
  | s_kill h o d f : f i <> Ended -> step i Kill (mkShared h o d f) (mkShared (release i h) (release i o) (release_db i d) (set_proc i Ended f)).

  (** What each process is: one of the three commands.  [None]: no process. *)
  Inductive job := JAudit (generate : list (list string)) (c : config) | JFix (generate update : list (list string)) (c : config) (dry_run : bool) | JBin (c : config).
  Definition prog_of (j : job) : prog :=
    match j with JAudit g c => audit_prog g c | JFix g u c n => fix_prog g u c n | JBin c => bin_prog c end.
  (** The system with nothing taken, each process about to run a program. *)
  Definition start (progs : nat -> option prog) : shared :=
    mkShared None None (fun _ => None) (fun i => match progs i with Some p => Run p | None => Ended end).
  (** The states that can be reached, with the processes that stepped, the last first. *)
  Inductive reach (progs : nat -> option prog) : list nat -> shared -> Prop :=
  | r_start : reach progs [] (start progs)
  | r_step t i w s s' : reach progs t s -> step i w s s' -> reach progs (i :: t) s'.
  Definition programs (jobs : nat -> option job) (i : nat) : option prog := option_map prog_of (jobs i).
End Steps.
