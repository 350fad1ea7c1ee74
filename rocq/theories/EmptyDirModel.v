(** What a fetch does to an empty directory before it asks for the lock: /repo/rustsec/src/repository/git/repository.rs:93-98, left out
    of ConcModel, with the lock (100-118), and the clone (154-180) as far as the directory is concerned.  Several processes with
    one path, one step per system call.  Simplified: no process is killed; each has the time to wait for the lock; opening an
    existing repository succeeds; the files of a clone are one step; a clone whose directory has gone fails. *)
From Coq Require Import List NArith Ascii String Bool Arith.
From Verif Require Import Base.
Import ListNotations.

(** The directory of the database. *)
Inductive dir := Absent | EmptyDir | Filled.
(** Where a process is: it has yet to look (96 [is_dir]); it has seen a directory (96 [read_dir]); it has seen an empty one (97
    [remove_dir]); it has yet to get the lock (112-118); it has the lock (136-155); it has made the directory of its clone; it has
    its repository; it has failed. *)
Inductive look := Begins | SawDir | SawEmpty | Wants | Has | Cloning | Done | Fails.
Record first := mkFirst { f_dir : dir; f_lock : option nat; f_at : nat -> look }.
Definition move (i : nat) (x : look) (f : nat -> look) : nat -> look := fun j => if Nat.eqb j i then x else f j.

Inductive fstep (n : nat) : first -> first -> Prop :=
(* 96: [path.is_dir()] *)
| fs_no_dir i l f : i < n -> f i = Begins -> fstep n (mkFirst Absent l f) (mkFirst Absent l (move i Wants f))
| fs_dir i d l f : i < n -> f i = Begins -> d <> Absent -> fstep n (mkFirst d l f) (mkFirst d l (move i SawDir f))
(* 96: [fs::read_dir(&path)?.next().is_none()] *)
| fs_read_gone i l f : i < n -> f i = SawDir -> fstep n (mkFirst Absent l f) (mkFirst Absent l (move i Fails f))
| fs_read_empty i l f : i < n -> f i = SawDir -> fstep n (mkFirst EmptyDir l f) (mkFirst EmptyDir l (move i SawEmpty f))
| fs_read_files i l f : i < n -> f i = SawDir -> fstep n (mkFirst Filled l f) (mkFirst Filled l (move i Wants f))
(* 97: [fs::remove_dir(&path)?] *)
| fs_remove i l f : i < n -> f i = SawEmpty -> fstep n (mkFirst EmptyDir l f) (mkFirst Absent l (move i Wants f))
| fs_remove_fails i d l f : i < n -> f i = SawEmpty -> d <> EmptyDir -> fstep n (mkFirst d l f) (mkFirst d l (move i Fails f))
(* 112-118 *)
| fs_lock i d f : i < n -> f i = Wants -> fstep n (mkFirst d None f) (mkFirst d (Some i) (move i Has f))
(* 136-152: opened; the lock is given up at the end *)
| fs_open i l f : i < n -> f i = Has -> fstep n (mkFirst Filled l f) (mkFirst Filled None (move i Done f))
(* 154-180: cloned *)
| fs_make i d l f : i < n -> f i = Has -> d <> Filled -> fstep n (mkFirst d l f) (mkFirst EmptyDir l (move i Cloning f))
| fs_fill i l f : i < n -> f i = Cloning -> fstep n (mkFirst EmptyDir l f) (mkFirst Filled None (move i Done f))
| fs_clone_fails i l f : i < n -> f i = Cloning -> fstep n (mkFirst Absent l f) (mkFirst Absent None (move i Fails f)).

(** What [n] processes can reach from a directory. *)
Inductive freach (n : nat) (d0 : dir) : first -> Prop :=
| fr_start : freach n d0 (mkFirst d0 None (fun _ => Begins))
| fr_step s s' : freach n d0 s -> fstep n s s' -> freach n d0 s'.
