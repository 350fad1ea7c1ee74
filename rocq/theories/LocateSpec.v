(** What "which lock file is audited" means (C96), without the program. *)
From Coq Require Import List NArith ZArith Ascii String Bool.
From Verif Require Import Base StrLib LockModel FetchHeadSpec LocateModel.
Import ListNotations.
Local Open Scope string_scope.
Local Infix "++" := String.append (right associativity, at level 60).

(** A path is "-" if it is written "-", perhaps followed by "/" and "/." (they are the same path to the standard library). *)
Inductive dash_path : string -> Prop :=
| dash_itself : dash_path "-"
| dash_slash p : dash_path p -> dash_path (p ++ "/")
| dash_dot p : dash_path p -> dash_path (p ++ "/.").
(** The bytes a lock file path stands for. *)
Definition contents (m : machine) (p : string) (s : string) : Prop :=
  (dash_path p -> mc_stdin m = Some s) /\ (~ dash_path p -> mc_file m p = Some s).
(** A lock file there. *)
Definition lock_file_at (parse : string -> outcome lockfile) (m : machine) (p : string) (l : lockfile) : Prop :=
  exists s, contents m p s /\ is_text s /\ parse s = Ok l.
(** A lock file is to be generated: none was named, there is none, and there is a manifest. *)
Definition to_generate (file : option string) (m : machine) : Prop :=
  file = None /\ mc_exists m "Cargo.lock" = false /\ mc_exists m "Cargo.toml" = true.
(** The directory a file is in, given its canonical path. *)
Definition in_directory (q d : string) : Prop :=
  exists d' n, q = d' ++ "/" ++ n /\ n <> "" /\ has_char "/" n = false /\ d = (if String.eqb d' "" then "/" else d').
(** A file that can be read has a canonical path, which is in a directory. *)
Definition coherent (m : machine) : Prop :=
  forall p s, mc_file m p = Some s -> exists q d, mc_canonical m p = Some q /\ in_directory q d.
