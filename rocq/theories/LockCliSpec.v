(** Specification vocabulary for the [cargo lock] command. *)
From Coq Require Import List NArith Ascii String Bool.
From Verif Require Import Base SemverModel StrLib VerText PkgModel UrlModel UrlSpec SumModel LockModel LockSpec.
Import ListNotations.
Local Open Scope string_scope.

(** The lockfile with another format number. *)
Definition in_format (v : resolve_version) (l : lockfile) : lockfile :=
  mkLock v (lk_packages l) (lk_root l) (lk_metadata l) (lk_patch l).

(** Not a local path. *)
Definition not_path (s : option source_id) : Prop := match s with Some s => s_kind s <> SPath | None => True end.
(** No package, dependency, replacement or patch comes from a path (Cargo writes no source for those). *)
Definition no_paths (l : lockfile) : Prop :=
  (forall p, In p (lk_packages l) -> not_path (p_source p) /\ (forall d, In d (p_deps p) -> not_path (d_source d)) /\
     match p_replace p with Some d => not_path (d_source d) | None => True end) /\
  (forall d, In d (lk_patch l) -> not_path (d_source d)).
(** Every dependency is, field by field, a listed package. *)
Definition exact_references (l : lockfile) : Prop :=
  forall p d, In p (lk_packages l) -> In d (p_deps p) ->
    exists q, In q (lk_packages l) /\ d_name d = p_name q /\ d_version d = p_version q /\ d_source d = p_source q.
(** No checksum entry of the metadata is filed under a package that has no checksum (old files say ["<none>"] there). *)
Definition no_void_entries (l : lockfile) : Prop :=
  forall p v, In p (lk_packages l) -> p_checksum p = None -> ~ In (checksum_key p, v) (lk_metadata l).

(** A package with its replacement dropped if it has dependencies: the format has no room for both. *)
Definition written_package (p : package) : package :=
  mkPkg (p_name p) (p_version p) (p_source p) (p_checksum p) (p_deps p)
    (match p_deps p with [] => p_replace p | _ => None end).

(** ** Naming packages on the command line *)
(** The text identifies the package: it is its version, or (if it is not a version at all) its checksum or the
    commit of its source. *)
Definition identified (p : package) (x : string) : Prop :=
  x = print_version (p_version p) \/
  ((forall v, parse_version x <> Some v) /\
   ((exists c, p_checksum p = Some c /\ x = checksum_string c) \/ (exists s, p_source p = Some s /\ s_precise s = Some x))).
(** ["name@id"], or a name, or an id. *)
Definition selects (spec : string) (p : package) : Prop :=
  (exists n x, spec = (n ++ String "@" x)%string /\ has_char "@" n = false /\ p_name p = n /\ identified p x) \/
  (has_char "@" spec = false /\ (p_name p = spec \/ identified p spec)).
(** Package number [i] is the first one listed that [spec] selects. *)
Definition first_selected (l : lockfile) (spec : string) (i : nat) : Prop :=
  (exists p, nth_error (lk_packages l) i = Some p /\ selects spec p) /\
  forall j q, j < i -> nth_error (lk_packages l) j = Some q -> ~ selects spec q.
