(** Specification vocabulary for lockfiles. *)
From Coq Require Import List NArith Ascii String Bool.
From Verif Require Import Base SemverModel StrLib VerText PkgModel UrlModel UrlSpec SumModel LockModel.
Import ListNotations.
Local Open Scope string_scope.
Local Open Scope N_scope.

(** What a lockfile can say about where a package comes from: nothing for a path, else the source. *)
Definition stored_source (s : option source_id) : option source_id :=
  match s with
  | None => None
  | Some s => match s_kind s with SPath => None | _ => Some (reread s) end
  end.
Definition stored_dep (d : dependency) : dependency := mkDep (d_name d) (d_version d) (stored_source (d_source d)).
Definition same_source (a b : option source_id) : Prop :=
  match a, b with
  | None, None => True
  | Some x, Some y => source_eqb x y = true
  | _, _ => False
  end.
(** A dependency names a package: same name, same version, equal source. *)
Definition names_package (d : dependency) (p : package) : Prop :=
  d_name d = p_name p /\ d_version d = p_version p /\ same_source (d_source d) (p_source p).

(** A source that format [v] can carry. *)
Definition visible_ref (s : source_id) : Prop :=
  match s_kind s with
  | SGit (GBranch r) | SGit (GTag r) | SGit (GRev r) => str_forall visible r = true
  | _ => True
  end.
Definition unescaped_ok (s : source_id) : Prop := plain_ref s /\ visible_ref s.
Definition source_ok (norm : string -> option string) (v : resolve_version) (s : option source_id) : Prop :=
  match s with
  | None => True
  | Some s => writable norm s /\ (v <> V4 -> unescaped_ok s)
  end.
Definition name_ok (n : string) : Prop := n <> "" /\ str_forall visible n = true.
Definition dep_ok norm v (d : dependency) : Prop :=
  name_ok (d_name d) /\ version_wf (d_version d) = true /\ source_ok norm v (d_source d).
Definition package_ok norm v (p : package) : Prop :=
  name_ok (p_name p) /\ version_wf (p_version p) = true /\ source_ok norm v (p_source p) /\
  match p_checksum p with Some c => is_digest c | None => True end /\
  Forall (dep_ok norm v) (p_deps p) /\ match p_replace p with Some d => dep_ok norm v d | None => True end.

(** [[metadata]] is a map: keys strictly increasing. *)
Fixpoint sorted_keys (m : list (string * string)) : Prop :=
  match m with
  | [] => True
  | (k, _) :: r => Forall (fun kv => str_cmp k (fst kv) = Lt) r /\ sorted_keys r
  end.

(** The checksum entry [k] of the metadata is about the package [p]. *)
Definition entry_about norm (k : string) (p : package) : Prop :=
  exists d, checksum_dependency norm k = Ok d /\ d_name d = p_name p /\ d_version d = p_version p.
Definition reads_as (v : string) (c : option (list N)) : Prop :=
  match c with Some c => checksum_from_str v = Ok c | None => forall c', checksum_from_str v <> Ok c' end.

(** Consistent lockfiles.
    - every package, dependency, patch is writable;
    - every dependency names a listed package;
    - a package without a stored source is the only one of its name and version;
    - in format 1, where checksums are filed under name and version: packages of the same name and version
      have the same checksum, checksum entries already in the metadata agree with the packages (or are
      replaced), and there is at least one checksum;
    - in format 2, the checksum entries in the metadata are those of listed packages. *)
Record consistent (norm : string -> option string) (l : lockfile) : Prop := {
  co_packages : Forall (package_ok norm (lk_version l)) (lk_packages l);
  co_patch : Forall (dep_ok norm V1) (lk_patch l);
  co_deps : forall p d, In p (lk_packages l) -> In d (p_deps p) -> exists q, In q (lk_packages l) /\ names_package d q;
  co_unique : forall i j p q, nth_error (lk_packages l) i = Some p -> nth_error (lk_packages l) j = Some q ->
    p_name p = p_name q -> p_version p = p_version q -> stored_source (p_source p) = None -> i = j;
  co_sorted : sorted_keys (lk_metadata l);
  co_v1 : lk_version l = V1 ->
    (exists p, In p (lk_packages l) /\ p_checksum p <> None) /\
    (forall p q, In p (lk_packages l) -> In q (lk_packages l) -> p_name p = p_name q -> p_version p = p_version q ->
       p_checksum p = p_checksum q) /\
    (forall k v p, In (k, v) (lk_metadata l) -> In p (lk_packages l) -> entry_about norm k p ->
       reads_as v (p_checksum p) \/ (p_checksum p <> None /\ k = checksum_key p));
  co_v2 : lk_version l = V2 ->
    forall k v, In (k, v) (lk_metadata l) -> is_checksum_key k = true -> exists p, In p (lk_packages l) /\ k = checksum_key p }.

(** What survives of a package. *)
Definition same_dep (d d' : dependency) : Prop :=
  d_name d' = d_name d /\ d_version d' = d_version d /\ same_source (stored_source (d_source d)) (d_source d').
Definition same_package (p p' : package) : Prop :=
  p_name p' = p_name p /\ p_version p' = p_version p /\ p_source p' = stored_source (p_source p) /\
  p_checksum p' = p_checksum p /\ Forall2 same_dep (p_deps p) (p_deps p') /\
  p_replace p' = match p_deps p with [] => option_map stored_dep (p_replace p) | _ => None end.
