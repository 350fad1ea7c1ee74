(** Specification vocabulary for dependency trees. *)
From Coq Require Import List NArith String Bool Arith.
From Verif Require Import Base PkgModel UrlModel LockModel LockSpec TreeModel.
Import ListNotations.

(** Every git source is pinned to a commit, as in any lockfile written by Cargo.  Under this assumption the order
    on sources is a genuine one (see C35 for how it fails otherwise). *)
Definition locked_source (s : option source_id) : Prop :=
  match s with Some s => (exists r, s_kind s = SGit r) -> s_precise s <> None | None => True end.
Definition locked (l : lockfile) : Prop :=
  forall p, In p (lk_packages l) -> locked_source (p_source p) /\ forall d, In d (p_deps p) -> locked_source (d_source d).
(** No package is listed twice. *)
Definition distinct_packages (l : lockfile) : Prop :=
  forall i j p q, nth_error (lk_packages l) i = Some p -> nth_error (lk_packages l) j = Some q ->
    names_package (dep_of_package p) q -> i = j.
(** Package number [i] lists package number [j] as a dependency. *)
Definition lists (l : lockfile) (i j : nat) : Prop :=
  exists p q d, nth_error (lk_packages l) i = Some p /\ nth_error (lk_packages l) j = Some q /\ In d (p_deps p) /\ names_package d q.

(** ** Rendered trees *)
(** A tree in which a package already shown is not expanded again. *)
Inductive rose := Full (n : nat) (kids : list rose) | Again (n : nat).
Definition root_of (t : rose) : nat := match t with Full n _ => n | Again n => n end.
(** Its lines: each with one flag per level, telling whether further siblings follow at that level. *)
Fixpoint lines (levels : list bool) (t : rose) : list line :=
  match t with
  | Again n => [(levels, n)]
  | Full n kids =>
      (levels, n) ::
      (fix go (ks : list rose) : list line :=
         match ks with
         | [] => []
         | k :: r => (lines (levels ++ [match r with [] => false | _ => true end]) k ++ go r)%list
         end) kids
  end.
(** [shown next before t after]: with the packages [before] already expanded, [t] expands exactly those
    packages it meets that were not yet expanded, each with all its neighbours, and leaves [after] expanded. *)
Inductive shown (next : nat -> list nat) : list nat -> rose -> list nat -> Prop :=
| shown_again before n : In n before -> shown next before (Again n) before
| shown_full before n kids after : ~ In n before -> map root_of kids = next n ->
    shown_all next (n :: before) kids after -> shown next before (Full n kids) after
with shown_all (next : nat -> list nat) : list nat -> list rose -> list nat -> Prop :=
| shown_nil before : shown_all next before [] before
| shown_cons before t after ts last : shown next before t after -> shown_all next after ts last ->
    shown_all next before (t :: ts) last.
Inductive reachable (next : nat -> list nat) (n : nat) : nat -> Prop :=
| reach_self : reachable next n n
| reach_step m k : reachable next n m -> In k (next m) -> reachable next n k.
