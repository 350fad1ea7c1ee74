(** Specification vocabulary for the yanked check. *)
From Coq Require Import List NArith Ascii String Bool.
From Verif Require Import Base SemverModel VerText PkgModel IndexModel.
Import ListNotations.
Local Open Scope string_scope.

(** The last entry for [v] in a crate's version list. *)
Definition listed (k : krate) (v : string) (y : bool) : Prop :=
  exists before after, k = (before ++ (v, y) :: after)%list /\ forall y', ~ In (v, y') after.
(** What an index entry says about a version: the flag, or an error if the crate could not be read, is unknown
    or does not list the version. *)
Definition says (e : entry) (v : version) (y : bool) : Prop :=
  exists k, e = Some (Some k) /\ listed k (print_version v) y.
Definition unknown (e : entry) (v : version) : Prop := forall y, ~ says e v y.

(** The index, local or remote, answers every question by [truth]. *)
Definition answers (truth : string -> entry) (ix : index) : Prop :=
  if ix_remote ix then
    forall ns, exists rs, ix_batch ix ns = Some rs /\
      (forall n, In n ns -> In (n, truth n) rs) /\ (forall n e, In (n, e) rs -> In n ns /\ e = truth n)
  else forall n, ix_local ix n = truth n.
(** A batch only returns what was asked. *)
Definition only_requested (ix : index) : Prop :=
  forall ns rs n e, ix_batch ix ns = Some rs -> In (n, e) rs -> In n ns.

(** Caches arising from a sequence of calls on indices satisfying [P]. *)
Inductive history (P : index -> Prop) : cache -> Prop :=
| hist_start : history P []
| hist_call ix c ps : history P c -> P ix -> history P (fst (find_yanked ix c ps)).

Definition same_release (p q : package) : Prop := p_name p = p_name q /\ p_version p = p_version q.
