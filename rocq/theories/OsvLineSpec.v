(** Specification for C09/C06: the line of versions as the range checker sees it.  Between a version and
    the next one there is a place just above it, and there is a place below every version.  Independent of
    the model: only requirements, their interval reading and semver precedence ([OsvSpec]) are used. *)
From Coq Require Import List NArith String.
From Verif Require Import Base SemverModel OsvSpec.
Import ListNotations.

Inductive place := Bottom | At (v : version) | Above (v : version).
Definition place_wf (x : place) : Prop :=
  match x with Bottom => True | At v | Above v => version_wf v = true end.

(** The places a comparator takes in. *)
Definition comparator_covers (c : comparator) (x : place) : Prop :=
  match x with
  | At v => comparator_denotes c v
  | Bottom => c_op c = OpLess \/ c_op c = OpLessEq
  | Above v =>
      match c_op c with
      | OpGreater | OpGreaterEq => prec_le (written c) v
      | OpLess | OpLessEq => prec_lt v (written c)
      | OpExact => False
      | OpCaret => prec_le (written c) v /\ caret_compatible c v
      | OpTilde => prec_le (written c) v /\ tilde_compatible c v
      | OpWildcard => False
      end
  end.
Definition req_covers (r : version_req) (x : place) : Prop := forall c, In c r -> comparator_covers c x.
Definition share_a_place (r1 r2 : version_req) : Prop :=
  exists x, place_wf x /\ req_covers r1 x /\ req_covers r2 x.

(** Two different positions of a list. *)
Definition two_of {A} (l : list A) (a b : A) : Prop := exists l1 l2 l3, l = (l1 ++ a :: l2 ++ b :: l3)%list.

(** Requirements whose ranges begin at [v], respectively just above it. *)
Definition begins_at (r : version_req) (v : version) : Prop :=
  exists c, In c r /\ prec_eq (written c) v /\
    (c_op c = OpExact \/ c_op c = OpGreaterEq \/ c_op c = OpCaret \/ c_op c = OpTilde).
Definition begins_above (r : version_req) (v : version) : Prop :=
  exists c, In c r /\ prec_eq (written c) v /\ c_op c = OpGreater.
