(** The documented grammar of version requirements (property C91). *)
From Coq Require Import List NArith Ascii String Bool.
From Verif Require Import Base SemverModel StrLib.
Import ListNotations.
Local Open Scope string_scope.
Local Infix "++" := String.append (right associativity, at level 60).

Definition spaces (s : string) : Prop := exists n, s = String.concat "" (repeat " " n).
Definition wild (s : string) : Prop := In s ["*"; "x"; "X"].
(** A decimal number without leading zeros that fits 64 bits. *)
Definition number (n : N) (s : string) : Prop := s = print_dec n /\ (n <= u64_max)%N.
(** Identifiers separated by periods. *)
Definition dotted_list (ok : string -> bool) (l : list string) (s : string) : Prop :=
  l <> [] /\ (forall x, In x l -> ok x = true) /\ s = join_on "." l.
(** An optional part after a mark. *)
Inductive optional_list (mark : string) (ok : string -> bool) : list string -> string -> Prop :=
  | list_absent : optional_list mark ok [] ""
  | list_given l s : dotted_list ok l s -> optional_list mark ok l (mark ++ s).

(** A version of which the end may be left open; [true] if it ends in a wildcard. *)
Inductive open_version : string -> N -> option N -> option N -> list string -> bool -> Prop :=
  | open_major n a : number n a -> open_version a n None None [] false
  | open_star n a w : number n a -> wild w -> open_version (a ++ "." ++ w) n None None [] true
  | open_stars n a w w' : number n a -> wild w -> wild w' -> open_version (a ++ "." ++ w ++ "." ++ w') n None None [] true
  | open_minor n m a b : number n a -> number m b -> open_version (a ++ "." ++ b) n (Some m) None [] false
  | open_minor_star n m a b w : number n a -> number m b -> wild w -> open_version (a ++ "." ++ b ++ "." ++ w) n (Some m) None [] true
  | full n m p l bl a b c t u : number n a -> number m b -> number p c ->
      optional_list "-" ident_wf l t -> optional_list "+" build_ident_wf bl u ->
      open_version (a ++ "." ++ b ++ "." ++ c ++ t ++ u) n (Some m) (Some p) l false.

Definition operators : list (string * op) :=
  [("=", OpExact); (">", OpGreater); (">=", OpGreaterEq); ("<", OpLess); ("<=", OpLessEq); ("~", OpTilde); ("^", OpCaret)].
Inductive comparator_text : string -> comparator -> Prop :=
  | with_operator sign o blanks s n m p l w : In (sign, o) operators -> spaces blanks -> open_version s n m p l w ->
      comparator_text (sign ++ blanks ++ s) (mkComparator o n m p l)
  | without_operator s n m p l : open_version s n m p l false -> comparator_text s (mkComparator OpCaret n m p l)
  | with_wildcard s n m p l : open_version s n m p l true -> comparator_text s (mkComparator OpWildcard n m p l).
Inductive comparators_text : string -> list comparator -> Prop :=
  | last_comparator s c b : comparator_text s c -> spaces b -> comparators_text (s ++ b) [c]
  | more_comparators s c b b' t l : comparator_text s c -> spaces b -> spaces b' -> comparators_text t l ->
      comparators_text (s ++ b ++ "," ++ b' ++ t) (c :: l).
Inductive requirement_text : string -> version_req -> Prop :=
  | any_version b w b' : spaces b -> wild w -> spaces b' -> requirement_text (b ++ w ++ b') []
  | these_versions b s l : spaces b -> comparators_text s l -> (List.length l <= 32)%nat -> requirement_text (b ++ s) l.

(** What the parser can produce. *)
Definition readable_comparator (c : comparator) : Prop :=
  comparator_wf c = true /\ (c_op c = OpWildcard -> c_patch c = None).
Definition readable (r : version_req) : Prop := (List.length r <= 32)%nat /\ forall c, In c r -> readable_comparator c.
