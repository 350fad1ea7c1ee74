(** Specification of platform globs. *)
From Coq Require Import List Ascii String.
From Verif Require Import Base PlatData.
Import ListNotations.
Local Open Scope string_scope.
Local Infix "++" := String.append (right associativity, at level 60).

Definition ends_in_star (m : string) : Prop := exists x, m = x ++ "*".
Definition starts_with_star (m : string) : Prop := exists x, m = "*" ++ x.

(** A leading star stands for any text before the rest, a trailing star for any text after it; every other
    character (stars in the middle included) stands for itself. *)
Inductive glob : string -> string -> Prop :=
| glob_any t : glob "*" t
| glob_contains m a b : glob ("*" ++ m ++ "*") (a ++ m ++ b)
| glob_suffix m a : m <> "" -> ~ ends_in_star m -> glob ("*" ++ m) (a ++ m)
| glob_prefix m b : m <> "" -> ~ starts_with_star m -> glob (m ++ "*") (m ++ b)
| glob_exact m : ~ starts_with_star m -> ~ ends_in_star m -> glob m m.
