(** What CVSS vectors are, as published by FIRST: the metrics of each version
    with their values, and what it means for a text to denote a vector.
    Nothing here refers to the parsers. *)
From Coq Require Import List NArith Ascii String Bool.
Import ListNotations.
Local Open Scope string_scope.
Local Infix "++" := String.append (right associativity, at level 60).

Definition metrics := list (string * list string).

(** CVSS v3.1 specification, table 15. *)
Definition metrics_v3 : metrics :=
  [("AV", ["N"; "A"; "L"; "P"]); ("AC", ["L"; "H"]); ("PR", ["N"; "L"; "H"]); ("UI", ["N"; "R"]);
   ("S", ["U"; "C"]); ("C", ["H"; "L"; "N"]); ("I", ["H"; "L"; "N"]); ("A", ["H"; "L"; "N"])].
Definition required_v3 : list string := ["AV"; "AC"; "PR"; "UI"; "S"; "C"; "I"; "A"].

(** CVSS v2 guide, table 13. *)
Definition metrics_v2 : metrics :=
  [("AV", ["L"; "A"; "N"]); ("AC", ["H"; "M"; "L"]); ("Au", ["M"; "S"; "N"]);
   ("C", ["N"; "P"; "C"]); ("I", ["N"; "P"; "C"]); ("A", ["N"; "P"; "C"]);
   ("E", ["U"; "POC"; "F"; "H"; "ND"]); ("RL", ["OF"; "TF"; "W"; "U"; "ND"]); ("RC", ["UC"; "UR"; "C"; "ND"]);
   ("CDP", ["N"; "L"; "LM"; "MH"; "H"; "ND"]); ("TD", ["N"; "L"; "M"; "H"; "ND"]);
   ("CR", ["L"; "M"; "H"; "ND"]); ("IR", ["L"; "M"; "H"; "ND"]); ("AR", ["L"; "M"; "H"; "ND"])].
Definition required_v2 : list string := ["AV"; "AC"; "Au"; "C"; "I"; "A"].

(** CVSS v4.0 specification, table 23, values in upper case. *)
Definition metrics_v4 : metrics :=
  [("AV", ["N"; "A"; "L"; "P"]); ("AC", ["L"; "H"]); ("AT", ["N"; "P"]); ("PR", ["N"; "L"; "H"]); ("UI", ["N"; "P"; "A"]);
   ("VC", ["H"; "L"; "N"]); ("VI", ["H"; "L"; "N"]); ("VA", ["H"; "L"; "N"]);
   ("SC", ["H"; "L"; "N"]); ("SI", ["H"; "L"; "N"]); ("SA", ["H"; "L"; "N"]);
   ("E", ["X"; "A"; "P"; "U"]);
   ("CR", ["X"; "H"; "M"; "L"]); ("IR", ["X"; "H"; "M"; "L"]); ("AR", ["X"; "H"; "M"; "L"]);
   ("MAV", ["X"; "N"; "A"; "L"; "P"]); ("MAC", ["X"; "L"; "H"]); ("MAT", ["X"; "N"; "P"]);
   ("MPR", ["X"; "N"; "L"; "H"]); ("MUI", ["X"; "N"; "P"; "A"]);
   ("MVC", ["X"; "H"; "L"; "N"]); ("MVI", ["X"; "H"; "L"; "N"]); ("MVA", ["X"; "H"; "L"; "N"]);
   ("MSC", ["X"; "H"; "L"; "N"]); ("MSI", ["X"; "S"; "H"; "L"; "N"]); ("MSA", ["X"; "S"; "H"; "L"; "N"]);
   ("S", ["X"; "N"; "P"]); ("AU", ["X"; "N"; "Y"]); ("R", ["X"; "A"; "U"; "I"]); ("V", ["X"; "D"; "C"]);
   ("RE", ["X"; "L"; "M"; "H"]); ("U", ["X"; "CLEAR"; "GREEN"; "AMBER"; "RED"])].
Definition required_v4 : list string := ["AV"; "AC"; "AT"; "PR"; "UI"; "VC"; "VI"; "VA"; "SC"; "SI"; "SA"].

(** ASCII upper case. *)
Definition upcase_char (a : ascii) : ascii :=
  match index 0 (String a "") "abcdefghijklmnopqrstuvwxyz" with
  | Some k => match get k "ABCDEFGHIJKLMNOPQRSTUVWXYZ" with Some b => b | None => a end
  | None => a
  end.
Fixpoint upcase (s : string) : string :=
  match s with EmptyString => EmptyString | String a r => String (upcase_char a) (upcase r) end.
Definition exact (s : string) : string := s.

(** A vector assigns at most one value to each metric. *)
Definition assignment := string -> option string.

(** The components [NAME:VALUE] as written, read with [norm] for letter case,
    are well-formed: every name is a metric, the value is one of its values, no
    metric is given twice. *)
Definition well_formed (ms : metrics) (norm : string -> string) (cs : list (string * string)) : Prop :=
  (forall id value, In (id, value) cs -> exists values, In (norm id, values) ms /\ In (norm value) values) /\
  NoDup (map (fun c => norm (fst c)) cs).
(** They give the metrics exactly the values of [a]. *)
Definition denotes (norm : string -> string) (cs : list (string * string)) (a : assignment) : Prop :=
  forall name value, a name = Some value <-> exists c, In c cs /\ norm (fst c) = name /\ norm (snd c) = value.
(** Written with a slash before each, or only between them. *)
Definition written_component (c : string * string) : string := fst c ++ ":" ++ snd c.
Fixpoint with_slashes (cs : list (string * string)) : string :=
  match cs with [] => "" | c :: r => "/" ++ written_component c ++ with_slashes r end.
Definition slash_separated (cs : list (string * string)) : string :=
  match cs with [] => "" | c :: r => written_component c ++ with_slashes r end.
(** Every metric has a value from its table. *)
Definition legal (ms : metrics) (a : assignment) : Prop :=
  forall name value, a name = Some value -> exists values, In (name, values) ms /\ In value values.
Definition complete (required : list string) (a : assignment) : Prop :=
  forall name, In name required -> a name <> None.
