(** What it means that one CVSS v4.0 or v2 vector is at least as severe as another. *)
From Coq Require Import List String.
From Verif Require Import CvssSpec CvssScoreSpec Cvss4Spec.
Import ListNotations.
Local Open Scope string_scope.

(** The values of the metrics, from the least to the most severe (the severity
    levels of section 8.2 of the v4.0 specification; exploit maturity as in table 13). *)
Definition severity_order_of_v4 : list (string * list string) :=
  [("AV", ["P"; "L"; "A"; "N"]); ("PR", ["H"; "L"; "N"]); ("UI", ["A"; "P"; "N"]);
   ("AC", ["H"; "L"]); ("AT", ["P"; "N"]);
   ("VC", ["N"; "L"; "H"]); ("VI", ["N"; "L"; "H"]); ("VA", ["N"; "L"; "H"]);
   ("CR", ["L"; "M"; "H"]); ("IR", ["L"; "M"; "H"]); ("AR", ["L"; "M"; "H"]);
   ("SC", ["N"; "L"; "H"]); ("SI", ["N"; "L"; "H"; "S"]); ("SA", ["N"; "L"; "H"; "S"]);
   ("E", ["U"; "P"; "A"])].
(** With modified metrics in place of base metrics and defaults for what is not
    given ([effective]), every metric of [b] is at least as severe as that of [a]. *)
Definition at_least_as_severe_v4 (a b : assignment) : Prop :=
  at_least_as_severe severity_order_of_v4 (fun n => Some (effective a n)) (fun n => Some (effective b n)).

(** CVSS v2: what is not defined (ND) or not given counts as these values, which
    have the same weight (guide, tables 7 to 12). *)
Definition not_defined_v2 (n : string) : string :=
  match n with "E" => "H" | "RL" => "U" | "RC" => "C" | "CDP" => "N" | "TD" => "H" | "CR" | "IR" | "AR" => "M" | _ => "" end.
Definition effective_v2 (a : assignment) (n : string) : string :=
  match a n with Some x => if String.eqb x "ND" then not_defined_v2 n else x | None => not_defined_v2 n end.
Definition severity_order_of_v2 : list (string * list string) :=
  [("AV", ["L"; "A"; "N"]); ("AC", ["H"; "M"; "L"]); ("Au", ["M"; "S"; "N"]);
   ("C", ["N"; "P"; "C"]); ("I", ["N"; "P"; "C"]); ("A", ["N"; "P"; "C"]);
   ("E", ["U"; "POC"; "F"; "H"]); ("RL", ["OF"; "TF"; "W"; "U"]); ("RC", ["UC"; "UR"; "C"]);
   ("CDP", ["N"; "L"; "LM"; "MH"; "H"]); ("TD", ["N"; "L"; "M"; "H"]);
   ("CR", ["L"; "M"; "H"]); ("IR", ["L"; "M"; "H"]); ("AR", ["L"; "M"; "H"])].
Definition at_least_as_severe_v2 (a b : assignment) : Prop :=
  at_least_as_severe severity_order_of_v2 (fun n => Some (effective_v2 a n)) (fun n => Some (effective_v2 b n)).
