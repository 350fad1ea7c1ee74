(** The published scoring formulas, in exact rational arithmetic. *)
From Coq Require Import List ZArith QArith Qround Qminmax Ascii String Bool.
From Verif Require Import CvssSpec.
Import ListNotations.
Local Open Scope string_scope.
Local Open Scope Q_scope.

(** The weight of a metric's value; metrics without a value count as [d]. *)
Definition weigh (a : assignment) (name : string) (w : list (string * Q)) (d : Q) : Q :=
  match a name with
  | Some x => match find (fun p => String.eqb (fst p) x) w with Some p => snd p | None => d end
  | None => d
  end.

(** ** CVSS v3.1 specification, sections 7.1 and 7.4 *)
Definition changed_v3 (a : assignment) : bool := match a "S" with Some x => String.eqb x "C" | None => false end.
Definition cia_v3 : list (string * Q) := [("H", 0.56); ("L", 0.22); ("N", 0)].
Definition iss_v3 (a : assignment) : Q :=
  1 - (1 - weigh a "C" cia_v3 0) * (1 - weigh a "I" cia_v3 0) * (1 - weigh a "A" cia_v3 0).
Definition impact_v3 (changed : bool) (iss : Q) : Q :=
  if changed then 7.52 * (iss - 0.029) - 3.25 * (iss - 0.02) ^ 15 else 6.42 * iss.
Definition exploitability_v3 (a : assignment) : Q :=
  8.22 * weigh a "AV" [("N", 0.85); ("A", 0.62); ("L", 0.55); ("P", 0.2)] 0
  * weigh a "AC" [("L", 0.77); ("H", 0.44)] 0
  * weigh a "PR" (if changed_v3 a then [("N", 0.85); ("L", 0.68); ("H", 0.5)] else [("N", 0.85); ("L", 0.62); ("H", 0.27)]) 0
  * weigh a "UI" [("N", 0.85); ("R", 0.62)] 0.
Definition base_v3 (changed : bool) (impact exploitability : Q) : Q :=
  if Qle_bool impact 0 then 0
  else if changed then Qmin (1.08 * (impact + exploitability)) 10
  else Qmin (impact + exploitability) 10.
(** "Roundup returns the smallest number, specified to 1 decimal place, that is
    equal to or higher than its input": in tenths. *)
Definition roundup_v3 (x : Q) : Z := Qceiling (10 * x).
Definition score_v3 (a : assignment) : Z :=
  roundup_v3 (base_v3 (changed_v3 a) (impact_v3 (changed_v3 a) (iss_v3 a)) (exploitability_v3 a)).

(** Qualitative severity rating scale (v3 section 5, v4 section 6), by tenths. *)
Inductive band := BNone | BLow | BMedium | BHigh | BCritical.
Definition band_of (n : Z) : band :=
  (if n =? 0 then BNone else if n <=? 39 then BLow else if n <=? 69 then BMedium else if n <=? 89 then BHigh else BCritical)%Z.

(** The values of each metric from the least to the most severe. *)
Definition severity_order_v3 : list (string * list string) :=
  [("AV", ["P"; "L"; "A"; "N"]); ("AC", ["H"; "L"]); ("PR", ["H"; "L"; "N"]); ("UI", ["R"; "N"]);
   ("S", ["U"; "C"]); ("C", ["N"; "L"; "H"]); ("I", ["N"; "L"; "H"]); ("A", ["N"; "L"; "H"])].
(** [y] does not come before [x] in the list. *)
Definition no_less_severe (order : list string) (x y : string) : Prop :=
  exists l r, order = (l ++ x :: r)%list /\ In y (x :: r).
Definition at_least_as_severe (orders : list (string * list string)) (a b : assignment) : Prop :=
  forall name order x y, In (name, order) orders -> a name = Some x -> b name = Some y -> no_less_severe order x y.

(** ** CVSS v2 guide, sections 3.2.1 to 3.2.3 *)
(** [round_to_1_decimal], halves up: in tenths. *)
Definition round_v2 (x : Q) : Z := Qfloor (10 * x + 0.5).
Definition tenths_of (n : Z) : Q := inject_Z n * 0.1.
Definition cia_v2 : list (string * Q) := [("N", 0); ("P", 0.275); ("C", 0.660)].
Definition req_v2 : list (string * Q) := [("L", 0.5); ("M", 1.0); ("H", 1.51); ("ND", 1.0)].
Definition exploitability_v2 (a : assignment) : Q :=
  20 * weigh a "AV" [("L", 0.395); ("A", 0.646); ("N", 1.0)] 0
  * weigh a "AC" [("H", 0.35); ("M", 0.61); ("L", 0.71)] 0
  * weigh a "Au" [("M", 0.45); ("S", 0.56); ("N", 0.704)] 0.
Definition impact_v2 (a : assignment) : Q :=
  10.41 * (1 - (1 - weigh a "C" cia_v2 0) * (1 - weigh a "I" cia_v2 0) * (1 - weigh a "A" cia_v2 0)).
Definition adjusted_impact_v2 (a : assignment) : Q :=
  Qmin 10 (10.41 * (1 - (1 - weigh a "C" cia_v2 0 * weigh a "CR" req_v2 1)
                      * (1 - weigh a "I" cia_v2 0 * weigh a "IR" req_v2 1)
                      * (1 - weigh a "A" cia_v2 0 * weigh a "AR" req_v2 1))).
Definition f_v2 (impact : Q) : Q := if Qeq_bool impact 0 then 0 else 1.176.
(** These are in tenths; they can come out negative. *)
Definition base_v2 (impact exploitability : Q) : Z := round_v2 ((0.6 * impact + 0.4 * exploitability - 1.5) * f_v2 impact).
Definition temporal_v2 (a : assignment) (base : Z) : Z :=
  round_v2 (tenths_of base
            * weigh a "E" [("U", 0.85); ("POC", 0.9); ("F", 0.95); ("H", 1.0); ("ND", 1.0)] 1
            * weigh a "RL" [("OF", 0.87); ("TF", 0.90); ("W", 0.95); ("U", 1.0); ("ND", 1.0)] 1
            * weigh a "RC" [("UC", 0.90); ("UR", 0.95); ("C", 1.0); ("ND", 1.0)] 1).
Definition environmental_v2 (a : assignment) (temporal : Z) : Z :=
  round_v2 ((tenths_of temporal
             + (10 - tenths_of temporal) * weigh a "CDP" [("N", 0); ("L", 0.1); ("LM", 0.3); ("MH", 0.4); ("H", 0.5); ("ND", 0)] 0)
            * weigh a "TD" [("N", 0); ("L", 0.25); ("M", 0.75); ("H", 1.0); ("ND", 1.0)] 1).
(** The guide says nothing about negative results; they count as 0. *)
Definition base_score_v2 (a : assignment) : Z := Z.max 0 (base_v2 (impact_v2 a) (exploitability_v2 a)).
Definition temporal_score_v2 (a : assignment) : Z := Z.max 0 (temporal_v2 a (base_v2 (impact_v2 a) (exploitability_v2 a))).
Definition environmental_score_v2 (a : assignment) : Z :=
  Z.max 0 (environmental_v2 a (temporal_v2 a (base_v2 (adjusted_impact_v2 a) (exploitability_v2 a)))).
(** The bands of the U.S. National Vulnerability Database. *)
Definition band_v2 (n : Z) : band := (if n <=? 39 then BLow else if n <=? 69 then BMedium else BHigh)%Z.
