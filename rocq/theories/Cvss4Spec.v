(** Scoring as described in section 8 of the CVSS v4.0 specification, in exact
    arithmetic. *)
From Coq Require Import List ZArith QArith Qround Ascii String Bool.
From Verif Require Import CvssSpec CvssScoreSpec Cvss4Data.
Import ListNotations.
Local Open Scope string_scope.
Local Open Scope nat_scope.

(** ** Effective values *)
(** A metric counts as given if it has a value other than X. *)
Definition given (a : assignment) (n : string) : option string :=
  match a n with Some x => if String.eqb x "X" then None else Some x | None => None end.
(** A modified metric overrides the base metric; an exploit maturity that is not
    defined counts as A (attacked), a security requirement as H (high). *)
Definition effective (a : assignment) (n : string) : string :=
  match given a (String.append "M" n), given a n with
  | Some x, _ => x
  | None, Some x => x
  | None, None => if String.eqb n "E" then "A" else "H"
  end.

(** ** Equivalence classes (tables 24 to 29) *)
Definition valuation := string -> string.
Definition is (v : valuation) (n x : string) : bool := String.eqb (v n) x.
Definition class1 (v : valuation) : nat :=
  if is v "AV" "N" && is v "PR" "N" && is v "UI" "N" then 0
  else if (is v "AV" "N" || is v "PR" "N" || is v "UI" "N") && negb (is v "AV" "P") then 1
  else 2.
Definition class2 (v : valuation) : nat := if is v "AC" "L" && is v "AT" "N" then 0 else 1.
Definition class3 (v : valuation) : nat :=
  if is v "VC" "H" && is v "VI" "H" then 0
  else if is v "VC" "H" || is v "VI" "H" || is v "VA" "H" then 1
  else 2.
Definition class4 (v : valuation) : nat :=
  if is v "SI" "S" || is v "SA" "S" then 0
  else if is v "SC" "H" || is v "SI" "H" || is v "SA" "H" then 1
  else 2.
Definition class5 (v : valuation) : nat := if is v "E" "A" then 0 else if is v "E" "P" then 1 else 2.
Definition class6 (v : valuation) : nat :=
  if (is v "CR" "H" && is v "VC" "H") || (is v "IR" "H" && is v "VI" "H") || (is v "AR" "H" && is v "VA" "H") then 0 else 1.

(** ** Severity distance *)
(** The values of the metrics, from the most to the least severe. *)
Definition severity_order_v4 (n : string) : list string :=
  match n with
  | "AV" => ["N"; "A"; "L"; "P"]
  | "PR" => ["N"; "L"; "H"]
  | "UI" => ["N"; "P"; "A"]
  | "AC" => ["L"; "H"]
  | "AT" => ["N"; "P"]
  | "VC" | "VI" | "VA" | "SC" => ["H"; "L"; "N"]
  | "SI" | "SA" => ["S"; "H"; "L"; "N"]
  | "CR" | "IR" | "AR" => ["H"; "M"; "L"]
  | _ => []
  end.
Fixpoint position (x : string) (l : list string) : Z :=
  match l with [] => 0 | y :: r => if String.eqb x y then 0 else 1 + position x r end%Z.
(** How many steps the metrics of a group are below their most severe values. *)
Definition steps (names : list string) (v : valuation) : Z :=
  fold_right (fun n s => (position (v n) (severity_order_v4 n) + s)%Z) 0%Z names.
(** All ways to give the metrics of a group values. *)
Fixpoint valuations (names : list string) : list valuation :=
  match names with
  | [] => [fun _ => ""]
  | n :: r => flat_map (fun x => map (fun v m => if String.eqb m n then x else v m) (valuations r)) (severity_order_v4 n)
  end.
(** The steps of the valuations in the same class as [v]. *)
Definition class_steps (names : list string) (same : valuation -> valuation -> bool) (v : valuation) : list Z :=
  map (steps names) (filter (same v) (valuations names)).
Definition least (l : list Z) : Z := fold_right Z.min 1000%Z l.
Definition greatest (l : list Z) : Z := fold_right Z.max 0%Z l.
(** Steps below a most severe vector of the class, and the depth of the class. *)
Definition distance (names : list string) (same : valuation -> valuation -> bool) (v : valuation) : Z :=
  (steps names v - least (class_steps names same v))%Z.
Definition depth (names : list string) (same : valuation -> valuation -> bool) (v : valuation) : Z :=
  (greatest (class_steps names same v) - least (class_steps names same v) + 1)%Z.
Definition same1 (v w : valuation) : bool := Nat.eqb (class1 v) (class1 w).
Definition same2 (v w : valuation) : bool := Nat.eqb (class2 v) (class2 w).
Definition same36 (v w : valuation) : bool := Nat.eqb (class3 v) (class3 w) && Nat.eqb (class6 v) (class6 w).
Definition same4 (v w : valuation) : bool := Nat.eqb (class4 v) (class4 w).
Definition group1 : list string := ["AV"; "PR"; "UI"].
Definition group2 : list string := ["AC"; "AT"].
Definition group36 : list string := ["VC"; "VI"; "VA"; "CR"; "IR"; "AR"].
Definition group4 : list string := ["SC"; "SI"; "SA"].

(** ** The score *)
Definition macro (a b c d e f : nat) : option Z :=
  option_map snd (find (fun p => let '(a', b', c', d', e', f', _) := p in
    Nat.eqb a a' && Nat.eqb b b' && Nat.eqb c c' && Nat.eqb d d' && Nat.eqb e e' && Nat.eqb f f') macro_scores).
(** The higher of two scores, if there are any. *)
Definition higher (a b : option Z) : option Z :=
  match a, b with Some x, Some y => Some (Z.max x y) | Some x, None => Some x | None, b => b end.
(** The proportional distances of the classes that have a lower one, in tenths:
    the score difference to the next lower MacroVector times the severity
    distance divided by the depth. *)
Definition proportion (value : Z) (low : option Z) (dist depth : Z) : list Q :=
  match low with Some l => [inject_Z (value - l) * (inject_Z dist / inject_Z depth)]%Q | None => [] end.
Definition sum (l : list Q) : Q := fold_left Qplus l 0%Q.
Definition mean (l : list Q) : Q := match l with [] => 0%Q | _ => (sum l / inject_Z (Z.of_nat (List.length l)))%Q end.
Definition scored (v : valuation) (value : Z) (low1 low2 low36 low4 low5 : option Z) : Z :=
  Qfloor (inject_Z value
          - mean (proportion value low1 (distance group1 same1 v) (depth group1 same1 v)
                  ++ proportion value low2 (distance group2 same2 v) (depth group2 same2 v)
                  ++ proportion value low36 (distance group36 same36 v) (depth group36 same36 v)
                  ++ proportion value low4 (distance group4 same4 v) (depth group4 same4 v)
                  ++ proportion value low5 0 1)
          + 0.5)%Q.
(** The score in tenths, rounded half up; no score only if the table has no entry. *)
Definition score_of (v : valuation) : option Z :=
  if forallb (fun n => is v n "N") ["VC"; "VI"; "VA"; "SC"; "SI"; "SA"] then Some 0%Z else
  let '(k1, k2, k3, k4, k5, k6) := (class1 v, class2 v, class3 v, class4 v, class5 v, class6 v) in
  let low36 :=
    match k3, k6 with
    | 0, 0 => higher (macro k1 k2 0 k4 k5 1) (macro k1 k2 1 k4 k5 0)
    | 0, 1 => macro k1 k2 1 k4 k5 1
    | 1, 0 => macro k1 k2 1 k4 k5 1
    | 1, 1 => macro k1 k2 2 k4 k5 1
    | _, _ => None
    end%nat in
  option_map (fun value => scored v value (macro (S k1) k2 k3 k4 k5 k6) (macro k1 (S k2) k3 k4 k5 k6) low36
                             (macro k1 k2 k3 (S k4) k5 k6) (macro k1 k2 k3 k4 (S k5) k6))
             (macro k1 k2 k3 k4 k5 k6).
Definition score_v4 (a : assignment) : option Z := score_of (effective a).
