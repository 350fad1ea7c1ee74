(** CVSS v4 scores: cvss/src/v4/{score,scoring}.rs, the files of v4/scoring/ and
    the [merge] modules of v4/metric/. *)
From Coq Require Import List NArith ZArith Ascii String Bool SpecFloat.
From Verif Require Import Base StrLib CvssText CvssFloat Cvss3 Cvss2 Cvss4Data.
Import ListNotations.
Local Open Scope string_scope.
Local Infix "++" := String.append (right associativity, at level 60).

Definition lit_0_2 : f64 := dec 2 10.

(** v4/scoring.rs:47-72 [ScoringVector]; a merged value is represented by its
    token. The supplemental fields (au, r, re, s, u, v) are never read by the
    scoring and are left out. *)
Record scoring := mkS {
  s_ac : string; s_at : string; s_av : string; s_pr : string; s_sa : string; s_sc : string; s_si : string; s_ui : string;
  s_va : string; s_vc : string; s_vi : string; s_e : string; s_ar : string; s_cr : string; s_ir : string }.
(** [v.m.unwrap().merge(v.mm)]: av.rs:163-178, ac.rs:139-153, at.rs:128-142,
    pr.rs:132-148, ui.rs:145-158, vc.rs:136-160, vi.rs:133-156, va.rs:146-170,
    sc.rs:137-161, si.rs:136-163, sa.rs:150-177 (all in v4/metric/base/). *)
Definition merge4 (base modified : option string) : outcome string :=
  match base with
  | None => Panic
  | Some b => Ok match modified with Some m => if String.eqb m "X" then b else m | None => b end
  end.
(** [v.m.unwrap_or_default().merge()]: v4/metric/threat/e.rs:145-154 (default A),
    v4/metric/environmental/{cr,ir,ar}.rs:127-136 (default H). *)
Definition default4 (d : string) (m : option string) : string :=
  match m with Some x => if String.eqb x "X" then d else x | None => d end.
(** v4/scoring.rs:74-104 [From<&Vector>]. *)
Definition scoring_of (v : slots) : outcome scoring :=
  let get := field sch4 v in
  let? ac := merge4 (get "AC") (get "MAC") in
  let? at_ := merge4 (get "AT") (get "MAT") in
  let? av := merge4 (get "AV") (get "MAV") in
  let? pr := merge4 (get "PR") (get "MPR") in
  let? sa := merge4 (get "SA") (get "MSA") in
  let? sc := merge4 (get "SC") (get "MSC") in
  let? si := merge4 (get "SI") (get "MSI") in
  let? ui := merge4 (get "UI") (get "MUI") in
  let? va := merge4 (get "VA") (get "MVA") in
  let? vc := merge4 (get "VC") (get "MVC") in
  let? vi := merge4 (get "VI") (get "MVI") in
  Ok (mkS ac at_ av pr sa sc si ui va vc vi (default4 "A" (get "E"))
          (default4 "H" (get "AR")) (default4 "H" (get "CR")) (default4 "H" (get "IR"))).

(** [Default] of the merged types (the variants marked [#[default]]). *)
Definition default_scoring : scoring := mkS "L" "N" "N" "N" "H" "H" "H" "N" "H" "H" "H" "A" "H" "H" "H".
(** [FromStr] of the merged types. *)
Definition token (accepted : list string) (x : string) : outcome string := if existsb (String.eqb x) accepted then Ok x else Panic.
(** v4/scoring.rs:125-152, one component. The supplemental identifiers, which do
    not occur in [max_composed], are treated like the unreachable ones. *)
Definition set_component (m : scoring) (c : string * string) : outcome scoring :=
  let id := to_upper (fst c) in
  let value := to_upper (snd c) in
  let 'mkS ac at_ av pr sa sc si ui va vc vi e ar cr ir := m in
  if String.eqb id "AV" then let? x := token ["P"; "L"; "A"; "N"] value in Ok (mkS ac at_ x pr sa sc si ui va vc vi e ar cr ir)
  else if String.eqb id "AC" then let? x := token ["H"; "L"] value in Ok (mkS x at_ av pr sa sc si ui va vc vi e ar cr ir)
  else if String.eqb id "PR" then let? x := token ["H"; "L"; "N"] value in Ok (mkS ac at_ av x sa sc si ui va vc vi e ar cr ir)
  else if String.eqb id "UI" then let? x := token ["A"; "P"; "N"] value in Ok (mkS ac at_ av pr sa sc si x va vc vi e ar cr ir)
  else if String.eqb id "AT" then let? x := token ["P"; "N"] value in Ok (mkS ac x av pr sa sc si ui va vc vi e ar cr ir)
  else if String.eqb id "SA" then let? x := token ["S"; "H"; "L"; "N"] value in Ok (mkS ac at_ av pr x sc si ui va vc vi e ar cr ir)
  else if String.eqb id "SC" then let? x := token ["H"; "L"; "N"] value in Ok (mkS ac at_ av pr sa x si ui va vc vi e ar cr ir)
  else if String.eqb id "SI" then let? x := token ["S"; "H"; "L"; "N"] value in Ok (mkS ac at_ av pr sa sc x ui va vc vi e ar cr ir)
  else if String.eqb id "VA" then let? x := token ["H"; "L"; "N"] value in Ok (mkS ac at_ av pr sa sc si ui x vc vi e ar cr ir)
  else if String.eqb id "VC" then let? x := token ["H"; "L"; "N"] value in Ok (mkS ac at_ av pr sa sc si ui va x vi e ar cr ir)
  else if String.eqb id "VI" then let? x := token ["H"; "L"; "N"] value in Ok (mkS ac at_ av pr sa sc si ui va vc x e ar cr ir)
  else if String.eqb id "E" then let? x := token ["A"; "P"; "U"] value in Ok (mkS ac at_ av pr sa sc si ui va vc vi x ar cr ir)
  else if String.eqb id "AR" then let? x := token ["L"; "M"; "H"] value in Ok (mkS ac at_ av pr sa sc si ui va vc vi e x cr ir)
  else if String.eqb id "CR" then let? x := token ["L"; "M"; "H"] value in Ok (mkS ac at_ av pr sa sc si ui va vc vi e ar x ir)
  else if String.eqb id "IR" then let? x := token ["L"; "M"; "H"] value in Ok (mkS ac at_ av pr sa sc si ui va vc vi e ar cr x)
  else Panic.
(** [component.split(':')], first two parts: v4/scoring.rs:112-119. *)
Definition two_parts (c : string) : outcome (string * string) :=
  match split_on ":" c with id :: value :: _ => Ok (id, value) | _ => Panic end.
(** [str::trim_end_matches('/')]. *)
Fixpoint strip_slashes (s : string) : string :=
  match s with
  | String c r => if Ascii.eqb c "/" then strip_slashes r else s
  | EmptyString => s
  end.
Definition trim_slashes (s : string) : string := srev (strip_slashes (srev s)).
Fixpoint map_outcome {A B} (f : A -> outcome B) (l : list A) : outcome (list B) :=
  match l with [] => Ok [] | x :: r => let? y := f x in let? ys := map_outcome f r in Ok (y :: ys) end.
Fixpoint fold_outcome {A S} (f : S -> A -> outcome S) (s : S) (l : list A) : outcome S :=
  match l with [] => Ok s | x :: r => let? s := f s x in fold_outcome f s r end.
(** v4/scoring.rs:109-154 [from_max_composed_vector]. *)
Definition from_max_composed (s : string) : outcome scoring :=
  let? cs := map_outcome two_parts (split_on "/" (trim_slashes s)) in
  fold_outcome set_component default_scoring cs.

(** [MetricLevel::level], v4/metric/base/: av.rs:152-160, pr.rs:122-129,
    ui.rs:135-142, ac.rs:130-136, at.rs:119-125, vc.rs:110-117, vi.rs:123-130,
    va.rs:136-143, sc.rs:127-134, si.rs:126-134, sa.rs:139-147;
    v4/metric/environmental/{cr,ir,ar}.rs:139-146. *)
Definition level_av (x : string) : f64 := match x with "P" => lit_0_3 | "L" => lit_0_2 | "A" => lit_0_1 | "N" => lit_0 | _ => S754_nan end.
Definition level_pr (x : string) : f64 := match x with "H" => lit_0_2 | "L" => lit_0_1 | "N" => lit_0 | _ => S754_nan end.
Definition level_ui (x : string) : f64 := match x with "A" => lit_0_2 | "P" => lit_0_1 | "N" => lit_0 | _ => S754_nan end.
Definition level_ac (x : string) : f64 := match x with "H" => lit_0_1 | "L" => lit_0 | _ => S754_nan end.
Definition level_at (x : string) : f64 := match x with "P" => lit_0_1 | "N" => lit_0 | _ => S754_nan end.
Definition level_v (x : string) : f64 := match x with "H" => lit_0 | "L" => lit_0_1 | "N" => lit_0_2 | _ => S754_nan end.
Definition level_sc (x : string) : f64 := match x with "H" => lit_0_1 | "L" => lit_0_2 | "N" => lit_0_3 | _ => S754_nan end.
Definition level_s (x : string) : f64 := match x with "S" => lit_0 | "H" => lit_0_1 | "L" => lit_0_2 | "N" => lit_0_3 | _ => S754_nan end.
Definition level_r (x : string) : f64 := match x with "H" => lit_0 | "M" => lit_0_1 | "L" => lit_0_2 | _ => S754_nan end.

Local Infix "=?" := String.eqb.
(** v4/scoring.rs:158-252 [eq1] .. [eq6]. *)
Definition eq1 (v : scoring) : nat :=
  if (s_av v =? "N") && (s_pr v =? "N") && (s_ui v =? "N") then 0
  else if ((s_av v =? "N") || (s_pr v =? "N") || (s_ui v =? "N")) && negb (s_av v =? "P") then 1 else 2.
Definition eq2 (v : scoring) : nat := if (s_ac v =? "L") && (s_at v =? "N") then 0 else 1.
Definition eq3 (v : scoring) : nat :=
  if (s_vc v =? "H") && (s_vi v =? "H") then 0
  else if (s_vc v =? "H") || (s_vi v =? "H") || (s_va v =? "H") then 1 else 2.
Definition eq4 (v : scoring) : nat :=
  if (s_si v =? "S") || (s_sa v =? "S") then 0
  else if (s_sc v =? "H") || (s_si v =? "H") || (s_sa v =? "H") then 1 else 2.
Definition eq5 (v : scoring) : nat := if s_e v =? "A" then 0 else if s_e v =? "P" then 1 else 2.
Definition eq6 (v : scoring) : nat :=
  if ((s_cr v =? "H") && (s_vc v =? "H")) || ((s_ir v =? "H") && (s_vi v =? "H")) || ((s_ar v =? "H") && (s_va v =? "H")) then 0 else 1.

(** v4/scoring/lookup.rs:6-280 [lookup_global]. *)
Definition lookup_global (a b c d e f : nat) : option f64 :=
  match find (fun p => let '(a', b', c', d', e', f', _) := p in
    Nat.eqb a a' && Nat.eqb b b' && Nat.eqb c c' && Nat.eqb d d' && Nat.eqb e e' && Nat.eqb f f') macro_scores with
  | Some (_, n) => Some (dec n 10)
  | None => None
  end.

(** v4/scoring.rs:35-41 [VectorEq]. *)
Inductive vector_eq := Eq1 (n : nat) | Eq2 (n : nat) | Eq3Eq6 (n m : nat) | Eq4 (n : nat) | Eq5 (n : nat).
(** v4/scoring/max_composed.rs:8-40. *)
Definition max_composed (e : vector_eq) : outcome (list string) :=
  match e with
  | Eq1 0 => Ok ["AV:N/PR:N/UI:N/"]
  | Eq1 1 => Ok ["AV:A/PR:N/UI:N/"; "AV:N/PR:L/UI:N/"; "AV:N/PR:N/UI:P/"]
  | Eq1 2 => Ok ["AV:P/PR:N/UI:N/"; "AV:A/PR:L/UI:P/"]
  | Eq2 0 => Ok ["AC:L/AT:N/"]
  | Eq2 1 => Ok ["AC:H/AT:N/"; "AC:L/AT:P/"]
  | Eq3Eq6 0 0 => Ok ["VC:H/VI:H/VA:H/CR:H/IR:H/AR:H/"]
  | Eq3Eq6 0 1 => Ok ["VC:H/VI:H/VA:L/CR:M/IR:M/AR:H/"; "VC:H/VI:H/VA:H/CR:M/IR:M/AR:M/"]
  | Eq3Eq6 1 0 => Ok ["VC:L/VI:H/VA:H/CR:H/IR:H/AR:H/"; "VC:H/VI:L/VA:H/CR:H/IR:H/AR:H/"]
  | Eq3Eq6 1 1 => Ok ["VC:L/VI:H/VA:L/CR:H/IR:M/AR:H/"; "VC:L/VI:H/VA:H/CR:H/IR:M/AR:M/"; "VC:H/VI:L/VA:H/CR:M/IR:H/AR:M/";
                      "VC:H/VI:L/VA:L/CR:M/IR:H/AR:H/"; "VC:L/VI:L/VA:H/CR:H/IR:H/AR:M/"]
  | Eq3Eq6 2 1 => Ok ["VC:L/VI:L/VA:L/CR:H/IR:H/AR:H/"]
  | Eq4 0 => Ok ["SC:H/SI:S/SA:S/"]
  | Eq4 1 => Ok ["SC:H/SI:H/SA:H/"]
  | Eq4 2 => Ok ["SC:L/SI:L/SA:L/"]
  | Eq5 0 => Ok ["E:A/"]
  | Eq5 1 => Ok ["E:P/"]
  | Eq5 2 => Ok ["E:U/"]
  | _ => Panic
  end.
(** v4/scoring/max_severity.rs:6-26. *)
Definition max_severity (e : vector_eq) : outcome Z :=
  match e with
  | Eq1 0 => Ok 1 | Eq1 1 => Ok 4 | Eq1 2 => Ok 5
  | Eq2 0 => Ok 1 | Eq2 1 => Ok 2
  | Eq3Eq6 0 0 => Ok 7 | Eq3Eq6 0 1 => Ok 6 | Eq3Eq6 1 0 => Ok 8 | Eq3Eq6 1 1 => Ok 8 | Eq3Eq6 2 1 => Ok 10
  | Eq4 0 => Ok 6 | Eq4 1 => Ok 5 | Eq4 2 => Ok 4
  | Eq5 0 => Ok 1 | Eq5 1 => Ok 1 | Eq5 2 => Ok 1
  | _ => Panic
  end%Z.

(** v4/scoring.rs:366-379, the severity distances to one highest vector; those of
    each group of metrics are kept together. *)
Record distances := mkD { d_av : f64; d_pr : f64; d_ui : f64; d_ac : f64; d_at : f64;
  d_vc : f64; d_vi : f64; d_va : f64; d_sc : f64; d_si : f64; d_sa : f64; d_cr : f64; d_ir : f64; d_ar : f64 }.
Definition no_distances : distances :=
  mkD lit_0 lit_0 lit_0 lit_0 lit_0 lit_0 lit_0 lit_0 lit_0 lit_0 lit_0 lit_0 lit_0 lit_0.
Definition distances_to (v m : scoring) : distances :=
  let d (f : scoring -> string) (level : string -> f64) := fsub (level (f v)) (level (f m)) in
  mkD (d s_av level_av) (d s_pr level_pr) (d s_ui level_ui) (d s_ac level_ac) (d s_at level_at)
      (d s_vc level_v) (d s_vi level_v) (d s_va level_v) (d s_sc level_sc) (d s_si level_s) (d s_sa level_s)
      (d s_cr level_r) (d s_ir level_r) (d s_ar level_r).
Definition some_negative (d : distances) : bool :=
  let neg x := flt x lit_0 in
  neg (d_av d) || neg (d_pr d) || neg (d_ui d) || neg (d_ac d) || neg (d_at d) || neg (d_vc d) || neg (d_vi d) || neg (d_va d)
  || neg (d_sc d) || neg (d_si d) || neg (d_sa d) || neg (d_cr d) || neg (d_ir d) || neg (d_ar d).
(** v4/scoring.rs:345-402, the loop over the composed vectors. *)
Fixpoint find_max (v : scoring) (current : distances) (l : list string) : outcome distances :=
  match l with
  | [] => Ok current
  | s :: r =>
      let? m := from_max_composed (trim_slashes s) in
      let d := distances_to v m in
      if some_negative d then find_max v d r else Ok d
  end.
(** [Option<f64>]'s [>]. *)
Definition option_gt (a b : option f64) : bool :=
  match a, b with Some x, Some y => flt y x | Some _, None => true | None, _ => false end.
(** v4/scoring.rs:440-486: the proportion of the available distance, if there is
    a lower score. *)
Definition normalized (available : option f64) (distance max_severity : f64) : f64 :=
  match available with Some a => fmul a (fdiv distance max_severity) | None => lit_0 end.
Definition existing (l : list (option f64)) : Z := Z.of_nat (List.length (filter (fun o => match o with Some _ => true | None => false end) l)).
(** v4/scoring.rs:416-500 [score] from the distances on. *)
Definition finish4 (value : f64) (low1 low2 low36 low4 low5 : option f64) (sev1 sev2 sev36 sev4 : Z) (dist1 dist2 dist36 dist4 : f64) : f64 :=
  let available := option_map (fun v => fsub value v) in
  let n1 := normalized (available low1) dist1 (fmul (fint sev1) lit_0_1) in
  let n2 := normalized (available low2) dist2 (fmul (fint sev2) lit_0_1) in
  let n36 := normalized (available low36) dist36 (fmul (fint sev36) lit_0_1) in
  let n4 := normalized (available low4) dist4 (fmul (fint sev4) lit_0_1) in
  let n5 := match available low5 with Some a => fmul a lit_0 | None => lit_0 end in
  let existing := existing [low1; low2; low36; low4; low5] in
  let mean := if Z.eqb existing 0 then lit_0 else fdiv (fadd (fadd (fadd (fadd n1 n2) n36) n4) n5) (fint existing) in
  fsub value mean.
(** v4/scoring.rs:265-501 [score]. *)
Definition scoring_score (v : scoring) : outcome f64 :=
  if (s_vc v =? "N") && (s_vi v =? "N") && (s_va v =? "N") && (s_sc v =? "N") && (s_si v =? "N") && (s_sa v =? "N") then Ok lit_0 else
  let '(k1, k2, k3, k4, k5, k6) := (eq1 v, eq2 v, eq3 v, eq4 v, eq5 v, eq6 v) in
  let? value := match lookup_global k1 k2 k3 k4 k5 k6 with Some x => Ok x | None => Panic end in
  let low1 := lookup_global (S k1) k2 k3 k4 k5 k6 in
  let low2 := lookup_global k1 (S k2) k3 k4 k5 k6 in
  let low36 :=
    if Nat.eqb k3 1 && Nat.eqb k6 1 then lookup_global k1 k2 (S k3) k4 k5 k6
    else if Nat.eqb k3 0 && Nat.eqb k6 1 then lookup_global k1 k2 (S k3) k4 k5 k6
    else if Nat.eqb k3 1 && Nat.eqb k6 0 then lookup_global k1 k2 k3 k4 k5 (S k6)
    else if Nat.eqb k3 0 && Nat.eqb k6 0 then
      let left := lookup_global k1 k2 k3 k4 k5 (S k6) in
      let right := lookup_global k1 k2 (S k3) k4 k5 k6 in
      if option_gt left right then left else right
    else lookup_global k1 k2 (S k3) k4 k5 k6 in
  let low4 := lookup_global k1 k2 k3 (S k4) k5 k6 in
  let low5 := lookup_global k1 k2 k3 k4 (S k5) k6 in
  let? max1 := max_composed (Eq1 k1) in
  let? max2 := max_composed (Eq2 k2) in
  let? max36 := max_composed (Eq3Eq6 k3 k6) in
  let? max4 := max_composed (Eq4 k4) in
  let? max5 := max_composed (Eq5 k5) in
  let vectors := flat_map (fun a => flat_map (fun b => flat_map (fun c => flat_map (fun d => map (fun e =>
    a ++ b ++ c ++ d ++ e) max5) max4) max36) max2) max1 in
  let? d := find_max v no_distances vectors in
  let dist1 := fadd (fadd (d_av d) (d_pr d)) (d_ui d) in
  let dist2 := fadd (d_ac d) (d_at d) in
  let dist36 := fadd (fadd (fadd (fadd (fadd (d_vc d) (d_vi d)) (d_va d)) (d_cr d)) (d_ir d)) (d_ar d) in
  let dist4 := fadd (fadd (d_sc d) (d_si d)) (d_sa d) in
  let? sev1 := max_severity (Eq1 k1) in
  let? sev2 := max_severity (Eq2 k2) in
  let? sev36 := max_severity (Eq3Eq6 k3 k6) in
  let? sev4 := max_severity (Eq4 k4) in
  Ok (finish4 value low1 low2 low36 low4 low5 sev1 sev2 sev36 sev4 dist1 dist2 dist36 dist4).
(** [f64::clamp(value, 0.0, 10.0)]. *)
Definition clamp4 (x : f64) : f64 := if flt x lit_0 then lit_0 else if flt lit_10 x then lit_10 else x.
(** v4/score.rs:154-158 [round_v4]. *)
Definition round4 (x : f64) : f64 := fdiv (fround (fmul (fadd (clamp4 x) lit_1e_6) lit_10)) lit_10.
(** v4/score.rs:121-132 [From<&Vector> for Score], v4/vector.rs:121-123. *)
Definition score4 (v : slots) : outcome f64 := let? s := scoring_of v in let? x := scoring_score s in Ok (round4 x).
(** v4/score.rs:166-178 [severity]. *)
Definition rating4 (x : f64) : rating :=
  if flt x lit_0_1 then RNone else if flt x lit_4 then RLow else if flt x lit_7 then RMedium
  else if flt x lit_9 then RHigh else RCritical.
(** v4/score.rs:36-45 [Nomenclature]. *)
Inductive nomenclature := CvssB | CvssBE | CvssBT | CvssBTE.
(** v4/score.rs:48-57 [Display]. *)
Definition nomenclature_print (n : nomenclature) : string :=
  match n with CvssB => "CVSS-B" | CvssBE => "CVSS-BE" | CvssBT => "CVSS-BT" | CvssBTE => "CVSS-BTE" end.
(** v4/score.rs:59-73 [FromStr]. *)
Definition nomenclature_parse (s : string) : outcome nomenclature :=
  match s with "CVSS-B" => Ok CvssB | "CVSS-BE" => Ok CvssBE | "CVSS-BT" => Ok CvssBT | "CVSS-BTE" => Ok CvssBTE | _ => Err end.
(** v4/score.rs:75-101 [From<&Vector>]. *)
Definition nomenclature_of (v : slots) : nomenclature :=
  let threat := is_set sch4 v "E" in
  let environmental := existsb (is_set sch4 v)
    ["AR"; "CR"; "IR"; "MAC"; "MAT"; "MAV"; "MPR"; "MSA"; "MSC"; "MSI"; "MUI"; "MVA"; "MVC"; "MVI"] in
  match threat, environmental with true, true => CvssBTE | true, false => CvssBT | false, true => CvssBE | false, false => CvssB end.
