(** CVSS v2 scores: cvss/src/v2/{vector,score}.rs and the files of v2/metric/. *)
From Coq Require Import List NArith ZArith Ascii String Bool SpecFloat.
From Verif Require Import Base CvssText CvssFloat Cvss3.
Import ListNotations.
Local Open Scope string_scope.

(** The literals of the source, as constants (0.0, 0.1, 0.50, 0.85, 0.62 ... are
    those of [Cvss3]). *)
Definition lit_0_25 : f64 := dec 25 100.
Definition lit_0_275 : f64 := dec 275 1000.
Definition lit_0_3 : f64 := dec 3 10.
Definition lit_0_35 : f64 := dec 35 100.
Definition lit_0_395 : f64 := dec 395 1000.
Definition lit_0_4 : f64 := dec 4 10.
Definition lit_0_45 : f64 := dec 45 100.
Definition lit_0_6 : f64 := dec 6 10.
Definition lit_0_61 : f64 := dec 61 100.
Definition lit_0_646 : f64 := dec 646 1000.
Definition lit_0_66 : f64 := dec 660 1000.
Definition lit_0_704 : f64 := dec 704 1000.
Definition lit_0_71 : f64 := dec 71 100.
Definition lit_0_75 : f64 := dec 75 100.
Definition lit_0_87 : f64 := dec 87 100.
Definition lit_0_9 : f64 := dec 9 10.
Definition lit_0_95 : f64 := dec 95 100.
Definition lit_1_176 : f64 := dec 1176 1000.
Definition lit_1_5 : f64 := dec 15 10.
Definition lit_1_51 : f64 := dec 151 100.
Definition lit_10_41 : f64 := dec 1041 100.
Definition lit_20 : f64 := fint 20.
Definition lit_1e_6 : f64 := dec 1 1000000.

(** [Metric::score] of each metric; a value is represented by its token. *)
(** v2/metric/base/av.rs:47-53. *)
Definition av2 (x : string) : f64 := match x with "L" => lit_0_395 | "A" => lit_0_646 | "N" => lit_1 | _ => S754_nan end.
(** v2/metric/base/ac.rs:73-79. *)
Definition ac2 (x : string) : f64 := match x with "H" => lit_0_35 | "M" => lit_0_61 | "L" => lit_0_71 | _ => S754_nan end.
(** v2/metric/base/au.rs:42-48. *)
Definition au2 (x : string) : f64 := match x with "M" => lit_0_45 | "S" => lit_0_56 | "N" => lit_0_704 | _ => S754_nan end.
(** v2/metric/base/c.rs:41-47, i.rs:42-48, a.rs:39-45. *)
Definition cia2 (x : string) : f64 := match x with "N" => lit_0 | "P" => lit_0_275 | "C" => lit_0_66 | _ => S754_nan end.
(** v2/metric/temporal/e.rs:51-59. *)
Definition e2 (x : string) : f64 :=
  match x with "U" => lit_0_85 | "POC" => lit_0_9 | "F" => lit_0_95 | "H" => lit_1 | "ND" => lit_1 | _ => S754_nan end.
(** v2/metric/temporal/rl.rs:47-55. *)
Definition rl2 (x : string) : f64 :=
  match x with "OF" => lit_0_87 | "TF" => lit_0_9 | "W" => lit_0_95 | "U" => lit_1 | "ND" => lit_1 | _ => S754_nan end.
(** v2/metric/temporal/rc.rs:46-53. *)
Definition rc2 (x : string) : f64 :=
  match x with "UC" => lit_0_9 | "UR" => lit_0_95 | "C" => lit_1 | "ND" => lit_1 | _ => S754_nan end.
(** v2/metric/environmental/cdp.rs:55-64. *)
Definition cdp2 (x : string) : f64 :=
  match x with "N" => lit_0 | "L" => lit_0_1 | "LM" => lit_0_3 | "MH" => lit_0_4 | "H" => lit_0_50 | "ND" => lit_0 | _ => S754_nan end.
(** v2/metric/environmental/td.rs:45-53. *)
Definition td2 (x : string) : f64 :=
  match x with "N" => lit_0 | "L" => lit_0_25 | "M" => lit_0_75 | "H" => lit_1 | "ND" => lit_1 | _ => S754_nan end.
(** v2/metric/environmental/cr.rs:44-51, ir.rs:44-51, ar.rs:44-51. *)
Definition req2 (x : string) : f64 :=
  match x with "L" => lit_0_50 | "M" => lit_1 | "H" => lit_1_51 | "ND" => lit_1 | _ => S754_nan end.
(** [.map(|m| m.score()).unwrap_or(d)]. *)
Definition score_or (d : f64) (f : string -> f64) (x : option string) : f64 := match x with Some v => f v | None => d end.

(** v2/score.rs:31-35 [roundup]. *)
Definition roundup2 (x : f64) : f64 := fdiv (fround (fmul (fadd x lit_1e_6) lit_10)) lit_10.
(** v2/vector.rs:98-104 [base_score_internal], given the exploitability. *)
Definition base_of2 (exploitability impact : f64) : f64 :=
  let f_impact := if feq impact lit_0 then lit_0 else lit_1_176 in
  roundup2 (fmul (fsub (fadd (fmul lit_0_6 impact) (fmul lit_0_4 exploitability)) lit_1_5) f_impact).
(** v2/vector.rs:114-120 [exploitability], given the three weights. *)
Definition exploitability_of2 (av ac au : f64) : f64 := fmul (fmul (fmul lit_20 av) ac) au.
(** v2/vector.rs:131-136 [impact], given the three weights. *)
Definition impact_of2 (c i a : f64) : f64 :=
  fmul lit_10_41 (fsub lit_1 (fmul (fmul (fsub lit_1 c) (fsub lit_1 i)) (fsub lit_1 a))).
(** v2/vector.rs:156-173 [adjusted_impact], given the three products. *)
Definition adjusted_of2 (c i a : f64) : f64 :=
  fmin lit_10 (fmul lit_10_41 (fsub lit_1 (fmul (fmul (fsub lit_1 c) (fsub lit_1 i)) (fsub lit_1 a)))).
(** v2/vector.rs:201-209 [temporal_score_internal], given the base score. *)
Definition temporal_of2 (base e rl rc : f64) : f64 := roundup2 (fmul (fmul (fmul base e) rl) rc).
(** v2/vector.rs:144-152 [environmental_score], given the adjusted temporal score. *)
Definition environmental_of2 (t cdp td : f64) : f64 := roundup2 (fmul (fadd t (fmul (fsub lit_10 t) cdp)) td).

Section Vector.
  Context (v : slots).
  Let get := field sch2 v.
  Definition exploitability2 : f64 :=
    exploitability_of2 (score_or lit_0 av2 (get "AV")) (score_or lit_0 ac2 (get "AC")) (score_or lit_0 au2 (get "Au")).
  Definition impact2 : f64 :=
    impact_of2 (score_or lit_0 cia2 (get "C")) (score_or lit_0 cia2 (get "I")) (score_or lit_0 cia2 (get "A")).
  Definition adjusted_impact2 : f64 :=
    adjusted_of2 (fmul (score_or lit_0 cia2 (get "C")) (score_or lit_1 req2 (get "CR")))
                 (fmul (score_or lit_0 cia2 (get "I")) (score_or lit_1 req2 (get "IR")))
                 (fmul (score_or lit_0 cia2 (get "A")) (score_or lit_1 req2 (get "AR"))).
  Definition temporal_internal2 (impact : f64) : f64 :=
    temporal_of2 (base_of2 exploitability2 impact) (score_or lit_1 e2 (get "E")) (score_or lit_1 rl2 (get "RL")) (score_or lit_1 rc2 (get "RC")).
  (** v2/vector.rs:84-89 [score]. *)
  Definition score2 : f64 := fmax (base_of2 exploitability2 impact2) lit_0.
  (** v2/vector.rs:181-186 [temporal_score]. *)
  Definition temporal_score2 : f64 := fmax (temporal_internal2 impact2) lit_0.
  (** v2/vector.rs:144-152 [environmental_score]. *)
  Definition environmental_score2 : f64 :=
    fmax (environmental_of2 (temporal_internal2 adjusted_impact2) (score_or lit_0 cdp2 (get "CDP")) (score_or lit_1 td2 (get "TD"))) lit_0.
End Vector.
(** v2/score.rs:41-49 [severity]. *)
Definition rating2 (x : f64) : rating := if flt x lit_4 then RLow else if flt x lit_7 then RMedium else RHigh.
