(** CVSS v3 base score: cvss/src/v3/{base,score}.rs and the files of v3/base/. *)
From Coq Require Import List NArith ZArith Ascii String Bool SpecFloat.
From Verif Require Import Base CvssText CvssFloat.
Import ListNotations.
Local Open Scope string_scope.

(** The literals of the source, as constants. *)
Definition lit_0 : f64 := dec 0 1.
Definition lit_0_02 : f64 := dec 2 100.
Definition lit_0_029 : f64 := dec 29 1000.
Definition lit_0_1 : f64 := dec 1 10.
Definition lit_0_20 : f64 := dec 20 100.
Definition lit_0_22 : f64 := dec 22 100.
Definition lit_0_27 : f64 := dec 27 100.
Definition lit_0_44 : f64 := dec 44 100.
Definition lit_0_50 : f64 := dec 50 100.
Definition lit_0_55 : f64 := dec 55 100.
Definition lit_0_56 : f64 := dec 56 100.
Definition lit_0_62 : f64 := dec 62 100.
Definition lit_0_68 : f64 := dec 68 100.
Definition lit_0_77 : f64 := dec 77 100.
Definition lit_0_85 : f64 := dec 85 100.
Definition lit_1_08 : f64 := dec 108 100.
Definition lit_3_25 : f64 := dec 325 100.
Definition lit_6_42 : f64 := dec 642 100.
Definition lit_7_52 : f64 := dec 752 100.
Definition lit_8_22 : f64 := dec 822 100.
Definition lit_1 : f64 := fint 1.
Definition lit_4 : f64 := fint 4.
Definition lit_7 : f64 := fint 7.
Definition lit_9 : f64 := fint 9.
Definition lit_10 : f64 := fint 10.
Definition lit_10000 : f64 := fint 10000.
Definition lit_100000 : f64 := fint 100000.

(** v3/base/av.rs:75-82 [score]. A value is represented by its token. *)
Definition av3 (x : string) : f64 :=
  match x with "P" => lit_0_20 | "L" => lit_0_55 | "A" => lit_0_62 | "N" => lit_0_85 | _ => S754_nan end.
(** v3/base/ac.rs:63-68. *)
Definition ac3 (x : string) : f64 := match x with "H" => lit_0_44 | "L" => lit_0_77 | _ => S754_nan end.
(** v3/base/pr.rs:42-61 [scoped_score]. *)
Definition pr3_score (changed : bool) (x : string) : f64 :=
  match x with
  | "H" => if changed then lit_0_50 else lit_0_27
  | "L" => if changed then lit_0_68 else lit_0_62
  | "N" => lit_0_85
  | _ => S754_nan
  end.
(** v3/base/ui.rs:37-42. *)
Definition ui3 (x : string) : f64 := match x with "R" => lit_0_62 | "N" => lit_0_85 | _ => S754_nan end.
(** v3/base/c.rs:48-54, i.rs:44-50, a.rs:62-68. *)
Definition cia3 (x : string) : f64 := match x with "N" => lit_0 | "L" => lit_0_22 | "H" => lit_0_56 | _ => S754_nan end.
(** [self.m.map(|m| m.score()).unwrap_or(0.0)]. *)
Definition score_or_0 (f : string -> f64) (x : option string) : f64 := match x with Some v => f v | None => lit_0 end.

Section Base.
  Context (v : slots).
  Let get := field sch3 v.
  (** v3/base.rs:204-206 and v3/base/s.rs:58-60. *)
  Definition scope_changed3 : bool := match get "S" with Some x => String.eqb x "C" | None => false end.
  (** v3/base.rs:133-142 [exploitability]. *)
  Definition exploitability3 : f64 :=
    let av := score_or_0 av3 (get "AV") in
    let ac := score_or_0 ac3 (get "AC") in
    let ui := score_or_0 ui3 (get "UI") in
    let pr := score_or_0 (pr3_score scope_changed3) (get "PR") in
    fmul (fmul (fmul (fmul lit_8_22 av) ac) pr) ui.
  (** v3/base.rs:157-162 [impact]. *)
  Definition impact3 : f64 :=
    let c := score_or_0 cia3 (get "C") in
    let i := score_or_0 cia3 (get "I") in
    let a := score_or_0 cia3 (get "A") in
    fsub lit_1 (fabs (fmul (fmul (fsub lit_1 c) (fsub lit_1 i)) (fsub lit_1 a))).
End Base.
(** v3/score.rs:28-37 [roundup]. *)
Definition roundup3 (x : f64) : f64 :=
  let n := as_u64 (fmul x lit_100000) in
  (if n mod 10000 =? 0 then fdiv (fint n) lit_100000
   else fdiv (fadd (ffloor (fdiv (fint n) lit_10000)) lit_1) lit_10)%Z.
(** v3/base.rs:106-112, the scoped impact; [pow] stands for [f64::powf] with
    exponent 15.0, whose precision Rust leaves to the platform. *)
Definition scoped3 (pow : f64 -> f64) (changed : bool) (iss : f64) : f64 :=
  if negb changed then fmul lit_6_42 iss
  else fsub (fmul lit_7_52 (fsub iss lit_0_029)) (fmul lit_3_25 (pow (fsub iss lit_0_02))).
(** v3/base.rs:114-123, the rest of [score]. *)
Definition combine3 (changed : bool) (exploitability scoped : f64) : f64 :=
  let score :=
    if fle scoped lit_0 then lit_0
    else if negb changed then fmin (fadd scoped exploitability) lit_10
    else fmin (fmul lit_1_08 (fadd scoped exploitability)) lit_10 in
  roundup3 score.
(** v3/base.rs:102-124 [score]. *)
Definition score3 (pow : f64 -> f64) (v : slots) : f64 :=
  combine3 (scope_changed3 v) (exploitability3 v) (scoped3 pow (scope_changed3 v) (impact3 v)).
(** severity.rs:25-40. *)
Inductive rating := RNone | RLow | RMedium | RHigh | RCritical.
(** v3/score.rs:40-53 [severity]. *)
Definition rating3 (x : f64) : rating :=
  if flt x lit_0_1 then RNone else if flt x lit_4 then RLow else if flt x lit_7 then RMedium
  else if flt x lit_9 then RHigh else RCritical.
