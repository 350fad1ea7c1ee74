(** Text form of CVSS vectors: cvss/src/{cvss,severity}.rs, v2/vector.rs,
    v3/base.rs, v4/vector.rs and the metric enumerations.

    Representation. A metric value (one variant of a Rust enum) is represented
    by the token its [FromStr] accepts, and a vector (a Rust struct of
    [Option<Enum>] fields) by one [option] slot per field, in the order in which
    [Display] writes the fields. The derived [PartialEq] of the structs compares
    field by field, which is equality of slots. The error payloads
    ([Error::InvalidComponent] and so on) are dropped: all errors are [Err]. *)
From Coq Require Import List NArith Ascii String Bool Arith.
From Verif Require Import Base StrLib.
Import ListNotations.
Local Open Scope string_scope.
Local Infix "++" := String.append (right associativity, at level 60).

(** Metric name, then for each variant the token accepted by [FromStr] and the
    text written by [Display] ([as_str]). *)
Definition schema := list (string * list (string * string)).
Definition slots := list (option string).
Definition same (l : list string) : list (string * string) := map (fun x => (x, x)) l.

(** [char::to_ascii_uppercase], [str::to_ascii_uppercase] (standard library). *)
Definition upper_char (a : ascii) : ascii :=
  let n := N_of_ascii a in if (97 <=? n)%N && (n <=? 122)%N then ascii_of_N (n - 32) else a.
Fixpoint to_upper (s : string) : string :=
  match s with EmptyString => EmptyString | String a r => String (upper_char a) (to_upper r) end.

(** The [FromStr] of a metric's enumeration, e.g. v3/base/av.rs:100-115: the
    [match] on the token. *)
Definition value_of (toks : list (string * string)) (s : string) : outcome string :=
  if existsb (fun p => String.eqb s (fst p)) toks then Ok s else Err.
(** [as_str], e.g. v3/base/av.rs:84-91. *)
Fixpoint printed (toks : list (string * string)) (x : string) : string :=
  match toks with
  | [] => x
  | (t, p) :: r => if String.eqb x t then p else printed r x
  end.

(** The closure splitting one component, v2/vector.rs:314-332,
    v3/base.rs:235-253, v4/vector.rs:308-326. *)
Definition component (c : string) : outcome (string * string) :=
  match split_on ":" c with
  | [id; value] => Ok (id, value)
  | _ => Err
  end.
(** v2/vector.rs:312-333, v3/base.rs:233-254, v4/vector.rs:306-327. *)
Definition components (s : string) : outcome (list (string * string)) :=
  omap component (split_on "/" s).

(** One iteration of the [for] loop: parse the metric type, pick its field,
    [get_value] (v2/vector.rs:338-376, v3/base.rs:280-307,
    v4/vector.rs:352-402). *)
Fixpoint set_metric (sch : schema) (v : slots) (id value : string) : outcome slots :=
  match sch, v with
  | (n, toks) :: sch', cur :: v' =>
      if String.eqb id n then
        let? x := value_of toks value in
        match cur with Some _ => Err | None => Ok (Some x :: v') end
      else let? r := set_metric sch' v' id value in Ok (cur :: r)
  | _, _ => Err
  end.
(** The whole loop; [up] is [to_ascii_uppercase] for v3 and v4 and absent for v2. *)
Fixpoint set_all (sch : schema) (up : string -> string) (v : slots) (cs : list (string * string)) : outcome slots :=
  match cs with
  | [] => Ok v
  | (id, value) :: r => let? v' := set_metric sch v (up id) (up value) in set_all sch up v' r
  end.
(** [Default::default()]: every field [None]. *)
Definition empty (sch : schema) : slots := map (fun _ => None) sch.

(** The fields as written by the [Display] of each set metric ([NAME:VALUE],
    e.g. v3/base/av.rs:94-98), in field order. *)
Fixpoint written (sch : schema) (v : slots) : list string :=
  match sch, v with
  | (n, toks) :: sch', cur :: v' =>
      match cur with
      | Some x => (n ++ ":" ++ printed toks x) :: written sch' v'
      | None => written sch' v'
      end
  | _, _ => []
  end.
(** [write!(f, "/{}", metric)] for each, v3/base.rs:209-217, v4/vector.rs:279-287. *)
Fixpoint slashed (l : list string) : string :=
  match l with [] => "" | x :: r => "/" ++ x ++ slashed r end.

(** Reading the field of a metric. *)
Fixpoint field (sch : schema) (v : slots) (name : string) : option string :=
  match sch, v with
  | (n, _) :: sch', cur :: v' => if String.eqb name n then cur else field sch' v' name
  | _, _ => None
  end.
Definition is_set (sch : schema) (v : slots) (name : string) : bool :=
  match field sch v name with Some _ => true | None => false end.

(** ** Version 3 *)
(** v3/base.rs:54-82 field order of v3/base.rs:219-227; tokens from
    v3/base/{av,ac,pr,ui,s,c,i,a}.rs [FromStr]. *)
Definition sch3 : schema :=
  [("AV", same ["P"; "L"; "A"; "N"]);
   ("AC", same ["H"; "L"]);
   ("PR", same ["H"; "L"; "N"]);
   ("UI", same ["R"; "N"]);
   ("S", same ["U"; "C"]);
   ("C", same ["N"; "L"; "H"]);
   ("I", same ["N"; "L"; "H"]);
   ("A", same ["N"; "L"; "H"])].
Record base3 := mk3 { minor3 : N; slots3 : slots }.
(** v3/base.rs:232-310 [Base::from_str]. *)
Definition parse3 (s : string) : outcome base3 :=
  let? cs := components s in
  match cs with
  | [] => Err
  | (id, version) :: r =>
      if negb (String.eqb id "CVSS") then Err else
      let? m := (if String.eqb version "3.0" then Ok 0%N
                 else if String.eqb version "3.1" then Ok 1%N else Err) in
      let? v := set_all sch3 to_upper (empty sch3) r in
      Ok (mk3 m v)
  end.
(** v3/base.rs:219-227 [Display]. *)
Definition print3 (b : base3) : string :=
  "CVSS:3." ++ print_dec (minor3 b) ++ slashed (written sch3 (slots3 b)).

(** ** Version 2 *)
(** Field order of v2/vector.rs:298-306; tokens from
    v2/metric/{base,temporal,environmental}/ [FromStr]. *)
Definition sch2 : schema :=
  [("AV", same ["L"; "A"; "N"]);
   ("AC", same ["H"; "M"; "L"]);
   ("Au", same ["M"; "S"; "N"]);
   ("C", same ["N"; "P"; "C"]);
   ("I", same ["N"; "P"; "C"]);
   ("A", same ["N"; "P"; "C"]);
   ("E", same ["U"; "POC"; "F"; "H"; "ND"]);
   ("RL", same ["OF"; "TF"; "W"; "U"; "ND"]);
   ("RC", same ["UC"; "UR"; "C"; "ND"]);
   ("CDP", same ["N"; "L"; "LM"; "MH"; "H"; "ND"]);
   ("TD", same ["N"; "L"; "M"; "H"; "ND"]);
   ("CR", same ["L"; "M"; "H"; "ND"]);
   ("IR", same ["L"; "M"; "H"; "ND"]);
   ("AR", same ["L"; "M"; "H"; "ND"])].
(** v2/vector.rs:264-279 [check_mandatory_metrics]. *)
Definition mandatory2 : list string := ["AV"; "AC"; "Au"; "C"; "I"; "A"].
Definition check2 (v : slots) : bool := forallb (is_set sch2 v) mandatory2.
(** v2/vector.rs:311-381 [Vector::from_str]. *)
Definition parse2 (s : string) : outcome slots :=
  let? cs := components s in
  let? v := set_all sch2 (fun x => x) (empty sch2) cs in
  if check2 v then Ok v else Err.
(** v2/vector.rs:282-306 [Display]. *)
Definition print2 (v : slots) : string := join_on "/" (written sch2 v).

(** ** Version 4 *)
(** Field order of v4/vector.rs:289-300; tokens from the files of v4/metric/. *)
Definition sch4 : schema :=
  [("AV", same ["N"; "A"; "L"; "P"]);
   ("AC", same ["H"; "L"]);
   ("AT", same ["P"; "N"]);
   ("PR", same ["N"; "L"; "H"]);
   ("UI", same ["N"; "P"; "A"]);
   ("VC", same ["N"; "L"; "H"]);
   ("VI", same ["N"; "L"; "H"]);
   ("VA", same ["N"; "L"; "H"]);
   ("SC", same ["N"; "L"; "H"]);
   ("SI", same ["N"; "L"; "H"]);
   ("SA", same ["N"; "L"; "H"]);
   ("E", same ["X"; "A"; "P"; "U"]);
   ("CR", same ["X"; "L"; "M"; "H"]);
   ("IR", same ["X"; "L"; "M"; "H"]);
   ("AR", same ["X"; "L"; "M"; "H"]);
   ("MAV", same ["X"; "N"; "A"; "L"; "P"]);
   ("MAC", same ["X"; "H"; "L"]);
   ("MAT", same ["X"; "P"; "N"]);
   ("MPR", same ["X"; "N"; "L"; "H"]);
   ("MUI", same ["X"; "N"; "P"; "A"]);
   ("MVC", same ["X"; "N"; "L"; "H"]);
   ("MVI", same ["X"; "N"; "L"; "H"]);
   ("MVA", same ["X"; "N"; "L"; "H"]);
   ("MSC", same ["X"; "N"; "L"; "H"]);
   ("MSI", same ["X"; "N"; "L"; "H"; "S"]);
   ("MSA", same ["X"; "N"; "L"; "H"; "S"]);
   ("S", same ["X"; "P"; "N"]);
   ("AU", same ["X"; "Y"; "N"]);
   ("R", same ["X"; "A"; "U"; "I"]);
   ("V", same ["X"; "D"; "C"]);
   ("RE", same ["X"; "L"; "M"; "H"]);
   (* supplemental/u.rs: the tokens are matched in upper case and written capitalised *)
   ("U", [("X", "X"); ("RED", "Red"); ("AMBER", "Amber"); ("GREEN", "Green"); ("CLEAR", "Clear")])].
(** v4/vector.rs:256-276 [check_mandatory_metrics]. *)
Definition mandatory4 : list string := ["AC"; "AT"; "AV"; "PR"; "SA"; "SC"; "SI"; "UI"; "VA"; "VC"; "VI"].
Definition check4 (v : slots) : bool := forallb (is_set sch4 v) mandatory4.
(** v4/vector.rs:305-407 [Vector::from_str]. [minor_version] is always 0 and is
    left out of the representation. *)
Definition parse4 (s : string) : outcome slots :=
  let? cs := components s in
  match cs with
  | [] => Err
  | (id, version) :: r =>
      if negb (String.eqb id "CVSS") then Err else
      if negb (String.eqb version "4.0") then Err else
      let? v := set_all sch4 to_upper (empty sch4) r in
      if check4 v then Ok v else Err
  end.
(** v4/vector.rs:289-300 [Display], with [minor_version] 0. *)
Definition print4 (v : slots) : string := "CVSS:4.0" ++ slashed (written sch4 v).

(** ** Any version: cvss.rs *)
Inductive cvss := CvssV20 (v : slots) | CvssV30 (b : base3) | CvssV31 (b : base3) | CvssV40 (v : slots).
(** cvss.rs:122-156 [Cvss::from_str], with the features v2, v3 and v4 on. *)
Definition cvss_parse (s : string) : outcome cvss :=
  match split_once "/" s with
  | None => Err
  | Some (id, _) =>
      match split_once ":" id with
      | None => Err
      | Some (prefix, version) =>
          match split_once "." version with
          | None => let? v := parse2 s in Ok (CvssV20 v)
          | Some (major, minor) =>
              if String.eqb prefix "CVSS" && String.eqb major "3" && String.eqb minor "0" then let? b := parse3 s in Ok (CvssV30 b)
              else if String.eqb prefix "CVSS" && String.eqb major "3" && String.eqb minor "1" then let? b := parse3 s in Ok (CvssV31 b)
              else if String.eqb prefix "CVSS" && String.eqb major "4" && String.eqb minor "0" then let? v := parse4 s in Ok (CvssV40 v)
              else Err
          end
      end
  end.
(** cvss.rs:159-174 [Display]. *)
Definition cvss_print (c : cvss) : string :=
  match c with CvssV20 v => print2 v | CvssV30 b => print3 b | CvssV31 b => print3 b | CvssV40 v => print4 v end.
