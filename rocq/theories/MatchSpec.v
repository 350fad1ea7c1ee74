(** Specification vocabulary: what a version requirement selects, by the tables of the documentation of [semver::Op] (the Cargo book,
    "Specifying dependencies") and the rule for pre-releases. *)
From Coq Require Import List NArith ZArith Ascii String Bool Arith.
From Verif Require Import Base SemverModel.
Import ListNotations.
Local Open Scope N_scope.

(** The order of versions: the three numbers, then the pre-release; what follows a [+] plays no role. *)
Definition numbers_before (v w : version) : Prop :=
  major v < major w \/ major v = major w /\ (minor v < minor w \/ minor v = minor w /\ patch v < patch w).
Definition same_numbers (v w : version) : Prop := major v = major w /\ minor v = minor w /\ patch v = patch w.
Definition before (v w : version) : Prop := numbers_before v w \/ same_numbers v w /\ pre_cmp (pre v) (pre w) = Lt.
Definition same (v w : version) : Prop := same_numbers v w /\ pre v = pre w.
(** [v] is [w] or later. *)
Definition from_on (w v : version) : Prop := before w v \/ same w v.
Definition release (i j k : N) : version := mkVersion i j k [] [].
(** The least version with these numbers. *)
Definition least (i j k : N) : version := mkVersion i j k ["0"%string] [].

(** The version a comparator is written with, missing numbers being 0. *)
Definition bound (c : comparator) : version :=
  mkVersion (c_major c) (match c_minor c with Some j => j | None => 0 end) (match c_patch c with Some k => k | None => 0 end) (c_pre c) [].
(** The numbers after all that begin like the comparator: [1] and [1.2] end at 2.0.0 and 1.3.0. *)
Definition past (make : N -> N -> N -> version) (c : comparator) : version :=
  match c_minor c with None => make (c_major c + 1) 0 0 | Some j => make (c_major c) (j + 1) 0 end.
(** Where compatibility ends: the first number that is not 0 goes up, or the last one written. *)
Definition incompatible (make : N -> N -> N -> version) (c : comparator) : version :=
  match c_minor c, c_patch c with
  | None, _ => make (c_major c + 1) 0 0
  | Some j, None => if c_major c =? 0 then make 0 (j + 1) 0 else make (c_major c + 1) 0 0
  | Some j, Some k => if c_major c =? 0 then if j =? 0 then make 0 0 (k + 1) else make 0 (j + 1) 0 else make (c_major c + 1) 0 0
  end.
(** What a comparator says of a release. *)
Definition selects (c : comparator) (v : version) : Prop :=
  match c_op c, c_patch c with
  | OpExact, Some _ | OpWildcard, Some _ => same (bound c) v
  | OpExact, None | OpWildcard, None => from_on (bound c) v /\ before v (past release c)
  | OpGreater, Some _ => before (bound c) v
  | OpGreater, None => from_on (past release c) v
  | OpGreaterEq, _ => from_on (bound c) v
  | OpLess, _ => before v (bound c)
  | OpLessEq, Some _ => from_on v (bound c)
  | OpLessEq, None => before v (past release c)
  | OpTilde, _ => from_on (bound c) v /\ before v (past release c)
  | OpCaret, _ => from_on (bound c) v /\ before v (incompatible release c)
  end.
(** What it says of a pre-release that some comparator of the requirement names the numbers of.  With all three numbers it is the
    same, except that the versions at the upper end of [~] and [^] begin with its first pre-release.  With fewer numbers, [=],
    [~] and [*] select none, and for the others pre-releases lie before all releases they belong to. *)
Definition selects_pre (c : comparator) (v : version) : Prop :=
  match c_op c, c_patch c with
  | OpExact, Some _ | OpWildcard, Some _ => same (bound c) v
  | OpExact, None | OpWildcard, None | OpTilde, None => False
  | OpGreater, Some _ => before (bound c) v
  | OpGreaterEq, Some _ => from_on (bound c) v
  | OpGreater, None | OpGreaterEq, None => from_on (past least c) v
  | OpLess, Some _ => before v (bound c)
  | OpLessEq, Some _ => from_on v (bound c)
  | OpLess, None | OpLessEq, None => before v (least (major (bound c)) (minor (bound c)) (patch (bound c)))
  | OpTilde, Some _ => from_on (bound c) v /\ before v (past least c)
  | OpCaret, Some _ => from_on (bound c) v /\ before v (incompatible least c)
  | OpCaret, None => from_on (least (major (bound c)) (minor (bound c)) (patch (bound c))) v /\ before v (incompatible least c)
  end.
(** A comparator that names a pre-release of the version's numbers. *)
Definition names_numbers (c : comparator) (v : version) : Prop :=
  c_pre c <> [] /\ c_major c = major v /\ c_minor c = Some (minor v) /\ c_patch c = Some (patch v).
(** The versions a requirement, the comparators of which all have to agree, selects. *)
Definition meets (r : version_req) (v : version) : Prop :=
  (pre v = [] /\ forall c, In c r -> selects c v) \/
  (pre v <> [] /\ (exists c, In c r /\ names_numbers c v) /\ forall c, In c r -> selects_pre c v).
