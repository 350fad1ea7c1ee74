(** Independent specification of what a version requirement in an advisory denotes.
    Only semver precedence ([prec_cmp]: SemVer 2.0 item 11, build metadata ignored) is used. *)
From Coq Require Import List NArith Ascii String Bool.
From Verif Require Import Base SemverModel.
Import ListNotations.
Local Open Scope N_scope.

Definition prec_lt (a b : version) : Prop := prec_cmp a b = Lt.
Definition prec_le (a b : version) : Prop := prec_cmp a b <> Gt.
Definition prec_eq (a b : version) : Prop := prec_cmp a b = Eq.

(** The version written in a comparator, missing components read as 0. *)
Definition written (c : comparator) : version :=
  {| major := c_major c;
     minor := match c_minor c with Some m => m | None => 0 end;
     patch := match c_patch c with Some p => p | None => 0 end;
     pre := c_pre c; build := [] |}.

(** Versions in the same caret-compatibility class: the left-most non-zero written component and
    everything to its left is unchanged (and [^0], [^0.0] fix the written zeros). *)
Definition caret_compatible (c : comparator) (v : version) : Prop :=
  major v = c_major c /\
  (c_major c = 0 ->
     forall m, c_minor c = Some m ->
       minor v = m /\
       (m = 0 -> forall p, c_patch c = Some p -> patch v = p)).

(** Versions with the same written major and minor. *)
Definition tilde_compatible (c : comparator) (v : version) : Prop :=
  major v = c_major c /\ forall m, c_minor c = Some m -> minor v = m.

(** The interval a comparator denotes in an advisory. *)
Definition comparator_denotes (c : comparator) (v : version) : Prop :=
  match c_op c with
  | OpGreater => prec_lt (written c) v
  | OpGreaterEq => prec_le (written c) v
  | OpLess => prec_lt v (written c)
  | OpLessEq => prec_le v (written c)
  | OpExact => prec_eq v (written c)
  | OpCaret => prec_le (written c) v /\ caret_compatible c v
  | OpTilde => prec_le (written c) v /\ tilde_compatible c v
  | OpWildcard => False
  end.

Definition req_denotes (r : version_req) (v : version) : Prop :=
  forall c, In c r -> comparator_denotes c v.

(** [v] is declared safe by one of the requirements. *)
Definition declared_safe (reqs : list version_req) (v : version) : Prop :=
  exists r, In r reqs /\ req_denotes r v.

(** No component of any comparator is [u64::MAX] (needed only for builds without overflow checks). *)
Definition below_u64_max (reqs : list version_req) : Prop :=
  forall r c, In r reqs -> In c r ->
    c_major c < u64_max /\
    (forall m, c_minor c = Some m -> m < u64_max) /\
    (forall p, c_patch c = Some p -> p < u64_max).

(** Either overflow panics (debug profile) or it cannot happen. *)
Definition no_silent_overflow (checks : bool) (reqs : list version_req) : Prop :=
  checks = true \/ below_u64_max reqs.

Definition reqs_wf (reqs : list version_req) : Prop :=
  forall r, In r reqs -> req_wf r = true.

(** What a consumer of the OSV export relies on: ranges in increasing order, separated, each one
    with its start not after its end; only the first may start unbounded and only the last may be
    open-ended (both follow from the pairwise condition). *)
Definition osv_export_ok (bounds : list (option version * option version)) : Prop :=
  ForallOrdPairs (fun a b => exists f i, snd a = Some f /\ fst b = Some i /\ prec_le f i) bounds /\
  Forall (fun r => forall i f, fst r = Some i -> snd r = Some f -> prec_le i f) bounds.

(** [w] is the immediate successor of [v] in semver precedence. *)
Definition immediate_successor (v w : version) : Prop :=
  prec_lt v w /\
  forall x, version_wf x = true -> ~ (prec_lt v x /\ prec_lt x w).

(** Every comparator of the operator class [ops] is fully specified. *)
Definition fully_written (c : comparator) : Prop :=
  exists m p, c_minor c = Some m /\ c_patch c = Some p.

(** Comparators for which Cargo's matching and the advisory interval reading are meant to coincide:
    [=], [<=] and [>] must give major, minor and patch. *)
Definition unambiguous (c : comparator) : Prop :=
  c_op c = OpExact \/ c_op c = OpLessEq \/ c_op c = OpGreater -> fully_written c.
Definition unambiguous_reqs (reqs : list version_req) : Prop :=
  forall r c, In r reqs -> In c r -> unambiguous c.

(** Requirement shapes the conversion supports. *)
Definition lower_op (o : op) : bool := match o with OpGreater | OpGreaterEq => true | _ => false end.
Definition upper_op (o : op) : bool := match o with OpLess | OpLessEq => true | _ => false end.
Inductive supported_shape : version_req -> Prop :=
| shape_any : supported_shape []
| shape_one c : c_op c <> OpWildcard -> supported_shape [c]
| shape_lower_upper lo hi : lower_op (c_op lo) = true -> upper_op (c_op hi) = true ->
    lower_before_upper lo hi -> supported_shape [lo; hi]
| shape_upper_lower lo hi : lower_op (c_op lo) = true -> upper_op (c_op hi) = true ->
    lower_before_upper lo hi -> supported_shape [hi; lo]
with lower_before_upper : comparator -> comparator -> Prop :=
| lbu_strict lo hi : prec_lt (written lo) (written hi) -> lower_before_upper lo hi
| lbu_eq lo hi : c_op lo = OpGreaterEq -> c_op hi = OpLessEq ->
    prec_eq (written lo) (written hi) -> lower_before_upper lo hi.

(** Situations in which two ranges are adjacent or one of them is empty although their end points
    look crossed: a strict lower bound whose immediate successor is a strict upper bound. *)
Definition version_0_0_0_pre0 : version := mkVersion 0 0 0 ["0"%string] [].
Definition boundary_artifact (r1 r2 : version_req) : Prop :=
  (exists lo hi, In lo (r1 ++ r2) /\ In hi (r1 ++ r2) /\ c_op lo = OpGreater /\
     (c_op hi = OpLess /\ immediate_successor (written lo) (written hi) \/
      exists p, c_op hi = OpCaret /\ c_major hi = 0 /\ c_minor hi = Some 0 /\ c_patch hi = Some p /\
        prec_eq (written lo) (mkVersion 0 0 p [] []))) \/
  (exists hi, In hi (r1 ++ r2) /\ c_op hi = OpLess /\ prec_le (written hi) version_0_0_0_pre0).

(** A version covered by an exported OSV range list ([introduced <= v < fixed], unbounded when absent). *)
Definition in_range (r : option version * option version) (v : version) : Prop :=
  (forall i, fst r = Some i -> prec_le i v) /\ (forall f, snd r = Some f -> prec_lt v f).
Definition in_some_range (rs : list (option version * option version)) (v : version) : Prop :=
  exists r, In r rs /\ in_range r v.
