(** Model of the parts of the external crate [semver] (1.0.x, /repo/Cargo.toml:39) that rustsec uses:
    [Version], its derived order, [Comparator], [VersionReq::matches].
    The crate's source is not in /repo; this file is therefore part of the trusted base (DESIGN.md).
    Simplification: a pre-release or build string is represented by its list of dot-separated
    identifiers; the empty string is the empty list. *)
From Coq Require Import List NArith Ascii String Bool Lia.
From Verif Require Import Base.
Import ListNotations.
Local Open Scope N_scope.

(** [semver::Version] (u64 fields are unbounded [N] here; see [version_wf]). *)
Record version := mkVersion {
  major : N; minor : N; patch : N;
  pre : list string;
  build : list string
}.

Definition u64_max : N := 18446744073709551615.

Definition is_digit (a : ascii) : bool :=
  let n := N_of_ascii a in (48 <=? n) && (n <=? 57).
Fixpoint str_forallb (p : ascii -> bool) (s : string) : bool :=
  match s with EmptyString => true | String a r => p a && str_forallb p r end.
Definition all_digits (s : string) : bool := str_forallb is_digit s.

(** Order on one pre-release identifier (semver/src/impls.rs, [impl Ord for Prerelease]). *)
Definition ident_cmp (a b : string) : comparison :=
  match all_digits a, all_digits b with
  | false, true => Gt
  | true, false => Lt
  | false, false => str_cmp a b
  | true, true => then_cmp (Nat.compare (String.length a) (String.length b)) (str_cmp a b)
  end.

(** [impl Ord for Prerelease]: a release is greater than any pre-release. *)
Definition pre_cmp (a b : list string) : comparison :=
  match a, b with
  | [], [] => Eq
  | [], _ => Gt
  | _, [] => Lt
  | _, _ => list_cmp ident_cmp a b
  end.

Fixpoint trim0 (s : string) : string :=
  match s with
  | String a r => if Ascii.eqb a "0"%char then trim0 r else s
  | EmptyString => EmptyString
  end.

(** Order on one build identifier ([impl Ord for BuildMetadata]). *)
Definition build_ident_cmp (a b : string) : comparison :=
  match all_digits a, all_digits b with
  | false, true => Gt
  | true, false => Lt
  | false, false => str_cmp a b
  | true, true =>
      then_cmp (Nat.compare (String.length (trim0 a)) (String.length (trim0 b)))
        (then_cmp (str_cmp (trim0 a) (trim0 b))
           (Nat.compare (String.length a) (String.length b)))
  end.
Definition build_cmp (a b : list string) : comparison := list_cmp build_ident_cmp a b.

(** Precedence order of the SemVer specification: ignores build metadata. *)
Definition prec_cmp (a b : version) : comparison :=
  then_cmp (N.compare (major a) (major b))
    (then_cmp (N.compare (minor a) (minor b))
       (then_cmp (N.compare (patch a) (patch b))
          (pre_cmp (pre a) (pre b)))).

(** [#[derive(Ord)] Version]: lexicographic, build metadata last. *)
Definition version_cmp (a b : version) : comparison :=
  then_cmp (prec_cmp a b) (build_cmp (build a) (build b)).

Definition version_ltb (a b : version) : bool :=
  match version_cmp a b with Lt => true | _ => false end.
Definition version_leb (a b : version) : bool :=
  match version_cmp a b with Gt => false | _ => true end.
Definition version_eqb (a b : version) : bool :=
  match version_cmp a b with Eq => true | _ => false end.

(** Valid identifiers: non-empty, and no leading zero when numeric and longer than one digit
    (what [Prerelease::new]/[Version::parse] guarantee). *)
Definition is_ident_char (a : ascii) : bool :=
  let n := N_of_ascii a in
  is_digit a || ((65 <=? n) && (n <=? 90)) || ((97 <=? n) && (n <=? 122)) || (n =? 45).
Definition ident_wf (s : string) : bool :=
  negb (String.eqb s "") && str_forallb is_ident_char s &&
  (negb (all_digits s) || (Nat.eqb (String.length s) 1)
   || match s with String a _ => negb (Ascii.eqb a "0"%char) | _ => false end).
Definition build_ident_wf (s : string) : bool :=
  negb (String.eqb s "") && str_forallb is_ident_char s.
Definition version_wf (v : version) : bool :=
  (major v <=? u64_max) && (minor v <=? u64_max) && (patch v <=? u64_max) &&
  forallb ident_wf (pre v) && forallb build_ident_wf (build v).

(** [semver::Op]. *)
Inductive op := OpExact | OpGreater | OpGreaterEq | OpLess | OpLessEq | OpTilde | OpCaret | OpWildcard.

(** [semver::Comparator]. *)
Record comparator := mkComparator {
  c_op : op;
  c_major : N; c_minor : option N; c_patch : option N;
  c_pre : list string
}.
(** [semver::VersionReq]. *)
Definition version_req := list comparator.

(** What the [semver] parser guarantees of a comparator: components are given from the left, a
    pre-release only with a full version, u64 range, valid identifiers. *)
Definition comparator_wf (c : comparator) : bool :=
  (c_major c <=? u64_max) &&
  match c_minor c with Some m => m <=? u64_max | None => true end &&
  match c_patch c with Some p => p <=? u64_max | None => true end &&
  match c_minor c, c_patch c with None, Some _ => false | _, _ => true end &&
  match c_patch c, c_pre c with None, _ :: _ => false | _, _ => true end &&
  forallb ident_wf (c_pre c).
Definition req_wf (r : version_req) : bool := forallb comparator_wf r.

Definition pre_eqb (a b : list string) : bool :=
  match pre_cmp a b with Eq => true | _ => false end.
Definition pre_gtb (a b : list string) : bool :=
  match pre_cmp a b with Gt => true | _ => false end.
Definition pre_ltb (a b : list string) : bool :=
  match pre_cmp a b with Lt => true | _ => false end.
Definition pre_geb (a b : list string) : bool :=
  match pre_cmp a b with Lt => false | _ => true end.

(** semver/src/eval.rs [matches_exact]. *)
Definition matches_exact (c : comparator) (v : version) : bool :=
  (major v =? c_major c) &&
  match c_minor c with Some m => minor v =? m | None => true end &&
  match c_patch c with Some p => patch v =? p | None => true end &&
  pre_eqb (pre v) (c_pre c).

(** [matches_greater]. *)
Definition matches_greater (c : comparator) (v : version) : bool :=
  if negb (major v =? c_major c) then c_major c <? major v else
  match c_minor c with
  | None => false
  | Some m =>
      if negb (minor v =? m) then m <? minor v else
      match c_patch c with
      | None => false
      | Some p => if negb (patch v =? p) then p <? patch v else pre_gtb (pre v) (c_pre c)
      end
  end.

(** [matches_less]. *)
Definition matches_less (c : comparator) (v : version) : bool :=
  if negb (major v =? c_major c) then major v <? c_major c else
  match c_minor c with
  | None => false
  | Some m =>
      if negb (minor v =? m) then minor v <? m else
      match c_patch c with
      | None => false
      | Some p => if negb (patch v =? p) then patch v <? p else pre_ltb (pre v) (c_pre c)
      end
  end.

(** [matches_tilde]. *)
Definition matches_tilde (c : comparator) (v : version) : bool :=
  if negb (major v =? c_major c) then false else
  if match c_minor c with Some m => negb (minor v =? m) | None => false end then false else
  match c_patch c with
  | Some p => if negb (patch v =? p) then p <? patch v else pre_geb (pre v) (c_pre c)
  | None => pre_geb (pre v) (c_pre c)
  end.

(** [matches_caret]. *)
Definition matches_caret (c : comparator) (v : version) : bool :=
  if negb (major v =? c_major c) then false else
  match c_minor c with
  | None => true
  | Some m =>
      match c_patch c with
      | None => if 0 <? c_major c then m <=? minor v else minor v =? m
      | Some p =>
          if 0 <? c_major c then
            if negb (minor v =? m) then m <? minor v
            else if negb (patch v =? p) then p <? patch v
            else pre_geb (pre v) (c_pre c)
          else if 0 <? m then
            if negb (minor v =? m) then false
            else if negb (patch v =? p) then p <? patch v
            else pre_geb (pre v) (c_pre c)
          else if negb (minor v =? m) || negb (patch v =? p) then false
          else pre_geb (pre v) (c_pre c)
      end
  end.

(** [matches_impl]. *)
Definition matches_impl (c : comparator) (v : version) : bool :=
  match c_op c with
  | OpExact | OpWildcard => matches_exact c v
  | OpGreater => matches_greater c v
  | OpGreaterEq => matches_exact c v || matches_greater c v
  | OpLess => matches_less c v
  | OpLessEq => matches_exact c v || matches_less c v
  | OpTilde => matches_tilde c v
  | OpCaret => matches_caret c v
  end.

(** [pre_is_compatible]. *)
Definition pre_is_compatible (c : comparator) (v : version) : bool :=
  (c_major c =? major v) &&
  match c_minor c with Some m => m =? minor v | None => false end &&
  match c_patch c with Some p => p =? patch v | None => false end &&
  match c_pre c with [] => false | _ => true end.

(** [VersionReq::matches] ([matches_req]). *)
Definition req_matches (r : version_req) (v : version) : bool :=
  forallb (fun c => matches_impl c v) r &&
  match pre v with
  | [] => true
  | _ => existsb (fun c => pre_is_compatible c v) r
  end.
