(** Model of rustsec's OSV range computation and of [advisory::Versions]:
    /repo/rustsec/src/osv/unaffected_range.rs, osv/ranges_for_advisory.rs, osv/range.rs,
    advisory/versions.rs. *)
From Coq Require Import List NArith Ascii String Bool.
From Verif Require Import Base SemverModel.
Import ListNotations.
Local Open Scope N_scope.

(** u64 [x + 1].  [checks = true] is a build with overflow checks (debug profile): panic;
    [checks = false] is a release build: wrap around.  (/repo/Cargo.toml sets no overflow-checks.) *)
Definition u64_succ (checks : bool) (x : N) : outcome N :=
  if x =? u64_max then (if checks then Panic else Ok 0) else Ok (x + 1).

(** osv/unaffected_range.rs:10-14 [enum Bound]. *)
Inductive bound := Unbounded | Exclusive (v : version) | Inclusive (v : version).

(** osv/unaffected_range.rs:18-24 [Bound::version]. *)
Definition bound_version (b : bound) : option version :=
  match b with Unbounded => None | Exclusive v => Some v | Inclusive v => Some v end.

(** osv/unaffected_range.rs:30-48 [Bound::less_or_equal]. *)
Definition less_or_equal (start end_ : bound) : bool :=
  match bound_version start, bound_version end_ with
  | None, _ => true
  | _, None => true
  | Some vs, Some ve =>
      if version_ltb vs ve then true
      else match start, end_ with
           | Inclusive a, Inclusive b => version_eqb a b
           | _, _ => false
           end
  end.

(** osv/unaffected_range.rs:57-60 [struct UnaffectedRange]. *)
Record urange := mkURange { u_start : bound; u_end : bound }.

(** osv/unaffected_range.rs:63-72 [UnaffectedRange::new]. *)
Definition urange_new (s e : bound) : outcome urange :=
  if less_or_equal s e then Ok (mkURange s e) else Err.

(** osv/unaffected_range.rs:82-85 [UnaffectedRange::overlaps]. *)
Definition overlaps (a b : urange) : bool :=
  less_or_equal (u_start a) (u_end b) && less_or_equal (u_start b) (u_end a).

(** osv/unaffected_range.rs:246-254 [comp_to_ver]. *)
Definition comp_to_ver (c : comparator) : version :=
  mkVersion (c_major c)
            (match c_minor c with Some m => m | None => 0 end)
            (match c_patch c with Some p => p | None => 0 end)
            (c_pre c) [].

(** [Version::new(a,b,c)] with [pre = "0"], lines 196-198 and 221-223. *)
Definition pre_zero (a b c : N) : version := mkVersion a b c ["0"%string] [].

Definition is_unbounded (b : bound) : bool :=
  match b with Unbounded => true | _ => false end.

(** osv/unaffected_range.rs:186-206, the end bound computed for [Op::Caret]. *)
Definition caret_end (checks : bool) (c : comparator) : outcome version :=
  if c_major c =? 0 then
    match c_minor c, c_patch c with
    | Some 0, Some p => let? p' := u64_succ checks p in Ok (pre_zero 0 0 p')
    | Some m, _ => let? m' := u64_succ checks m in Ok (pre_zero 0 m' 0)
    | None, None => Ok (pre_zero 1 0 0)
    | None, Some _ => Panic
    end
  else let? j := u64_succ checks (c_major c) in Ok (pre_zero j 0 0).

(** osv/unaffected_range.rs:215-228, the end bound computed for [Op::Tilde]. *)
Definition tilde_end (checks : bool) (c : comparator) : outcome version :=
  match c_minor c, c_patch c with
  | None, None => let? j := u64_succ checks (c_major c) in Ok (pre_zero j 0 0)
  | Some m, _ => let? m' := u64_succ checks m in Ok (pre_zero (c_major c) m' 0)
  | None, Some _ => Panic
  end.

(** One iteration of the loop at osv/unaffected_range.rs:126-239; [n] is
    [input.comparators.len()]. *)
Definition comp_step (checks : bool) (n : nat) (st : bound * bound) (c : comparator)
  : outcome (bound * bound) :=
  let (s, e) := st in
  match c_op c with
  | OpGreater =>
      if is_unbounded s then Ok (Exclusive (comp_to_ver c), e) else Err
  | OpGreaterEq =>
      if is_unbounded s then Ok (Inclusive (comp_to_ver c), e) else Err
  | OpLess =>
      if is_unbounded e then Ok (s, Exclusive (comp_to_ver c)) else Err
  | OpLessEq =>
      if is_unbounded e then Ok (s, Inclusive (comp_to_ver c)) else Err
  | OpExact =>
      if Nat.eqb n 1 then Ok (Inclusive (comp_to_ver c), Inclusive (comp_to_ver c)) else Err
  | OpCaret =>
      if Nat.eqb n 1 then
        let? ev := caret_end checks c in Ok (Inclusive (comp_to_ver c), Exclusive ev)
      else Err
  | OpTilde =>
      if Nat.eqb n 1 then
        let? ev := tilde_end checks c in Ok (Inclusive (comp_to_ver c), Exclusive ev)
      else Err
  | OpWildcard => Err
  end.

Fixpoint comp_loop (checks : bool) (n : nat) (st : bound * bound) (cs : list comparator)
  : outcome (bound * bound) :=
  match cs with
  | [] => Ok st
  | c :: r => let? st' := comp_step checks n st c in comp_loop checks n st' r
  end.

(** osv/unaffected_range.rs:112-242 [TryFrom<&VersionReq> for UnaffectedRange]. *)
Definition urange_of_req (checks : bool) (r : version_req) : outcome urange :=
  if Nat.ltb 2 (List.length r) then Err
  else let? st := comp_loop checks (List.length r) (Unbounded, Unbounded) r in
       urange_new (fst st) (snd st).

(** osv/range.rs:10-15 [struct OsvRange]. *)
Record osv_range := mkOsv { introduced : option version; fixed : option version }.

(** osv/range.rs:19-27 [OsvRange::affects]. *)
Definition affects (r : osv_range) (v : version) : bool :=
  match introduced r with None => true | Some s => version_leb s v end &&
  match fixed r with None => true | Some e => version_ltb v e end.

(** osv/ranges_for_advisory.rs:140-163 [increment]. *)
Definition increment (checks : bool) (v : version) : outcome version :=
  match pre v with
  | [] => let? p := u64_succ checks (patch v) in
          Ok (mkVersion (major v) (minor v) p ["0"%string] [])
  | _ => Ok (mkVersion (major v) (minor v) (patch v) (pre v ++ ["0"%string]) [])
  end.

(** osv/ranges_for_advisory.rs:60-69: does any pair (i < j) overlap? *)
Fixpoint any_overlap (l : list urange) : bool :=
  match l with
  | [] => false
  | a :: r => existsb (overlaps a) r || any_overlap r
  end.

(** The sort comparator, osv/ranges_for_advisory.rs:75-84.  [None] is the failed [assert!]. *)
Definition sort_cmp (a b : urange) : option comparison :=
  match bound_version (u_start a), bound_version (u_start b) with
  | None, _ => Some Lt
  | _, None => Some Gt
  | Some v1, Some v2 => if version_eqb v1 v2 then None else Some (version_cmp v1 v2)
  end.

(** [sort_unstable_by]: modelled by insertion sort.  std's algorithm is not modelled; with
    pairwise different keys every comparison sort returns the same list (proved:
    [OsvProofs.sorted_perm_unique]), and with two equal keys every comparison sort has to compare two
    equal neighbours of the sorted order, which fails the assertion. *)
Fixpoint sort_insert (x : urange) (l : list urange) : outcome (list urange) :=
  match l with
  | [] => Ok [x]
  | y :: r =>
      match sort_cmp x y with
      | None => Panic
      | Some Gt => let? r' := sort_insert x r in Ok (y :: r')
      | Some _ => Ok (x :: y :: r)
      end
  end.
Fixpoint sort_ranges (l : list urange) : outcome (list urange) :=
  match l with
  | [] => Ok []
  | x :: r => let? r' := sort_ranges r in sort_insert x r'
  end.

(** osv/ranges_for_advisory.rs:89-99. *)
Definition first_range (checks : bool) (r : urange) : outcome (list osv_range) :=
  match u_start r with
  | Unbounded => Ok []
  | Exclusive v => let? i := increment checks v in Ok [mkOsv None (Some i)]
  | Inclusive v => Ok [mkOsv None (Some v)]
  end.

(** osv/ranges_for_advisory.rs:121-131. *)
Definition last_range (checks : bool) (r : urange) : outcome (list osv_range) :=
  match u_end r with
  | Unbounded => Ok []
  | Exclusive v => Ok [mkOsv (Some v) None]
  | Inclusive v => let? i := increment checks v in Ok [mkOsv (Some i) None]
  end.

(** osv/ranges_for_advisory.rs:103-117, body of the [windows(2)] loop. *)
Definition gap_range (checks : bool) (r0 r1 : urange) : outcome osv_range :=
  let? s := match u_end r0 with
            | Unbounded => Panic
            | Exclusive v => Ok v
            | Inclusive v => increment checks v
            end in
  let? e := match u_start r1 with
            | Unbounded => Panic
            | Exclusive v => increment checks v
            | Inclusive v => Ok v
            end in
  Ok (mkOsv (Some s) (Some e)).

(** osv/ranges_for_advisory.rs:102-131: remaining windows, then the last end bound. *)
Fixpoint gaps (checks : bool) (r : urange) (l : list urange) : outcome (list osv_range) :=
  match l with
  | [] => last_range checks r
  | r1 :: l' =>
      let? g := gap_range checks r r1 in
      let? gs := gaps checks r1 l' in
      Ok (g :: gs)
  end.

(** osv/ranges_for_advisory.rs:36-134 [unaffected_to_osv_ranges]. *)
Definition ranges_of_uranges (checks : bool) (us : list urange) : outcome (list osv_range) :=
  match us with
  | [] => Ok [mkOsv None None]
  | _ =>
      if any_overlap us then Err else
      let? sorted := sort_ranges us in
      match sorted with
      | [] => Panic
      | r :: l =>
          let? f := first_range checks r in
          let? gs := gaps checks r l in
          Ok (f ++ gs)
      end
  end.
Definition unaffected_to_osv_ranges (checks : bool) (unaffected patched : list version_req)
  : outcome (list osv_range) :=
  let? us := omap (urange_of_req checks) unaffected in
  let? ps := omap (urange_of_req checks) patched in
  ranges_of_uranges checks (us ++ ps).

(** advisory/versions.rs:11-18 [struct Versions]. *)
Record versions := mkVersions { patched : list version_req; unaffected : list version_req }.

(** advisory/versions.rs:33-39, 52-62, 73-76 [Versions::new] / [TryFrom<RawVersions>]. *)
Definition versions_new (checks : bool) (p u : list version_req) : outcome versions :=
  let? _ := unaffected_to_osv_ranges checks u p in Ok (mkVersions p u).

(** osv/ranges_for_advisory.rs:18-20 [ranges_for_advisory] ([unwrap]). *)
Definition ranges_for_advisory (checks : bool) (vs : versions) : outcome (list osv_range) :=
  match unaffected_to_osv_ranges checks (unaffected vs) (patched vs) with
  | Ok r => Ok r
  | _ => Panic
  end.

(** advisory/versions.rs:22-29 [Versions::is_vulnerable]. *)
Definition is_vulnerable (checks : bool) (vs : versions) (v : version) : outcome bool :=
  let? rs := ranges_for_advisory checks vs in
  Ok (existsb (fun r => affects r v) rs).
