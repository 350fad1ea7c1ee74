(** Affected functions, symbols and embedded dependency data:
    /repo/rustsec/src/advisory/affected.rs, /repo/rustsec/src/vulnerability.rs,
    /repo/cargo-audit/src/binary_scanning.rs, /repo/rustsec/src/binary_scanning/binary_deps.rs,
    /repo/quitters/src/lib.rs. *)
From Coq Require Import List NArith Ascii String Bool Arith.
From Verif Require Import Base StrLib SemverModel VerText PkgModel DbModel UrlModel LockModel AuditModel.
Import ListNotations.
Local Open Scope string_scope.
Local Infix "++" := String.append (right associativity, at level 60).

(** ** Function paths *)
Definition in_range (lo hi : N) (a : ascii) : bool := (N.leb lo (N_of_ascii a) && N.leb (N_of_ascii a) hi)%bool.
Definition is_letter (a : ascii) : bool := in_range 65 90 a || in_range 97 122 a.
(** affected.rs:151-187 [validate_identifier].  Non-ASCII characters are refused, so bytes are enough. *)
Definition ident_first (a : ascii) : bool := is_letter a || Ascii.eqb a "_" || Ascii.eqb a "<".
Definition ident_rest (a : ascii) : bool :=
  is_letter a || in_range 48 57 a || Ascii.eqb a "_" || Ascii.eqb a "<" || Ascii.eqb a ">" || Ascii.eqb a ",".
Definition validate_identifier (s : string) : outcome unit :=
  match s with
  | EmptyString => Err
  | String a r => if ident_first a then (if str_forall ident_rest r then Ok tt else Err) else Err
  end.
(** affected.rs:140-148 [FromStr for Identifier]. *)
Definition identifier_from_str (s : string) : outcome string := let? _ := validate_identifier s in Ok s.
(** [str::split("::")]. *)
Fixpoint split_colons (s : string) : list string :=
  match s with
  | EmptyString => [""]
  | String a r =>
      match a, r with
      | ":"%char, String ":" r' => "" :: split_colons r'
      | _, _ => match split_colons r with h :: t => String a h :: t | [] => [String a ""] end
      end
  end.
(** affected.rs:85-106 [FromStr for FunctionPath]. *)
Definition path_from_str (s : string) : outcome (list string) :=
  let? segs := omap identifier_from_str (split_colons s) in
  if Nat.leb 2 (List.length segs) then Ok segs else Err.
(** affected.rs:69-83 [Display for FunctionPath]; [expect] is the [Panic] case. *)
Fixpoint path_tail (l : list string) : string := match l with [] => "" | s :: r => "::" ++ s ++ path_tail r end.
Definition path_string (p : list string) : outcome string :=
  match p with [] => Panic | s :: r => Ok (s ++ path_tail r) end.

(** vulnerability.rs:38-56 [affected_functions]. *)
Definition affected_functions (v : vulnerability) : option (list (list string)) :=
  match a_affected (v_advisory v) with
  | None => None
  | Some af =>
      match af_functions af with
      | [] => None
      | fs => Some (map fst (filter (fun f => existsb (fun r => req_matches r (p_version (v_package v))) (snd f)) fs))
      end
  end.

(** ** Symbols.  A symbol is the list of the identifiers of its path. *)
(** cargo-audit/src/binary_scanning.rs:108-120 [is_subsequence]: the inner loop advances the symbol's iterator to the
    next equal segment. *)
Fixpoint skip_to (x : string) (symbol : list string) : option (list string) :=
  match symbol with
  | [] => None
  | y :: r => if String.eqb y x then Some r else skip_to x r
  end.
Fixpoint is_subsequence (path symbol : list string) : bool :=
  match path with
  | [] => true
  | x :: r => match skip_to x symbol with Some rest => is_subsequence r rest | None => false end
  end.
(** binary_scanning.rs:52-56: the text before ['<']. *)
Definition strip_generics (s : string) : string := match split_once "<" s with Some (p, _) => p | None => s end.
(** [[first, middle @ .., last]]. *)
Definition ends (l : list string) : option (string * list string * string) :=
  match l with
  | a :: (_ :: _) as r => match rev r with z :: m => Some (a, rev m, z) | [] => None end
  | _ => None
  end.
(** binary_scanning.rs:60-77. *)
Definition symbol_matches (affected symbol : list string) : bool :=
  match symbol, affected with
  | [i], [a] => String.eqb i a
  | _, _ =>
      match ends symbol, ends affected with
      | Some (i1, im, i2), Some (a1, am, a2) => String.eqb i1 a1 && is_subsequence am im && String.eqb i2 a2
      | _, _ => false
      end
  end.
(** binary_scanning.rs:45-80 [SymbolSet::filter]. *)
Definition symbol_filter (symbols paths : list (list string)) : list (list string) :=
  filter (fun p => existsb (symbol_matches (map strip_generics p)) symbols) paths.
(** binary_scanning.rs:83-106 [flatten_type_path]: a path with an optional qualified self type ([None]: absent or not a
    path), outermost first; the stack reverses the nesting. *)
Inductive type_path := TPath (qself : option type_path) (segments : list string).
Fixpoint path_stack (t : type_path) (stack : list (list string)) : list (list string) :=
  match t with
  | TPath None s => s :: stack
  | TPath (Some q) s => path_stack q (s :: stack)
  end.
Definition flatten_type_path (t : type_path) : list string := List.concat (path_stack t []).

(** ** Embedded dependency data *)
(** auditable_serde::Package, with the source reduced to whether it is crates.io. *)
Record aud_package := mkAud {
  au_name : string; au_version : version; au_crates_io : bool; au_deps : list nat; au_root : bool }.
(** binary_deps.rs:174-183 [source_from_json]; the parsed constant (source.rs:65-105: "registry+" URLs are locked). *)
Definition crates_io_source_id : source_id := mkSource CRATES_IO_INDEX SRegistry (Some "locked") None.
Definition source_from_json (crates_io : bool) : option source_id := if crates_io then Some crates_io_source_id else None.
(** binary_deps.rs:130-151: one dependency, by index. *)
Definition aud_dep (all : list aud_package) (i : nat) : outcome dependency :=
  match nth_error all i with
  | None => Err
  | Some p => Ok (mkDep (au_name p) (au_version p) (source_from_json (au_crates_io p)))
  end.
(** binary_deps.rs:126-164: the loop. *)
Fixpoint info_loop (all ps : list aud_package) (root : option package) : outcome (list package * option package) :=
  match ps with
  | [] => Ok ([], root)
  | p :: r =>
      let? ds := omap (aud_dep all) (au_deps p) in
      let lp := mkPkg (au_name p) (au_version p) (source_from_json (au_crates_io p)) None ds None in
      let? root' := (if au_root p then match root with Some _ => Err | None => Ok (Some lp) end else Ok root) in
      let? x := info_loop all r root' in
      Ok (lp :: fst x, snd x)
  end.
(** binary_deps.rs:123-172 [lockfile_from_version_info_json]. *)
Definition lockfile_of_info (info : list aud_package) : outcome lockfile :=
  let? x := info_loop info info None in Ok (mkLock V2 (fst x) (snd x) [] []).

(** ** Panic messages: quitters/src/lib.rs. *)
(** The regular expression, line 28, at a given position ([sep] is ['/'] or, line 79, ['\']):
    "cargo/registry/src/[^/]+/(crate)-(version)/".  The classes make every match unique: the first segment ends at the
    first separator, so does the second, and in it the crate name ends at the last ['-'] before the first ['.'].
    [seg_until] takes the text before the next separator. *)
Definition seg_until (sep : ascii) (s : string) : option (string * string) := split_once sep s.
Definition crate_char (a : ascii) : bool := is_letter a || in_range 48 57 a || Ascii.eqb a "_" || Ascii.eqb a "-".
Definition version_tail_char (a : ascii) : bool :=
  is_letter a || in_range 48 57 a || Ascii.eqb a "+" || Ascii.eqb a "." || Ascii.eqb a "-".
Definition is_digits (s : string) : bool := negb (String.eqb s "") && str_forall (in_range 48 57) s.
(** Last ['-'] in [s]. *)
Definition rsplit_once (c : ascii) (s : string) : option (string * string) :=
  match split_once c (srev s) with Some (b, a) => Some (srev a, srev b) | None => None end.
(** The longest prefix of digits. *)
Fixpoint span_digits (s : string) : string * string :=
  match s with
  | String a r => if in_range 48 57 a then let (x, y) := span_digits r in (String a x, y) else ("", s)
  | EmptyString => ("", "")
  end.
(** "[0-9]+\.[0-9]+\.[0-9]+[0-9A-Za-z+.-]*" on a whole string. *)
Definition version_shape (s : string) : bool :=
  match split_once "." s with
  | None => false
  | Some (ma, r) =>
      match split_once "." r with
      | None => false
      | Some (mi, r2) =>
          is_digits ma && is_digits mi &&
          (let (pa, tail) := span_digits r2 in negb (String.eqb pa "") && str_forall version_tail_char tail)
      end
  end.
Definition split_crate (seg : string) : option (string * string) :=
  match split_once "." seg with
  | None => None
  | Some (before, after) =>
      match rsplit_once "-" before with
      | None => None
      | Some (c, ma) =>
          let v := ma ++ String "." after in
          if negb (String.eqb c "") && str_forall crate_char c && version_shape v then Some (c, v) else None
      end
  end.
(** The literal prefix with the separator. *)
Definition registry_prefix (sep : ascii) : string :=
  "cargo" ++ String sep "registry" ++ String sep "src" ++ String sep "".
(** The match at the start of [s]: crate, version and the rest of the data. *)
Definition match_here (sep : ascii) (s : string) : option (string * string * string) :=
  match strip_prefix (registry_prefix sep) s with
  | None => None
  | Some r =>
      match seg_until sep r with
      | None => None
      | Some (x, r2) =>
          if String.eqb x "" then None
          else match seg_until sep r2 with
               | None => None
               | Some (seg, r3) => match split_crate seg with Some (c, v) => Some (c, v, r3) | None => None end
               end
      end
  end.
(** [captures_iter]: non-overlapping matches from left to right; [fuel] bounds the length of the data. *)
Fixpoint captures (fuel : nat) (sep : ascii) (s : string) : list (string * string) :=
  match fuel with
  | O => []
  | S f =>
      match match_here sep s with
      | Some (c, v, rest) => (c, v) :: captures f sep rest
      | None => match s with EmptyString => [] | String _ r => captures f sep r end
      end
  end.
(** lines 99-104 [parse_capture], 87-95 [versions_for_regex]; the [BTreeSet] as the list of its insertions. *)
Definition versions_for (sep : ascii) (data : string) : list (string * version) :=
  flat_map (fun cv => match parse_version (snd cv) with Some v => [(fst cv, v)] | None => [] end)
    (captures (S (String.length data)) sep data).
Definition backslash : ascii := ascii_of_N 92.
(** lines 55-85 [versions]. *)
Definition quitters_versions (data : string) : list (string * version) :=
  match versions_for "/" data with [] => versions_for backslash data | l => l end.

(** binary_deps.rs:107-120 [to_package], 87-101 [deps_from_panic_messages].  The set's order and lack of duplicates
    are left out. *)
Definition to_package (cv : string * version) : package :=
  mkPkg (fst cv) (snd cv) (Some crates_io_source_id) None [] None.
Definition deps_from_panic_messages (data : string) : option lockfile :=
  match quitters_versions data with
  | [] => None
  | l => Some (mkLock V2 (map to_package l) None [] [])
  end.
(** What [auditable_info::audit_info_from_slice] answers for given data and limit. *)
Inductive audit_info := Info (ps : list aud_package) | NoAuditData | InfoError.
(** binary_deps.rs:72-85 [detect_format]; [binfarce] is the external detector. *)
Definition detect_format (binfarce : string -> binary_format) (data : string) : binary_format :=
  match binfarce data with
  | UnknownFormat => if starts_with (String (ascii_of_N 0) "asm") data then Wasm else UnknownFormat
  | f => f
  end.
(** binary_deps.rs:12, 30-70 [load_deps_from_binary]; [None]: no data found. *)
Definition load_deps_from_binary (binfarce : string -> binary_format) (info : string -> N -> audit_info)
  (data : string) (limit : option N) : outcome (binary_format * option lockfile) :=
  let f := detect_format binfarce data in
  match info data (match limit with Some n => n | None => 8 * 1024 * 1024 end%N) with
  | Info ps => let? l := lockfile_of_info ps in Ok (f, Some l)
  | NoAuditData => Ok (f, deps_from_panic_messages data)
  | InfoError => Err
  end.
