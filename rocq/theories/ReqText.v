(** Text form of version requirements: [semver::VersionReq]'s [FromStr] and [Display] (external crate semver 1.0,
    /repo/Cargo.toml:39; used by rustsec/src/advisory/versions.rs:19-110 and rustsec/src/advisory/affected.rs through serde, and by
    cargo-audit/src/presenter.rs:507-513).  The crate's source is not in /repo, so these definitions are part of the trusted base. *)
From Coq Require Import List NArith Ascii String Bool.
From Verif Require Import Base SemverModel StrLib VerText.
Import ListNotations.
Local Open Scope string_scope.
Local Infix "++" := String.append (right associativity, at level 60).

(** semver/src/display.rs [Display for Comparator]. *)
Definition op_text (o : op) : string :=
  match o with
  | OpExact => "=" | OpGreater => ">" | OpGreaterEq => ">=" | OpLess => "<" | OpLessEq => "<=" | OpTilde => "~" | OpCaret => "^"
  | OpWildcard => ""
  end.
Definition star_after (o : op) : string := match o with OpWildcard => ".*" | _ => "" end.
Definition print_comparator (c : comparator) : string :=
  op_text (c_op c) ++ print_dec (c_major c)
  ++ match c_minor c with
     | None => star_after (c_op c)
     | Some m => "." ++ print_dec m
         ++ match c_patch c with
            | None => star_after (c_op c)
            | Some p => "." ++ print_dec p ++ match c_pre c with [] => "" | l => "-" ++ join_on "." l end
            end
     end.
(** [Display for VersionReq]. *)
Definition print_req (r : version_req) : string :=
  match r with [] => "*" | _ => String.concat ", " (map print_comparator r) end.

(** semver/src/parse.rs. *)
Fixpoint take_while (P : ascii -> bool) (s : string) : string * string :=
  match s with
  | EmptyString => ("", "")
  | String a r => if P a then let (x, y) := take_while P r in (String a x, y) else ("", s)
  end.
Definition trim_spaces (s : string) : string := snd (take_while (fun a => Ascii.eqb a " ") s).
(** [wildcard]. *)
Definition wildcard (s : string) : option string :=
  match s with String a r => if Ascii.eqb a "*" || Ascii.eqb a "x" || Ascii.eqb a "X" then Some r else None | EmptyString => None end.
(** [numeric_identifier]. *)
Definition numeric_identifier (s : string) : option (N * string) :=
  let (d, r) := take_while is_dig s in
  match parse_numeric d with Some n => Some (n, r) | None => None end.
(** [identifier], with the test of the caller that it is not empty. *)
Definition ident_or_dot (a : ascii) : bool := is_ident_char a || Ascii.eqb a ".".
Definition identifiers (ok : string -> bool) (s : string) : option (list string * string) :=
  let (d, r) := take_while ident_or_dot s in
  let l := split_on "." d in
  if forallb ok l then Some (l, r) else None.
(** [op]: the operator, whether there was none, and the rest. *)
Definition parse_op (s : string) : op * bool * string :=
  match s with
  | String "=" r => (OpExact, false, r)
  | String ">" (String "=" r) => (OpGreaterEq, false, r)
  | String ">" r => (OpGreater, false, r)
  | String "<" (String "=" r) => (OpLessEq, false, r)
  | String "<" r => (OpLess, false, r)
  | String "~" r => (OpTilde, false, r)
  | String "^" r => (OpCaret, false, r)
  | _ => (OpCaret, true, s)
  end.
(** A number after a period: nothing, a wildcard ([inl]) or a number ([inr]). *)
Definition dotted (s : string) : option (option (unit + N) * string) :=
  match s with
  | String "." r =>
      match wildcard r with
      | Some r' => Some (Some (inl tt), r')
      | None => match numeric_identifier r with Some (n, r') => Some (Some (inr n), r') | None => None end
      end
  | _ => Some (None, s)
  end.
(** The pre-release and the build metadata of a full version; the latter is dropped. *)
Definition parse_tail (s : string) : option (list string * string) :=
  let after_pre :=
    match s with
    | String "-" r => identifiers ident_wf r
    | _ => Some ([], s)
    end in
  match after_pre with
  | None => None
  | Some (p, r) =>
      match r with
      | String "+" r' => match identifiers build_ident_wf r' with Some (_, r'') => Some (p, r'') | None => None end
      | _ => Some (p, r)
      end
  end.
(** [comparator].  In the code, a number after a wildcard is [UnexpectedAfterWildcard]. *)
Definition parse_comparator (s : string) : option (comparator * string) :=
  let '(o, default, text) := parse_op s in
  let wild_op := if default then OpWildcard else o in
  match numeric_identifier (trim_spaces text) with
  | None => None
  | Some (ma, text) =>
      match dotted text with
      | None => None
      | Some (None, text) => Some (mkComparator o ma None None [], trim_spaces text)
      | Some (Some (inl _), text) =>
          match text with
          | String "." r =>
              match wildcard r with Some r' => Some (mkComparator wild_op ma None None [], trim_spaces r') | None => None end
          | _ => Some (mkComparator wild_op ma None None [], trim_spaces text)
          end
      | Some (Some (inr mi), text) =>
          match dotted text with
          | None => None
          | Some (None, text) => Some (mkComparator o ma (Some mi) None [], trim_spaces text)
          | Some (Some (inl _), text) => Some (mkComparator wild_op ma (Some mi) None [], trim_spaces text)
          | Some (Some (inr pa), text) =>
              match parse_tail text with
              | Some (p, text) => Some (mkComparator o ma (Some mi) (Some pa) p, trim_spaces text)
              | None => None
              end
          end
      end
  end.
(** [version_req]: at most 32 comparators. *)
Fixpoint parse_comparators (left : nat) (s : string) : option (list comparator) :=
  match left with
  | O => None
  | S k =>
      match parse_comparator s with
      | None => None
      | Some (c, EmptyString) => Some [c]
      | Some (c, String "," r) => match parse_comparators k (trim_spaces r) with Some l => Some (c :: l) | None => None end
      | Some (c, String _ _) => None
      end
  end.
(** [FromStr for VersionReq]. *)
Definition parse_req (s : string) : option version_req :=
  let s := trim_spaces s in
  match wildcard s with
  | Some r => match trim_spaces r with EmptyString => Some [] | _ => None end
  | None => parse_comparators 32 s
  end.
