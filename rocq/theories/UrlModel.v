(** URLs as far as package sources use them (external crate [url] 2.x and [form_urlencoded]; their source is
    not in /repo, so this file is part of the trusted base), hexadecimal digits, and package sources as
    text: /repo/cargo-lock/src/package/source.rs.
    Strings are UTF-8 byte strings.  Simplification: percent-decoding is not followed by the lossy UTF-8
    conversion, which is the identity on valid UTF-8. *)
From Coq Require Import List NArith Ascii String Bool.
From Verif Require Import Base SemverModel StrLib PkgModel.
Import ListNotations.
Local Open Scope string_scope.
Local Open Scope N_scope.
Local Infix "++" := String.append (right associativity, at level 60).

(** ** Hexadecimal *)
Definition hex_val (a : ascii) : option N :=
  let n := N_of_ascii a in
  if (48 <=? n) && (n <=? 57) then Some (n - 48)
  else if (65 <=? n) && (n <=? 70) then Some (n - 55)
  else if (97 <=? n) && (n <=? 102) then Some (n - 87)
  else None.
Definition hex_upper (d : N) : ascii := ascii_of_N (if d <? 10 then 48 + d else 55 + d).
Definition hex_lower (d : N) : ascii := ascii_of_N (if d <? 10 then 48 + d else 87 + d).

(** ** Percent encoding (crate [percent-encoding]) *)
Definition pct (a : ascii) : string :=
  let n := N_of_ascii a in String "%" (String (hex_upper (n / 16)) (String (hex_upper (n mod 16)) "")).
Fixpoint encode (set : ascii -> bool) (s : string) : string :=
  match s with
  | EmptyString => ""
  | String a r => if set a then pct a ++ encode set r else String a (encode set r)
  end.
Definition is_one_of (cs : string) (a : ascii) : bool := has_char a cs.
Definition control_or_high (a : ascii) : bool := let n := N_of_ascii a in (n <? 32) || (127 <=? n).
(** The WHATWG query and fragment percent-encode sets ([url] crate, parser.rs: [QUERY], [SPECIAL_QUERY], [FRAGMENT]). *)
Definition query_set (special : bool) (a : ascii) : bool :=
  control_or_high a || is_one_of " ""#<>" a || (special && Ascii.eqb a "'").
Definition fragment_set (a : ascii) : bool := control_or_high a || is_one_of " ""<>`" a.

Fixpoint percent_decode (s : string) : string :=
  match s with
  | String "%" (String h (String l r) as r1) =>
      match hex_val h, hex_val l with
      | Some x, Some y => String (ascii_of_N (16 * x + y)) (percent_decode r)
      | _, _ => String "%" (percent_decode r1)
      end
  | String a r => String a (percent_decode r)
  | EmptyString => ""
  end.
Fixpoint plus_to_space (s : string) : string :=
  match s with
  | EmptyString => ""
  | String a r => String (if Ascii.eqb a "+" then " "%char else a) (plus_to_space r)
  end.
Definition form_decode (s : string) : string := percent_decode (plus_to_space s).
(** [form_urlencoded::byte_serialize]. *)
Definition form_plain (a : ascii) : bool :=
  let n := N_of_ascii a in
  ((48 <=? n) && (n <=? 57)) || ((65 <=? n) && (n <=? 90)) || ((97 <=? n) && (n <=? 122)) || is_one_of "*-._" a.
Fixpoint byte_serialize (s : string) : string :=
  match s with
  | EmptyString => ""
  | String a r =>
      if form_plain a then String a (byte_serialize r)
      else if Ascii.eqb a " " then String "+" (byte_serialize r)
      else pct a ++ byte_serialize r
  end.
(** [form_urlencoded::parse]: the query pairs. *)
Definition query_pair (s : string) : string * string :=
  match split_once "=" s with
  | Some (k, v) => (form_decode k, form_decode v)
  | None => (form_decode s, "")
  end.
Definition query_pairs (q : option string) : list (string * string) :=
  match q with
  | None => []
  | Some q => map query_pair (filter (fun s => negb (String.eqb s "")) (split_on "&" q))
  end.

(** ** [Url]: everything before ['?'] and ['#'] (scheme, authority, path), query, fragment. *)
Record url := mkUrl { u_base : string; u_query : option string; u_fragment : option string }.
Definition url_string (u : url) : string :=
  u_base u ++ match u_query u with Some q => "?" ++ q | None => "" end
           ++ match u_fragment u with Some f => "#" ++ f | None => "" end.

(** Input cleaning of [Url::parse]: trim C0 controls and spaces, drop tabs and newlines. *)
Definition c0_or_space (a : ascii) : bool := N_of_ascii a <=? 32.
Fixpoint trim_left (P : ascii -> bool) (s : string) : string :=
  match s with String a r => if P a then trim_left P r else s | EmptyString => "" end.
Definition trim_both (P : ascii -> bool) (s : string) : string := srev (trim_left P (srev (trim_left P s))).
Fixpoint drop_chars (P : ascii -> bool) (s : string) : string :=
  match s with EmptyString => "" | String a r => if P a then drop_chars P r else String a (drop_chars P r) end.
Definition tab_or_newline (a : ascii) : bool := let n := N_of_ascii a in (n =? 9) || (n =? 10) || (n =? 13).
Definition clean_input (s : string) : string := drop_chars tab_or_newline (trim_both c0_or_space s).

Definition special_schemes : list string := ["http:"; "https:"; "ws:"; "wss:"; "ftp:"; "file:"].
Definition is_special (base : string) : bool := existsb (fun p => starts_with p base) special_schemes.

(** [Url::parse].  The syntax of scheme, authority and path is left to the parameter [norm] (None: error;
    otherwise the normalised text). *)
Definition url_parse (norm : string -> option string) (s : string) : option url :=
  let s := clean_input s in
  let (s1, frag) := match split_once "#" s with Some (x, f) => (x, Some f) | None => (s, None) end in
  let (base, q) := match split_once "?" s1 with Some (x, q) => (x, Some q) | None => (s1, None) end in
  match norm base with
  | None => None
  | Some b => Some (mkUrl b (option_map (encode (query_set (is_special b))) q) (option_map (encode fragment_set) frag))
  end.

(** ** Package sources as text *)
(** source.rs:71-82: fold over the query pairs. *)
Definition apply_pair (r : git_reference) (kv : string * string) : git_reference :=
  let (k, v) := kv in
  if (String.eqb k "branch" || String.eqb k "ref")%bool then GBranch v
  else if String.eqb k "rev" then GRev v
  else if String.eqb k "tag" then GTag v
  else r.
(** source.rs:65-105 [SourceId::from_url] (also [FromStr], 306-312, and [Deserialize], 299-304). *)
Definition from_url (norm : string -> option string) (s : string) : outcome source_id :=
  match split_once "+" s with
  | None => Err
  | Some (kind, rest) =>
      if String.eqb kind "git" then
        match url_parse norm rest with
        | None => Err
        | Some u =>
            let reference := fold_left apply_pair (query_pairs (u_query u)) GDefaultBranch in
            Ok (mkSource (u_base u) (SGit reference) (u_fragment u) None)
        end
      else if String.eqb kind "registry" then
        match url_parse norm rest with
        | None => Err | Some u => Ok (mkSource (url_string u) SRegistry (Some "locked") None) end
      else if String.eqb kind "sparse" then
        match url_parse norm rest with
        | None => Err | Some u => Ok (mkSource (url_string u) SSparseRegistry (Some "locked") None) end
      else if String.eqb kind "path" then
        match url_parse norm rest with
        | None => Err | Some u => Ok (mkSource (url_string u) SPath None None) end
      else Err
  end.

(** source.rs:424-432 [pretty_ref], 449-476 [Display for PrettyRef]. *)
Definition pretty_ref (encoded : bool) (r : git_reference) : option string :=
  let e := fun s => if encoded then byte_serialize s else s in
  match r with
  | GDefaultBranch => None
  | GBranch s => Some ("branch=" ++ e s)
  | GTag s => Some ("tag=" ++ e s)
  | GRev s => Some ("rev=" ++ e s)
  end.
(** source.rs:356-403 [Display for SourceIdAsUrl]; [encoded = false] is [Display for SourceId] (314-318). *)
Definition as_url (encoded : bool) (s : source_id) : string :=
  match s_kind s with
  | SPath => "path+" ++ s_url s
  | SGit r =>
      "git+" ++ s_url s
      ++ match pretty_ref encoded r with Some p => "?" ++ p | None => "" end
      ++ match s_precise s with Some p => "#" ++ p | None => "" end
  | SRegistry => "registry+" ++ s_url s
  | SSparseRegistry => "sparse+" ++ s_url s
  | SLocalRegistry => "local-registry+" ++ s_url s
  | SDirectory => "directory+" ++ s_url s
  end.

(** ** Order, equality, hash *)
(** Derived [Ord] of [GitReference] and [SourceKind] (variant order, then contents). *)
Definition git_reference_key (r : git_reference) : nat * string :=
  match r with GDefaultBranch => (0%nat, "") | GTag s => (1%nat, s) | GBranch s => (2%nat, s) | GRev s => (3%nat, s) end.
Definition git_reference_cmp (a b : git_reference) : comparison :=
  pair_cmp Nat.compare str_cmp (git_reference_key a) (git_reference_key b).
Definition source_kind_rank (k : source_kind) : nat :=
  match k with SGit _ => 0 | SPath => 1 | SRegistry => 2 | SSparseRegistry => 3 | SLocalRegistry => 4 | SDirectory => 5 end%nat.
Definition source_kind_cmp (a b : source_kind) : comparison :=
  match a, b with
  | SGit x, SGit y => git_reference_cmp x y
  | _, _ => Nat.compare (source_kind_rank a) (source_kind_rank b)
  end.
(** source.rs:239-264 [Ord for SourceId]; 281-285 [PartialEq]: comparing [Equal]. *)
Definition source_cmp (a b : source_id) : comparison :=
  then_cmp (str_cmp (s_url a) (s_url b))
    (then_cmp (option_cmp str_cmp (s_name a) (s_name b))
       (match s_kind a, s_kind b with
        | SGit _, SGit _ =>
            match s_precise a, s_precise b with
            | Some x, Some y => str_cmp x y
            | _, _ => Eq
            end
        | x, y => source_kind_cmp x y
        end)).
Definition source_eqb (a b : source_id) : bool := match source_cmp a b with Eq => true | _ => false end.
(** source.rs:272-279 [Hash for SourceId]: what is fed to the hasher. *)
Definition source_hash_input (s : source_id) : string * source_kind * option string * option string :=
  (s_url s, s_kind s, s_precise s, s_name s).
