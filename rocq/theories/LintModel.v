(** The advisory linter: /repo/rustsec/src/advisory/linter.rs. *)
From Coq Require Import List NArith Ascii String Bool Arith.
From Verif Require Import Base StrLib IdModel DbModel UrlModel PlatData ScanModel PartsModel AssignModel AdvModel.
Import ListNotations.
Local Open Scope string_scope.
Local Infix "++" := String.append (right associativity, at level 60).

(** linter.rs:417-435 [enum ErrorKind] and 366-375 [struct Error].  Simplified: the printed offending value of
    [InvalidValue] (a TOML rendering) and the quoted values at the end of messages are left out. *)
Inductive lint_kind := Malformed | InvalidKey (name : string) | InvalidValue (name : string).
Record lint_error := mkLint { le_kind : lint_kind; le_section : option string; le_message : option string }.

(** linter.rs:18-25 [struct Linter]. *)
Record linter := mkLinter { l_advisory : full_advisory; l_errors : list lint_error }.

(** ** Mentions *)
(** [str::split_inclusive]: the separator stays at the end of each piece. *)
Fixpoint split_inclusive (c : ascii) (s : string) : list string :=
  match s with
  | EmptyString => []
  | String a r =>
      if Ascii.eqb a c then String a "" :: split_inclusive c r
      else match split_inclusive c r with
           | [] => [String a ""]
           | h :: t => String a h :: t
           end
  end.
(** The text begins with a white space character ([char::is_whitespace], see PartsModel). *)
Definition ws_start (s : string) : bool :=
  match s with
  | EmptyString => false
  | String a r =>
      ws1 a || match r with
               | EmptyString => false
               | String b r2 => ws2 a b || match r2 with EmptyString => false | String c _ => ws3 a b c end
               end
  end.
(** [split_whitespace().next()], for a text that does not begin with white space. *)
Fixpoint first_word (s : string) : string :=
  if ws_start s then "" else match s with EmptyString => "" | String a r => String a (first_word r) end.
Definition is_alnum (a : ascii) : bool := is_letter a || in_range 48 57 a.
Definition starts_alnum (s : string) : bool := match s with EmptyString => false | String a _ => is_alnum a end.
(** linter.rs:79-92: a piece after an at sign. *)
Definition piece_user (part : string) : option string :=
  if negb (starts_alnum part) then None
  else let username := first_word part in
       if has_char "." username || has_char "@" username || has_char "`" username then None else Some username.
Fixpoint first_some {A B} (f : A -> option B) (l : list A) : option B :=
  match l with [] => None | x :: r => match f x with Some y => Some y | None => first_some f r end end.
(** linter.rs:73-96: the user named in a line, if any. *)
Definition line_user (line : string) : option string :=
  match split_inclusive "@" line with [] => None | _ :: parts => first_some piece_user parts end.
(** [trim_end_matches(')')]. *)
Fixpoint drop_parens (s : string) : string := match s with String ")" r => drop_parens r | _ => s end.
Definition trim_parens (s : string) : string := srev (drop_parens (srev s)).
(** linter.rs:102-110. *)
Definition mention_error (user : string) (line : nat) : lint_error :=
  mkLint Malformed (Some "markdown")
    (Some ("bare @" ++ trim_parens user ++ " in advisory on line " ++ print_dec (N.of_nat line)
           ++ " (use explicit link to avoid spam)")).
Fixpoint mention_errors (line : nat) (lines : list string) : list lint_error :=
  match lines with
  | [] => []
  | l :: r => match line_user l with Some u => mention_error u line :: mention_errors (S line) r
                                   | None => mention_errors (S line) r end
  end.
(** linter.rs:70-112 ([str::lines] splits as [BufRead::lines] does). *)
Definition lint_markdown (front markdown : string) : list lint_error :=
  if has_char "@" markdown
  then mention_errors (List.length (file_lines front) + 4) (file_lines markdown)
  else [].

(** ** Sections *)
Definition known (ks : list string) (k : string) : bool := existsb (String.eqb k) ks.
Definition key_error (section : option string) (k : string) : lint_error := mkLint (InvalidKey k) section None.
Definition value_error (section name msg : string) : lint_error := mkLint (InvalidValue name) (Some section) (Some msg).
Definition when (b : bool) (e : lint_error) : list lint_error := if b then [e] else [].

(** The keys of [advisory] the linter accepts without looking at them (linter.rs:275-276). *)
Definition SILENT : list string :=
  ["aliases"; "cvss"; "keywords"; "package"; "references"; "related"; "title"; "withdrawn"; "description";
   "expect-deleted"].
Definition is_cat_other (c : category) : bool := match c with CatOther _ => true | _ => false end.
Definition is_lic_other (l : license) : bool := match l with LicOther _ => true | _ => false end.
Definition mismatch (name : string) : lint_error := value_error "advisory" name "year in advisory ID does not match date".

Section Lint.
  Context (adv : full_advisory) (draft : option bool).
  Let m := f_meta adv.

  (** linter.rs:148-283, one entry of the table; the state is the year. *)
  Definition lint_entry (year : option N) (kv : string * tval) : outcome (list lint_error * option N) :=
    let (key, value) := kv in
    if String.eqb key "id" then
      let e1 := match draft with
                | Some d => when (negb (Bool.eqb (is_placeholder (m_id m)) d))
                              (value_error "advisory" "id" "advisory ID draft status does not match file name")
                | None => []
                end in
      if id_kind_eqb (id_kind_of (m_id m)) KOther
      then Ok (e1 ++ [value_error "advisory" "id" "unknown advisory ID type"], year)%list
      else match id_year (m_id m) with
           | None => Ok (e1, year)
           | Some y1 =>
               if id_kind_eqb (id_kind_of (m_id m)) KCve then Ok (e1, year)
               else match year with
                    | Some y2 => Ok (e1 ++ when (negb (N.eqb y1 y2)) (mismatch "id"), year)%list
                    | None => Ok (e1, Some y1)
                    end
           end
    else if String.eqb key "categories" then
      Ok (map (fun _ => value_error "advisory" "category" "unknown category") (filter is_cat_other (m_categories m)), year)
    else if String.eqb key "collection" then
      Ok ([mkLint Malformed (Some "advisory") (Some "collection shouldn't be explicit; inferred by location")], year)
    else if String.eqb key "informational" then
      match m_informational m with
      | None => Panic
      | Some (IOther _) => Ok ([value_error "advisory" "informational" "unknown informational advisory type"], year)
      | Some _ => Ok ([], year)
      end
    else if String.eqb key "url" then
      Ok (match value with
          | TStr u => when (negb (starts_with "https://" u)) (value_error "advisory" "url" "URL must start with https://")
          | _ => []
          end, year)
    else if String.eqb key "date" then
      let? y1 := date_year (m_date m) in
      match year with
      | Some y2 => Ok (when (negb (N.eqb y1 y2)) (mismatch "date"), year)
      | None => Ok ([], Some y1)
      end
    else if String.eqb key "yanked" then
      Ok (when (match m_withdrawn m with None => true | Some _ => false end)
            (mkLint Malformed (Some "metadata") (Some "field `yanked` is deprecated, use `withdrawn` field instead")), year)
    else if String.eqb key "license" then
      Ok (match value with
          | TStr l => when (is_lic_other (license_from_str l)) (value_error "advisory" "license" "unknown license")
          | _ => []
          end, year)
    else if known SILENT key then Ok ([], year)
    else Ok ([key_error (Some "advisory") key], year).
  Fixpoint lint_entries (year : option N) (t : ttable) : outcome (list lint_error) :=
    match t with
    | [] => Ok []
    | kv :: r =>
        let? x := lint_entry year kv in
        let? es := lint_entries (snd x) r in
        Ok (fst x ++ es)%list
    end.
  (** linter.rs:144-291 [lint_metadata]. *)
  Definition lint_metadata (v : tval) : outcome (list lint_error) :=
    match v with
    | TTab t => lint_entries None t
    | _ => Ok [mkLint Malformed (Some "advisory") (Some "expected table")]
    end.

  (** linter.rs:294-307 [lint_versions]. *)
  Definition lint_versions (v : tval) : list lint_error :=
    match v with
    | TTab t => flat_map (fun kv => when (negb (known ["patched"; "unaffected"] (fst kv)))
                                      (key_error (Some "versions") (fst kv))) t
    | _ => []
    end.

  (** [replace('-', "_")]. *)
  Fixpoint underscores (s : string) : string :=
    match s with
    | EmptyString => ""
    | String a r => String (if Ascii.eqb a "-" then "_"%char else a) (underscores r)
    end.
  (** linter.rs:315-329: one function path; [segments()[0]] panics on an empty path. *)
  Definition lint_function (f : list string * list SemverModel.version_req) : outcome (list lint_error) :=
    match fst f with
    | [] => Panic
    | s :: _ => Ok (when (negb (String.eqb s (underscores (m_package m))))
                      (value_error "affected" "functions" "function path must start with crate name"))
    end.
  (** linter.rs:310-360, one entry of the table. *)
  Definition lint_affected_entry (key : string) : outcome (list lint_error) :=
    if String.eqb key "functions" then
      match f_affected adv with
      | None => Panic
      | Some af => let? es := omap lint_function (af_functions af) in Ok (List.concat es)
      end
    else if String.eqb key "arch" then
      match f_affected adv with
      | None => Panic
      | Some af =>
          Ok (flat_map (fun a => when (String.eqb a "" || match arch_from_str a with Ok _ => false | _ => true end)
                                   (value_error "affected" "arch" "unknown architecture")) (af_arch af))
      end
    else if String.eqb key "os" then
      match f_affected adv with
      | None => Panic
      | Some af => Ok (flat_map (fun o => when (String.eqb o "") (value_error "affected" "os" "unknown OS")) (af_os af))
      end
    else Ok [key_error (Some "affected") key].
  Definition lint_affected (v : tval) : outcome (list lint_error) :=
    match v with
    | TTab t => let? es := omap lint_affected_entry (map fst t) in Ok (List.concat es)
    | _ => Ok []
    end.

  (** linter.rs:128-141 [lint_advisory]. *)
  Definition lint_top (kv : string * tval) : outcome (list lint_error) :=
    let (key, value) := kv in
    if String.eqb key "advisory" then lint_metadata value
    else if String.eqb key "versions" then Ok (lint_versions value)
    else if String.eqb key "affected" then lint_affected value
    else Ok [key_error None key].
  Definition lint_advisory (t : ttable) : outcome (list lint_error) :=
    let? es := omap lint_top t in Ok (List.concat es).
End Lint.

(** linter.rs:53-115 [lint_string]. *)
Definition lint_string (x : externals) (toml : string -> option ttable) (s : string) (draft : option bool) : outcome linter :=
  let? adv := full_from_str x toml s in
  let? p := parts_parse s in
  match toml (pt_front p) with
  | None => Err
  | Some t =>
      let? es := lint_advisory adv draft t in
      Ok (mkLinter adv (lint_markdown (pt_front p) (pt_markdown p) ++ es)%list)
  end.

(** linter.rs:29-50 [lint_file]; [content] is [None] if the file cannot be read.  (An extension that is not UTF-8 is an
    error as well.) *)
Definition lint_file (x : externals) (toml : string -> option ttable) (name : string) (content : option string)
  : outcome linter :=
  if has_md_extension name
  then match content with Some s => lint_string x toml s (Some (is_draft_name name)) | None => Err end
  else Err.
