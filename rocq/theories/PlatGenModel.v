(** The generator of the tables of the `platforms` crate: /repo/platforms-data-gen/src.  Text is a UTF-8 byte string. *)
From Coq Require Import List NArith Ascii String Bool Arith.
From Verif Require Import Base StrLib IdModel OsvAdvModel PartsModel ConfigModel AssignModel.
Import ListNotations.
Local Open Scope string_scope.

(** * The documentation page *)
(** The document comrak makes of the page, as far as doc_target_info.rs looks at it: the kind of each node with its text, and its
    children.  [MOther] stands for every kind the code does not name.  (comrak itself is not modelled: every document is
    considered.) *)
Inductive md_kind := MHeading | MTable | MText (s : string) | MCode (literal : string) | MSoftBreak | MLineBreak
  | MFootnoteReference (name : string) | MOther (label : string).
Inductive md := Md (kind : md_kind) (children : list md).
Definition kids (n : md) : list md := match n with Md _ l => l end.
Definition kind_of (n : md) : md_kind := match n with Md k _ => k end.

(** [str::trim]. *)
Definition trim (s : string) : string := trim_end (trim_start s).

(** doc_target_info.rs:35-54: the tier a heading announces.  ([char::to_digit(10)] accepts the ten ASCII digits.) *)
Definition heading_tier (n : md) : option N :=
  match kids n with
  | Md (MText s) _ :: _ =>
      match strip_prefix "Tier " (trim s) with
      | Some (String c _) => digit_of c
      | _ => None
      end
  | _ => None
  end.

(** doc_target_info.rs:65-80: the columns named by the cells of the header, the last of each name. *)
Fixpoint columns (i : nat) (cells : list md) (target notes : option nat) : option nat * option nat :=
  match cells with
  | [] => (target, notes)
  | c :: r =>
      match kids c with
      | Md (MText s) _ :: _ =>
          if String.eqb (trim s) "target" then columns (S i) r (Some i) notes
          else if String.eqb (trim s) "notes" then columns (S i) r target (Some i)
          else columns (S i) r target notes
      | _ => columns (S i) r target notes
      end
  end.

(** doc_target_info.rs:87-95: the cells of a row in the two columns. *)
Fixpoint row_cells (i : nat) (cells : list md) (target_column notes_column : nat) (target notes : option md) : option md * option md :=
  match cells with
  | [] => (target, notes)
  | c :: r =>
      if Nat.eqb i target_column then row_cells (S i) r target_column notes_column (Some c) notes
      else if Nat.eqb i notes_column then row_cells (S i) r target_column notes_column target (Some c)
      else row_cells (S i) r target_column notes_column target notes
  end.

(** doc_target_info.rs:103-115: the code span found by going to the first child again and again. *)
Fixpoint code_of (n : md) : option string :=
  match n with
  | Md (MCode l) _ => Some l
  | Md _ (c :: _) => code_of c
  | Md _ [] => None
  end.

(** [trim_end_matches] of line feeds and carriage returns. *)
Definition line_end (a : ascii) : bool := Ascii.eqb a (ascii_of_N 10) || Ascii.eqb a (ascii_of_N 13).
Fixpoint drop_line_ends (s : string) : string :=
  match s with String a r => if line_end a then drop_line_ends r else s | EmptyString => "" end.
Definition trim_line_ends (s : string) : string := srev (drop_line_ends (srev s)).
(** [str::replace] of the two bytes [a], [b] by the byte [b]. *)
Fixpoint unescape (a b : ascii) (s : string) : string :=
  match s with
  | String x (String y r as t) => if Ascii.eqb x a && Ascii.eqb y b then String b (unescape a b r) else String x (unescape a b t)
  | _ => s
  end.

Record doc_info := mkDoc { doc_tier : N; doc_notes : string }.
(** A [HashMap]: the pairs in the order of insertion, the keys distinct. *)
Definition lookup_key {A} (m : list (string * A)) (k : string) : option A :=
  match find (fun e => String.eqb k (fst e)) m with Some e => Some (snd e) | None => None end.
(** [entry(key).or_insert(value)]. *)
Definition or_insert {A} (k : string) (v : A) (m : list (string * A)) : list (string * A) :=
  match lookup_key m k with Some _ => m | None => (m ++ [(k, v)])%list end.

Section Doc.
  (** [format_commonmark] of one node: the text it appends, [None] if it fails (appending nothing). *)
  Context (format_node : md -> option string).

  (** doc_target_info.rs:123-144. *)
  Fixpoint notes_text (nodes : list md) (notes : string) : string :=
    match nodes with
    | [] => notes
    | n :: r =>
        match kind_of n with
        | MSoftBreak | MLineBreak | MFootnoteReference _ => notes_text r notes
        | _ => match format_node n with
               | None => notes_text r notes
               | Some t => notes_text r (trim_line_ends (notes ++ t))
               end
        end
    end.
  (** doc_target_info.rs:150-151. *)
  Definition clean_notes (notes : string) : string :=
    unescape "\" "-" (unescape "\" "_" (trim_end notes)).

  (** doc_target_info.rs:86-155: one row of a table. *)
  Definition read_row (tier : N) (tc nc : nat) (row : md) (m : list (string * doc_info)) : list (string * doc_info) :=
    match row_cells 0 (kids row) tc nc None None with
    | (Some target, Some notes) =>
        match code_of target with
        | Some t => or_insert t (mkDoc tier (clean_notes (notes_text (kids notes) ""))) m
        | None => m
        end
    | _ => m
    end.

  (** doc_target_info.rs:28-32: what the loop remembers. *)
  Record doc_state := mkState { current_tier : option N; found_table : bool; documented : list (string * doc_info) }.
  (** doc_target_info.rs:33-161: one block of the document. *)
  Definition read_block (st : doc_state) (n : md) : doc_state :=
    match kind_of n with
    | MHeading => match heading_tier n with Some d => mkState (Some d) (found_table st) (documented st) | None => st end
    | MTable =>
        match current_tier st, kids n with
        | Some tier, header :: rows =>
            match columns 0 (kids header) None None with
            | (Some tc, Some nc) =>
                mkState (current_tier st) true (fold_left (fun m row => read_row tier tc nc row m) rows (documented st))
            | _ => st
            end
        | _, _ => st
        end
    | _ => st
    end.
  (** doc_target_info.rs:22-171 [parse_file], on the blocks of the document. *)
  Definition parse_doc (blocks : list md) : outcome (list (string * doc_info)) :=
    let st := fold_left read_block blocks (mkState None false []) in
    if found_table st then Ok (documented st) else Panic.
End Doc.

(** * What rustc prints *)
(** rustc_target_info.rs:7-16 [target_triples], on what `rustc --print=target-list` prints. *)
Definition target_triples (printed : string) : list string := file_lines printed.

(** A [HashMap] collected from pairs: a later pair replaces the value of an earlier one. *)
Definition insert_key {A} (m : list (string * A)) (e : string * A) : list (string * A) :=
  match lookup_key m (fst e) with
  | Some _ => map (fun x => if String.eqb (fst e) (fst x) then (fst x, snd e) else x) m
  | None => (m ++ [e])%list
  end.
(** [String::pop] and [String::remove(0)] with the assertion on the character: [None] if they panic. *)
Definition pop_quote (s : string) : option string := strip_suffix (String q "") s.
Definition remove_quote (s : string) : option string := strip_prefix (String q "") s.
(** rustc_target_info.rs:51-64: one line. *)
Definition read_line (l : string) : outcome (option (string * string)) :=
  match split_on "=" l with
  | [] => Panic
  | [_] => Ok None
  | key :: parts =>
      match pop_quote (String.concat "" parts) with
      | Some v => match remove_quote v with Some v => Ok (Some (key, v)) | None => Panic end
      | None => Panic
      end
  end.
Fixpoint somes {A} (l : list (option A)) : list A :=
  match l with [] => [] | Some x :: r => x :: somes r | None :: r => somes r end.
(** rustc_target_info.rs:47-67 [parse_rustc_target_info].  (Simplified: what rustc prints is valid UTF-8; [line.unwrap()] panics
    otherwise.) *)
Definition parse_cfg (printed : string) : outcome (list (string * string)) :=
  let? pairs := omap read_line (file_lines printed) in
  Ok (fold_left insert_key (somes pairs) []).
(** rustc_target_info.rs:20-36 [targets_info]: [run t] is the exit code and the output of `rustc --print=cfg --target=t`. *)
Definition targets_info (run : string -> option N * string) (triples : list string) : outcome (list (list (string * string))) :=
  omap (fun t => match run t with (Some 0%N, out) => parse_cfg out | _ => Panic end) triples.

(** * Names of variants and constants *)
(** Indexing and [unwrap]. *)
Definition or_panic {A} (o : option A) : outcome A := match o with Some x => Ok x | None => Panic end.
(** enums.rs:73-99 [make_ascii_titlecase]. *)
Definition is_lower (a : ascii) : bool := let n := N_of_ascii a in (N.leb 97 n && N.leb n 122)%bool.
Definition ascii_upper (a : ascii) : ascii := if is_lower a then ascii_of_N (N_of_ascii a - 32) else a.
Fixpoint to_ascii_uppercase (s : string) : string :=
  match s with EmptyString => "" | String a r => String (ascii_upper a) (to_ascii_uppercase r) end.
Fixpoint titlecase (at_boundary : bool) (s : string) : string :=
  match s with
  | EmptyString => ""
  | String c r =>
      if Ascii.eqb c "_" then titlecase true r
      else if at_boundary && is_dig c then String "_" (String c (titlecase false r))
      else if at_boundary && is_lower c then String (ascii_upper c) (titlecase false r)
      else String c (titlecase false r)
  end.
(** enums.rs:55-68: the endings `os` and `bsd`. *)
Definition upper_ending (e s : string) : option string :=
  match strip_suffix e s with Some x => Some (x ++ to_ascii_uppercase e) | None => None end.
(** enums.rs:33-71 [to_enum_variant_name]. *)
Definition special_names : list (string * string) :=
  [("", "None"); ("16", "U16"); ("32", "U32"); ("64", "U64"); ("aarch64", "AArch64"); ("asmjs", "AsmJs"); ("ios", "iOS");
   ("powerpc", "PowerPc"); ("powerpc64", "PowerPc64"); ("riscv", "RiscV"); ("s390x", "S390X"); ("thumbv6", "ThumbV6");
   ("thumbv7", "ThumbV7"); ("uclibc", "UClibc"); ("vxworks", "VxWorks")].
Definition variant_name (value : string) : string :=
  let name := to_ascii_lowercase value in
  match lookup_key special_names name with
  | Some v => v
  | None =>
      let name := titlecase true name in
      match upper_ending "os" name with
      | Some n => n
      | None => match upper_ending "bsd" name with Some n => n | None => name end
      end
  end.
(** enums.rs:20-30 [to_enum_name]. *)
Definition enum_name (key : string) : outcome string :=
  or_panic (lookup_key [("target_arch", "Arch"); ("target_os", "Os"); ("target_env", "Env"); ("tier", "Tier");
    ("target_endian", "Endian"); ("target_pointer_width", "PointerWidth")] key).
(** enums.rs:6-8 [distinct_values]: a [BTreeSet]; indexing a [HashMap] with a missing key panics. *)
Definition distinct_values (key : string) (info : list (list (string * string))) : outcome (list string) :=
  let? vs := omap (fun t => or_panic (lookup_key t key)) info in Ok (dedup str_cmp (sort_list str_cmp vs)).
(** write.rs:197-202 [to_const_variable_name]. *)
Fixpoint replace_char (a b : ascii) (s : string) : string :=
  match s with EmptyString => "" | String c r => String (if Ascii.eqb c a then b else c) (replace_char a b r) end.
Definition const_name (triple : string) : string := replace_char "." "_" (replace_char "-" "_" (to_ascii_uppercase triple)).
(** write.rs:205-212 [tier_to_enum_variant]. *)
Definition tier_variant (tier : N) : outcome string :=
  match tier with 1%N => Ok "Tier::One" | 2%N => Ok "Tier::Two" | 3%N => Ok "Tier::Three" | _ => Panic end.

(** * Writing *)
(** What was written to the file, and how the writing ended.  (Simplified: writing itself never fails.) *)
Definition writing := (string * outcome unit)%type.
Definition emit (s : string) : writing := (s, Ok tt).
Definition andthen (a : writing) (b : writing) : writing :=
  match snd a with Ok _ => (fst a ++ fst b, snd b) | _ => a end.
Definition failing {A} (o : outcome A) : outcome unit := match o with Ok _ => Ok tt | Err => Err | Panic => Panic end.
Definition computing {A} (o : outcome A) (k : A -> writing) : writing :=
  match o with Ok v => k v | _ => ("", failing o) end.
Fixpoint each {A} (f : A -> writing) (l : list A) : writing :=
  match l with [] => emit "" | x :: r => andthen (f x) (each f r) end.
Local Infix ";;" := andthen (at level 61, right associativity).
Local Notation NL := (String nl "").
Local Notation Q := (String q "").

(** write.rs:12-18. *)
Definition FIELDS_WITH_ENUMS : list string := ["target_arch"; "target_os"; "target_env"; "target_endian"; "target_pointer_width"].

(** write.rs:27-43. *)
Definition targets_header : string :=
  "//! The list of targets." ++ NL ++ NL
  ++ "// Note: this file is auto-generated. Do not edit it manually!" ++ NL
  ++ "// If you need to referesh it, re-run the generator included in the source tree." ++ NL ++ NL
  ++ "// Comments on targets are sourced from" ++ NL
  ++ "// https://doc.rust-lang.org/nightly/rustc/platform-support.html" ++ NL
  ++ "// and some of the more obscure targets do not have a comment on them" ++ NL
  ++ "#![allow(missing_docs)]" ++ NL ++ NL
  ++ "use crate::{" ++ NL
  ++ "    platform::{Platform, Tier}," ++ NL
  ++ "    target::{".
(** write.rs:60-73 [write_list_of_targets]. *)
Definition write_list (triples : list string) : writing :=
  emit (NL ++ "/// The list of all targets recognized by the Rust compiler" ++ NL ++ "pub(crate) const ALL: &[Platform] = &[" ++ NL)
  ;; each (fun t => emit ("    " ++ const_name t ++ "," ++ NL)) triples
  ;; emit ("];" ++ NL).
(** write.rs:75-99 [write_target_struct]. *)
Definition write_target (triple : string) (info : list (string * string)) (d : doc_info) : writing :=
  (if String.eqb (doc_notes d) "" then emit "" else emit (NL ++ "/// " ++ doc_notes d))
  ;; emit (NL ++ "pub(crate) const " ++ const_name triple ++ ": Platform = Platform {" ++ NL ++ "    target_triple: " ++ Q ++ triple ++ Q ++ "," ++ NL)
  ;; each (fun key =>
       computing (or_panic (lookup_key info key)) (fun value =>
       computing (enum_name key) (fun name =>
       emit ("    " ++ key ++ ": " ++ name ++ "::" ++ variant_name value ++ "," ++ NL)))) FIELDS_WITH_ENUMS
  ;; computing (tier_variant (doc_tier d)) (fun t => emit ("    tier: " ++ t ++ "," ++ NL))
  ;; emit ("};" ++ NL).
(** write.rs:20-58 [write_targets_file]. *)
Definition write_targets (triples : list string) (infos : list (list (string * string))) (docs : list (string * doc_info)) : writing :=
  emit targets_header
  ;; each (fun key => computing (enum_name key) (fun name => emit (" " ++ name ++ ","))) FIELDS_WITH_ENUMS
  ;; emit ("}," ++ NL ++ "};" ++ NL ++ NL)
  ;; write_list triples
  ;; each (fun ti : string * list (string * string) =>
       computing (or_panic (lookup_key docs (fst ti))) (fun d => write_target (fst ti) (snd ti) d)) (combine triples infos).

Section Enums.
  (** templates.rs, comments.rs: the fixed texts put around the generated ones (files of the generator) and the hand-written
      remarks on variants; [wide_lowercase]: [char::is_lowercase] of a first character outside ASCII. *)
  Context (header footer : string -> option string) (comment : string -> option string) (wide_lowercase : string -> bool).

  (** write.rs:132: [chars().next().unwrap().is_lowercase()]. *)
  Definition starts_lowercase (s : string) : outcome bool :=
    match s with
    | EmptyString => Panic
    | String a _ => Ok (if N.ltb (N_of_ascii a) 128 then is_lower a else wide_lowercase s)
    end.
  (** write.rs:116-139 [write_enum_definition]. *)
  Definition write_definition (key : string) (info : list (list (string * string))) : writing :=
    computing (enum_name key) (fun name => emit ("pub enum " ++ name ++ " {" ++ NL)
    ;; computing (distinct_values key info) (fun values =>
         each (fun raw =>
           emit ("    /// `" ++ raw ++ "`" ++ (match comment raw with Some c => ": " ++ c | None => "" end) ++ NL)
           ;; computing (starts_lowercase (variant_name raw)) (fun low =>
                (if low then emit ("    #[allow(non_camel_case_types)]" ++ NL) else emit "")
                ;; emit ("    " ++ variant_name raw ++ "," ++ NL ++ NL))) values
         ;; emit ("}" ++ NL))).
  (** write.rs:141-195 [write_enum_string_conversions]. *)
  Definition write_conversions (key : string) (info : list (list (string * string))) : writing :=
    computing (distinct_values key info) (fun values => computing (enum_name key) (fun name =>
      emit (NL ++ "impl " ++ name ++ " {" ++ NL
        ++ "    /// String representing this `" ++ name ++ "` which matches `#[cfg(" ++ key ++ ")]`" ++ NL
        ++ "    pub fn as_str(self) -> &'static str {" ++ NL ++ "        match self {" ++ NL)
      ;; each (fun raw => emit ("            Self::" ++ variant_name raw ++ " => " ++ Q ++ raw ++ Q ++ "," ++ NL)) values
      ;; emit ("        }" ++ NL ++ "    }" ++ NL ++ "}" ++ NL)
      ;; emit (NL ++ "impl FromStr for " ++ name ++ " {" ++ NL ++ "    type Err = Error;" ++ NL ++ NL
        ++ "    /// Create a new `" ++ name ++ "` from the given string" ++ NL
        ++ "    fn from_str(name: &str) -> Result<Self, Self::Err> {" ++ NL ++ "        let result = match name {" ++ NL)
      ;; each (fun raw => emit ("            " ++ Q ++ raw ++ Q ++ " => Self::" ++ variant_name raw ++ "," ++ NL)) values
      ;; emit ("            _ => return Err(Error)," ++ NL ++ "        };" ++ NL ++ NL ++ "        Ok(result)" ++ NL ++ "    }" ++ NL ++ "}" ++ NL))).
  (** write.rs:103-113 [write_enum_file]. *)
  Definition write_enum_file (key : string) (info : list (list (string * string))) : writing :=
    computing (or_panic (header key)) emit
    ;; write_definition key info
    ;; write_conversions key info
    ;; computing (or_panic (footer key)) emit.

  (** * The program *)
  (** main.rs:34-41: the file of a key. *)
  Definition enum_path (key : string) : string :=
    "src/target/" ++ (match strip_prefix "target_" key with Some s => s | None => key end) ++ ".rs".
  (** main.rs:52-77 [ensure_rustc_and_docs_agree]: the program ends with exit code 1 unless each name of the one side is on the
      other. *)
  Definition agree (triples : list string) (docs : list (string * doc_info)) : bool :=
    forallb (fun t => match lookup_key docs t with Some _ => true | None => false end) triples
    && forallb (fun d : string * doc_info => existsb (String.eqb (fst d)) triples) docs.
  (** Files written one after the other until one fails: each with its contents ([File::create] empties an existing file). *)
  Fixpoint write_files (l : list (string * writing)) : list (string * string) * outcome unit :=
    match l with
    | [] => ([], Ok tt)
    | (p, w) :: r =>
        match snd w with
        | Ok _ => let '(files, o) := write_files r in ((p, fst w) :: files, o)
        | _ => ([(p, fst w)], snd w)
        end
    end.
  Context (format_node : md -> option string) (run : string -> option N * string).
  (** main.rs:18-50 [main]: [page] is the document of the file named on the command line ([Err]: it cannot be read, [Panic]: none
      is named), [listed] what `rustc --print=target-list` prints.  [Err]: exit code 1; [Panic]: the program crashes. *)
  Definition main (page : outcome (list md)) (listed : string) : list (string * string) * outcome unit :=
    match (let? blocks := page in
           let? docs := parse_doc format_node blocks in
           let triples := target_triples listed in
           if agree triples docs then
             let? infos := targets_info run triples in Ok (triples, infos, docs)
           else Err) with
    | Ok (triples, infos, docs) =>
        write_files (map (fun key => (enum_path key, write_enum_file key infos)) FIELDS_WITH_ENUMS
                     ++ [("src/platform/platforms.rs", write_targets triples infos docs)])%list
    | o => ([], failing o)
    end.
End Enums.
