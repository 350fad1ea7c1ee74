(** What the generator of the `platforms` tables should do, in terms of the documentation page, of what rustc prints and of the
    generated files (properties C87 and C88). *)
From Coq Require Import List NArith Ascii String Bool Arith Sorted.
From Verif Require Import Base StrLib IdModel PartsModel AssignModel PlatGenModel.
Import ListNotations.
Local Open Scope string_scope.

(** ** The page *)
(** The node is a heading whose first piece is a text `Tier d…`. *)
Definition announces (n : md) (d : N) : Prop :=
  exists s inner rest c r, n = Md MHeading (Md (MText s) inner :: rest) /\ trim s = "Tier " ++ String c r
    /\ c = ascii_of_N (48 + d) /\ (d < 10)%N.
(** The tier announced last before block [i]. *)
Definition in_tier (doc : list md) (i : nat) (d : N) : Prop :=
  exists h n, (h < i)%nat /\ nth_error doc h = Some n /\ announces n d
    /\ forall j n' d', (h < j < i)%nat -> nth_error doc j = Some n' -> ~ announces n' d'.
(** The cell starts with the given text. *)
Definition named (cell : md) (name : string) : Prop :=
  exists s inner rest, kids cell = Md (MText s) inner :: rest /\ trim s = name.
(** Column [i] is the last one of that name. *)
Definition column (header : md) (name : string) (i : nat) : Prop :=
  (exists c, nth_error (kids header) i = Some c /\ named c name)
  /\ forall j c, (i < j)%nat -> nth_error (kids header) j = Some c -> ~ named c name.
(** The code span reached through first children. *)
Inductive code_span : md -> string -> Prop :=
  | span_here l ks : code_span (Md (MCode l) ks) l
  | span_below k c r l : (forall x, k <> MCode x) -> code_span c l -> code_span (Md k (c :: r)) l.
(** Block [i] is a table of tier [d] with the two columns; [rows] are the rows below its header. *)
Definition usable_table (doc : list md) (i : nat) (d : N) (tc nc : nat) (rows : list md) : Prop :=
  exists header, nth_error doc i = Some (Md MTable (header :: rows)) /\ in_tier doc i d
    /\ column header "target" tc /\ column header "notes" nc.
(** Row [j] of block [i] speaks of target [t], in tier [d] and with this notes cell. *)
Definition row_of (doc : list md) (i j : nat) (t : string) (d : N) (notes : md) : Prop :=
  exists tc nc rows row cell, usable_table doc i d tc nc rows /\ nth_error rows j = Some row
    /\ nth_error (kids row) tc = Some cell /\ nth_error (kids row) nc = Some notes /\ code_span cell t.

(** ** What rustc prints *)
(** The line `key="value"`; any further `=` are left out of the value. *)
Definition without_equals (s : string) : string := String.concat "" (split_on "=" s).
Definition says (l key value : string) : Prop :=
  exists rest, l = key ++ "=" ++ rest /\ has_char "=" key = false
    /\ without_equals rest = String q "" ++ value ++ String q "".
(** The last line with that key says so. *)
Definition last_says (lines : list string) (key value : string) : Prop :=
  exists i l, nth_error lines i = Some l /\ says l key value
    /\ forall j l' v, (i < j)%nat -> nth_error lines j = Some l' -> ~ says l' key v.

(** ** The generated files *)
(** Text made of the given lines. *)
Fixpoint lines (l : list string) : string := match l with [] => "" | x :: r => x ++ String nl (lines r) end.
(** The distinct values of a key, in order. *)
Definition values_of (key : string) (infos : list (list (string * string))) (values : list string) : Prop :=
  StronglySorted (fun a b => str_cmp a b = Lt) values
  /\ forall v, In v values <-> exists info, In info infos /\ lookup_key info key = Some v.
Definition quoted (s : string) : string := String q (s ++ String q "").

Definition enum_of_key (key name : string) : Prop :=
  In (key, name) [("target_arch", "Arch"); ("target_os", "Os"); ("target_env", "Env"); ("target_endian", "Endian"); ("target_pointer_width", "PointerWidth")].

Section Text.
  Local Open Scope list_scope.
  Local Infix "^" := String.append.

  Context (variant : string -> string) (comment : string -> option string) (lowercase : string -> bool).
  Definition variant_lines (v : string) : list string :=
    ["    /// `" ^ v ^ "`" ^ match comment v with Some c => ": " ^ c | None => "" end]
    ++ (if lowercase (variant v) then ["    #[allow(non_camel_case_types)]"] else [])
    ++ ["    " ^ variant v ^ ","; ""].
  Definition enum_text (key name : string) (values : list string) : string :=
    lines (["pub enum " ^ name ^ " {"]
    ++ List.concat (map variant_lines values)
    ++ ["}"; "";
        "impl " ^ name ^ " {";
        "    /// String representing this `" ^ name ^ "` which matches `#[cfg(" ^ key ^ ")]`";
        "    pub fn as_str(self) -> &'static str {";
        "        match self {"]
    ++ map (fun v => "            Self::" ^ variant v ^ " => " ^ quoted v ^ ",") values
    ++ ["        }"; "    }"; "}"; "";
        "impl FromStr for " ^ name ^ " {";
        "    type Err = Error;"; "";
        "    /// Create a new `" ^ name ^ "` from the given string";
        "    fn from_str(name: &str) -> Result<Self, Self::Err> {";
        "        let result = match name {"]
    ++ map (fun v => "            " ^ quoted v ^ " => Self::" ^ variant v ^ ",") values
    ++ ["            _ => return Err(Error),"; "        };"; ""; "        Ok(result)"; "    }"; "}"]).

  Context (const : string -> string).
  Definition tier_text (d : N) (t : string) : Prop := In (d, t) [(1%N, "Tier::One"); (2%N, "Tier::Two"); (3%N, "Tier::Three")].
  Definition target_text (triple notes : string) (arch os env endian width tier : string) : string :=
    lines ([""] ++ (if String.eqb notes "" then [] else ["/// " ^ notes])
    ++ ["pub(crate) const " ^ const triple ^ ": Platform = Platform {";
        "    target_triple: " ^ quoted triple ^ ",";
        "    target_arch: Arch::" ^ variant arch ^ ",";
        "    target_os: Os::" ^ variant os ^ ",";
        "    target_env: Env::" ^ variant env ^ ",";
        "    target_endian: Endian::" ^ variant endian ^ ",";
        "    target_pointer_width: PointerWidth::" ^ variant width ^ ",";
        "    tier: " ^ tier ^ ",";
        "};"]).
  (** The text of one target, from what rustc and the page say of it. *)
  Definition target_says (triple : string) (info : list (string * string)) (d : doc_info) (text : string) : Prop :=
    exists arch os env endian width tier,
      lookup_key info "target_arch" = Some arch /\ lookup_key info "target_os" = Some os /\ lookup_key info "target_env" = Some env
      /\ lookup_key info "target_endian" = Some endian /\ lookup_key info "target_pointer_width" = Some width
      /\ tier_text (doc_tier d) tier
      /\ text = target_text triple (doc_notes d) arch os env endian width tier.
  Definition list_text (triples : list string) : string :=
    lines (["";
            "/// The list of all targets recognized by the Rust compiler";
            "pub(crate) const ALL: &[Platform] = &["]
    ++ map (fun t => "    " ^ const t ^ ",") triples
    ++ ["];"]).
  Definition imports_text : string :=
    lines ["//! The list of targets."; "";
           "// Note: this file is auto-generated. Do not edit it manually!";
           "// If you need to referesh it, re-run the generator included in the source tree."; "";
           "// Comments on targets are sourced from";
           "// https://doc.rust-lang.org/nightly/rustc/platform-support.html";
           "// and some of the more obscure targets do not have a comment on them";
           "#![allow(missing_docs)]"; "";
           "use crate::{";
           "    platform::{Platform, Tier},";
           "    target::{ Arch, Os, Env, Endian, PointerWidth,},";
           "};"; ""].
End Text.
