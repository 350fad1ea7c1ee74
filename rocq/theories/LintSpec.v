(** What a clean advisory document is, independently of the linter.  Only the TOML document and the text are mentioned. *)
From Coq Require Import List NArith Ascii String Bool.
From Verif Require Import Base StrLib IdSpec PartsSpec PlatData AdvModel.
Import ListNotations.
Local Open Scope string_scope.
Local Infix "++" := String.append (right associativity, at level 60).

(** An at sign directly followed by a user name: a word that starts with a letter or digit and contains no period,
    backquote or further at sign.  A word ends at white space or at the end of the text. *)
Definition letters_and_digits : string := "ABCDEFGHIJKLMNOPQRSTUVWXYZabcdefghijklmnopqrstuvwxyz0123456789".
Definition user_name (w : string) : Prop :=
  (exists a r, w = String a r /\ has_char a letters_and_digits = true)
  /\ has_char "." w = false /\ has_char "@" w = false /\ has_char "`" w = false.
Definition is_word (w after : string) : Prop :=
  (forall u v, w = u ++ v -> v <> "" -> ~ starts_blank (v ++ after)) /\ (after = "" \/ starts_blank after).
Definition mentions_user (text user : string) : Prop :=
  exists before after, text = before ++ "@" ++ user ++ after /\ user_name user /\ is_word user after.
Definition bare_mention (text : string) : Prop := exists user, mentions_user text user.

(** The keys of a table. *)
Definition has_key (k : string) (t : ttable) : Prop := In k (map fst t).
(** TOML tables have distinct keys. *)
Definition distinct_keys (doc : ttable) : Prop :=
  NoDup (map fst doc) /\ forall k t, In (k, TTab t) doc -> NoDup (map fst t).

Definition SECTIONS : list string := ["advisory"; "versions"; "affected"].
Definition ADVISORY_KEYS : list string :=
  ["id"; "package"; "date"; "title"; "description"; "aliases"; "related"; "categories"; "keywords"; "cvss";
   "informational"; "references"; "url"; "withdrawn"; "yanked"; "license"; "expect-deleted"].
Definition CATEGORIES : list string :=
  ["code-execution"; "crypto-failure"; "denial-of-service"; "file-disclosure"; "format-injection"; "malicious";
   "memory-corruption"; "memory-exposure"; "privilege-escalation"; "thread-safety"].
Definition INFORMATIONAL : list string := ["notice"; "unmaintained"; "unsound"].
Definition LICENSES : list string := ["CC0-1.0"; "CC-BY-4.0"].

(** Crate names are written in paths with underscores. *)
Fixpoint path_name (s : string) : string :=
  match s with
  | EmptyString => ""
  | String a r => String (if Ascii.eqb a "-" then "_"%char else a) (path_name r)
  end.

Record clean_metadata (t : ttable) (draft : option bool) : Prop := {
  cm_keys : forall k, has_key k t -> In k ADVISORY_KEYS;
  cm_id : forall id, tget "id" t = Some (TStr id) ->
    (has_prefix "RUSTSEC-" id \/ has_prefix "CVE-" id \/ has_prefix "TALOS-" id \/ has_prefix "GHSA-" id)
    /\ (forall d, draft = Some d -> (d = true <-> id = "RUSTSEC-0000-0000"));
  (** The year of the id (RUSTSEC or TALOS, not the placeholder) is that of the date. *)
  cm_year : forall kind ys ns date ds y, tget "id" t = Some (TStr (kind ++ "-" ++ ys ++ "-" ++ ns)) ->
    kind = "RUSTSEC" \/ kind = "TALOS" -> kind ++ "-" ++ ys ++ "-" ++ ns <> "RUSTSEC-0000-0000" ->
    u32_numeral ys y -> tget "date" t = Some (TStr date) ->
    (date = ds \/ exists r, date = ds ++ "-" ++ r) -> has_char "-" ds = false -> u32_numeral ds y;
  cm_categories : forall l s, tget "categories" t = Some (TArr l) -> In (TStr s) l -> In s CATEGORIES;
  cm_informational : forall s, tget "informational" t = Some (TStr s) -> In s INFORMATIONAL;
  cm_url : forall s, tget "url" t = Some (TStr s) -> has_prefix "https://" s;
  cm_license : forall s, tget "license" t = Some (TStr s) -> In s LICENSES;
  cm_yanked : has_key "yanked" t -> has_key "withdrawn" t }.

Record clean_affected (t : ttable) (package : string) : Prop := {
  ca_keys : forall k, has_key k t -> In k ["functions"; "arch"; "os"];
  (** the path's text up to the first "::" is the crate's name *)
  ca_functions : forall ft f, tget "functions" t = Some (TTab ft) -> has_key f ft ->
    has_prefix (path_name package ++ "::") f /\ has_char ":" (path_name package) = false;
  ca_arch : forall l s, tget "arch" t = Some (TArr l) -> In (TStr s) l -> exists a, arch_str a = s;
  ca_os : forall l s, tget "os" t = Some (TArr l) -> In (TStr s) l -> s <> "" }.

Record clean_document (doc : ttable) (draft : option bool) (markdown : string) : Prop := {
  cd_keys : forall k, has_key k doc -> In k SECTIONS;
  cd_metadata : forall t, tget "advisory" doc = Some (TTab t) -> clean_metadata t draft;
  cd_versions : forall t k, tget "versions" doc = Some (TTab t) -> has_key k t -> In k ["patched"; "unaffected"];
  cd_affected : forall t mt package, tget "affected" doc = Some (TTab t) -> tget "advisory" doc = Some (TTab mt) ->
    tget "package" mt = Some (TStr package) -> clean_affected t package;
  cd_mentions : ~ bare_mention markdown }.
