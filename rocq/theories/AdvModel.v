(** Advisories decoded from TOML: the derived and hand-written [Deserialize] implementations of
    /repo/rustsec/src/advisory.rs, advisory/{metadata,category,license,informational,keyword,date,id,affected,versions}.rs
    and /repo/rustsec/src/collection.rs. *)
From Coq Require Import List NArith Ascii String Bool Arith.
From Verif Require Import Base StrLib SemverModel OsvModel IdModel PkgModel DbModel UrlModel CvssText ScanModel PartsModel.
Import ListNotations.
Local Open Scope string_scope.

(** A TOML value as the [toml] crate represents it.  [TOther]: integers, floats and dates, none of which decodes to
    anything an advisory contains.  A table is the list of its entries in the order of iteration (the crate's feature
    [preserve_order] decides between document order and key order); its keys are distinct. *)
Inductive tval := TStr (s : string) | TBool (b : bool) | TOther | TArr (l : list tval) | TTab (t : list (string * tval)).
Definition ttable : Type := list (string * tval).
Fixpoint tget (k : string) (t : ttable) : option tval :=
  match t with [] => None | (k', v) :: r => if String.eqb k' k then Some v else tget k r end.

(** [String::deserialize], [bool::deserialize], [Vec<T>::deserialize]. *)
Definition de_string (v : tval) : outcome string := match v with TStr s => Ok s | _ => Err end.
Definition de_bool (v : tval) : outcome bool := match v with TBool b => Ok b | _ => Err end.
Definition de_list {A} (f : tval -> outcome A) (v : tval) : outcome (list A) :=
  match v with TArr l => omap f l | _ => Err end.
(** Hand-written implementations that read a string and parse it. *)
Definition de_from {A} (f : string -> outcome A) (v : tval) : outcome A := let? s := de_string v in f s.
(** A struct's field: required, [Option], [#[serde(default)]]. *)
Definition field_req {A} (f : tval -> outcome A) (k : string) (t : ttable) : outcome A :=
  match tget k t with Some v => f v | None => Err end.
Definition field_opt {A} (f : tval -> outcome A) (k : string) (t : ttable) : outcome (option A) :=
  match tget k t with Some v => let? x := f v in Ok (Some x) | None => Ok None end.
Definition field_def {A} (d : A) (f : tval -> outcome A) (k : string) (t : ttable) : outcome A :=
  match tget k t with Some v => f v | None => Ok d end.

(** advisory/category.rs:16-60 [enum Category], 88-106 [from_str], 65-79 [name]. *)
Inductive category :=
| CodeExecution | CryptoFailure | DenialOfService | FileDisclosure | FormatInjection | Malicious
| MemoryCorruption | MemoryExposure | PrivilegeEscalation | ThreadSafety | CatOther (s : string).
Definition category_from_str (s : string) : category :=
  if String.eqb s "code-execution" then CodeExecution
  else if String.eqb s "crypto-failure" then CryptoFailure
  else if String.eqb s "denial-of-service" then DenialOfService
  else if String.eqb s "file-disclosure" then FileDisclosure
  else if String.eqb s "format-injection" then FormatInjection
  else if String.eqb s "malicious" then Malicious
  else if String.eqb s "memory-corruption" then MemoryCorruption
  else if String.eqb s "memory-exposure" then MemoryExposure
  else if String.eqb s "privilege-escalation" then PrivilegeEscalation
  else if String.eqb s "thread-safety" then ThreadSafety
  else CatOther s.
Definition category_name (c : category) : string :=
  match c with
  | CodeExecution => "code-execution" | CryptoFailure => "crypto-failure" | DenialOfService => "denial-of-service"
  | FileDisclosure => "file-disclosure" | FormatInjection => "format-injection" | Malicious => "malicious"
  | MemoryCorruption => "memory-corruption" | MemoryExposure => "memory-exposure"
  | PrivilegeEscalation => "privilege-escalation" | ThreadSafety => "thread-safety" | CatOther s => s
  end.
(** advisory/license.rs:10-28 [enum License], 30-38 and 67-76 [from], 57-63 [spdx]. *)
Inductive license := CcZero10 | CcBy40 | LicOther (s : string).
Definition license_from_str (s : string) : license :=
  if String.eqb s "CC0-1.0" then CcZero10 else if String.eqb s "CC-BY-4.0" then CcBy40 else LicOther s.
Definition license_spdx (l : license) : string :=
  match l with CcBy40 => "CC-BY-4.0" | CcZero10 => "CC0-1.0" | LicOther s => s end.
(** collection.rs:42-51 [FromStr for Collection]. *)
Definition collection_from_str (s : string) : outcome collection :=
  if String.eqb s "crates" then Ok Crates else if String.eqb s "rust" then Ok RustColl else Err.

(** The external parsers: dates (jiff), the scheme/authority/path part of URLs (url; see UrlModel), version requirements
    (semver), and whether integer overflow is checked. *)
Record externals := mkExt {
  x_civil : civil_parser; x_norm : string -> option string; x_req : string -> option version_req; x_checks : bool }.

(** advisory/metadata.rs:15-98 [struct Metadata]. *)
Record metadata := mkMeta {
  m_id : adv_id; m_package : string; m_title : string; m_description : string; m_date : string;
  m_aliases : list adv_id; m_related : list adv_id; m_collection : option collection;
  m_categories : list category; m_keywords : list string; m_cvss : option cvss;
  m_informational : option informational; m_references : list url; m_source : option source_id;
  m_url : option url; m_withdrawn : option string; m_license : license; m_expect_deleted : bool }.
(** advisory.rs:38-49 [struct Advisory]. *)
Record full_advisory := mkFull { f_meta : metadata; f_affected : option affected; f_versions : versions }.

Section Decode.
  Context (x : externals).
  Definition de_id : tval -> outcome adv_id := de_from id_from_str.
  Definition de_date : tval -> outcome string := de_from (date_from_str (x_civil x)).
  Definition de_url : tval -> outcome url :=
    de_from (fun s => match url_parse (x_norm x) s with Some u => Ok u | None => Err end).
  Definition de_req : tval -> outcome version_req :=
    de_from (fun s => match x_req x s with Some r => Ok r | None => Err end).

  (** The derived [Deserialize for Metadata]; unknown keys are ignored.  Simplified: fields are decoded in declaration
      order, not in document order; this matters only for a document with two faults one of which is a panic. *)
  Definition decode_metadata (t : ttable) : outcome metadata :=
    let? id := field_req de_id "id" t in
    let? package := field_req de_string "package" t in
    let? title := field_def "" de_string "title" t in
    let? description := field_def "" de_string "description" t in
    let? date := field_req de_date "date" t in
    let? aliases := field_def [] (de_list de_id) "aliases" t in
    let? related := field_def [] (de_list de_id) "related" t in
    let? coll := field_opt (de_from collection_from_str) "collection" t in
    let? categories := field_def [] (de_list (de_from (fun s => Ok (category_from_str s)))) "categories" t in
    let? keywords := field_def [] (de_list de_string) "keywords" t in
    let? cv := field_opt (de_from cvss_parse) "cvss" t in
    let? info := field_opt (de_from (fun s => Ok (informational_from_str s))) "informational" t in
    let? refs := field_def [] (de_list de_url) "references" t in
    let? source := field_opt (de_from (from_url (x_norm x))) "source" t in
    let? u := field_opt de_url "url" t in
    let? withdrawn := field_opt de_date "withdrawn" t in
    let? lic := field_def CcZero10 (de_from (fun s => Ok (license_from_str s))) "license" t in
    let? deleted := field_def false de_bool "expect-deleted" t in
    Ok (mkMeta id package title description date aliases related coll categories keywords cv info refs source u
          withdrawn lic deleted).

  (** advisory/affected.rs:108-113: a key of [functions].  The [BTreeMap], as its entries in key order. *)
  Definition path_cmp : list string -> list string -> comparison := list_cmp str_cmp.
  Fixpoint fmap_insert {A} (k : list string) (v : A) (m : list (list string * A)) : list (list string * A) :=
    match m with
    | [] => [(k, v)]
    | (k', v') :: r =>
        match path_cmp k k' with
        | Lt => (k, v) :: m
        | Eq => (k, v) :: r
        | Gt => (k', v') :: fmap_insert k v r
        end
    end.
  Fixpoint decode_functions (t : ttable) (m : list (list string * list version_req))
    : outcome (list (list string * list version_req)) :=
    match t with
    | [] => Ok m
    | (k, v) :: r =>
        let? p := path_from_str k in
        let? rs := de_list de_req v in
        decode_functions r (fmap_insert p rs m)
    end.
  (** The derived [Deserialize for Affected] (affected.rs:19-36).  A struct is decoded from a table.  (serde's derived
      code also takes an array with one element per field; a document whose tables are written with headers, as
      [FromStr for Advisory] forces them to be, cannot contain such an array in these places.) *)
  Definition decode_affected (v : tval) : outcome affected :=
    match v with
    | TTab t =>
        let? arch := field_def [] (de_list de_string) "arch" t in
        let? os := field_def [] (de_list de_string) "os" t in
        let? fs := field_def [] (fun v => match v with TTab ft => decode_functions ft [] | _ => Err end) "functions" t in
        Ok (mkAffected arch os fs)
    | _ => Err
    end.
  (** [Deserialize for Versions] through [RawVersions] (versions.rs:10-20, 51-61, 63-75). *)
  Definition decode_versions (v : tval) : outcome versions :=
    match v with
    | TTab t =>
        let? p := field_req (de_list de_req) "patched" t in
        let? u := field_def [] (de_list de_req) "unaffected" t in
        versions_new (x_checks x) p u
    | _ => Err
    end.
  (** The derived [Deserialize for Advisory] (advisory.rs:37-49). *)
  Definition decode_advisory (t : ttable) : outcome full_advisory :=
    let? m := field_req (fun v => match v with TTab mt => decode_metadata mt | _ => Err end) "advisory" t in
    let? a := field_opt decode_affected "affected" t in
    let? v := field_req decode_versions "versions" t in
    Ok (mkFull m a v).
End Decode.

(** advisory.rs:140-143. *)
Definition with_title (a : full_advisory) (title description : string) : full_advisory :=
  let m := f_meta a in
  mkFull (mkMeta (m_id m) (m_package m) title description (m_date m) (m_aliases m) (m_related m) (m_collection m)
            (m_categories m) (m_keywords m) (m_cvss m) (m_informational m) (m_references m) (m_source m) (m_url m)
            (m_withdrawn m) (m_license m) (m_expect_deleted m)) (f_affected a) (f_versions a).

(** advisory.rs:112-149 [FromStr for Advisory], with [toml] the external TOML parser (text to table).  Decoding can panic
    (the version ranges, see OsvModel), so this spells out [PartsModel.advisory_from_str]. *)
Definition full_from_str (x : externals) (toml : string -> option ttable) (data : string) : outcome full_advisory :=
  let? p := parts_parse data in
  match toml (front_document (pt_front p)) with
  | None => Err
  | Some t =>
      let? a := decode_advisory x t in
      if negb (String.eqb (m_title (f_meta a)) "") then Err
      else if negb (String.eqb (m_description (f_meta a)) "") then Err
      else Ok (with_title a (pt_title p) (pt_description p))
  end.

(** The advisory as queries and reports see it (DbModel); [sev] is [Cvss::severity] (cvss.rs:64-77), [text] stands for
    the fields that play no role there. *)
Definition to_db (sev : cvss -> severity) (text : metadata -> string) (a : full_advisory) : advisory :=
  let m := f_meta a in
  mkAdvisory (m_id m) (m_package m) (m_date m) (m_collection m) (option_map sev (m_cvss m)) (m_informational m)
    (m_source m) (m_withdrawn m) (text m) (f_affected a) (f_versions a).
