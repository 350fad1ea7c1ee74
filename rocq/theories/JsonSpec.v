(** What an OSV document says: JSON objects as sequences of members, each known member occurring at most once, members with
    other names playing no role. *)
From Coq Require Import List NArith ZArith Ascii String Bool Arith.
From Verif Require Import Base StrLib SemverModel OsvModel IdModel PkgModel DbModel VerText UrlModel CvssText ScanModel PartsModel
  AdvModel MtimeModel OsvAdvModel DecodeSpec IdSpec Calendar.
Import ListNotations.
Local Open Scope string_scope.

Definition members : Type := list (string * json).
(** [k] is the name of exactly one member, with value [v]; of none. *)
Definition only (t : members) (k : string) (v : json) : Prop :=
  exists a b, t = (a ++ (k, v) :: b)%list /\ ~ In k (map fst a) /\ ~ In k (map fst b).
Definition absent (t : members) (k : string) : Prop := ~ In k (map fst t).
Definition must {A} (t : members) (k : string) (R : json -> A -> Prop) (a : A) : Prop := exists v, only t k v /\ R v a.
Definition or_else {A} (t : members) (k : string) (R : json -> A -> Prop) (d a : A) : Prop :=
  (exists v, only t k v /\ R v a) \/ (absent t k /\ a = d).
(** Left out and [null] are the same. *)
Definition may {A} (t : members) (k : string) (R : json -> A -> Prop) (o : option A) : Prop :=
  match o with
  | Some a => exists v, only t k v /\ v <> JNull /\ R v a
  | None => absent t k \/ only t k JNull
  end.
Definition str {A} (P : string -> A -> Prop) (j : json) (a : A) : Prop := exists s, j = JStr s /\ P s a.
Definition arr {A} (R : json -> A -> Prop) (j : json) (l : list A) : Prop := exists js, j = JArr js /\ Forall2 R js l.
Definition obj {A} (R : members -> A -> Prop) (j : json) (a : A) : Prop := exists t, j = JObj t /\ R t a.

Definition says_event (j : json) (e : event) : Prop :=
  match e with
  | Introduced v => j = JObj [("introduced", JStr v)] | Fixed v => j = JObj [("fixed", JStr v)]
  | LastAffected v => j = JObj [("last_affected", JStr v)]
  end.
Definition says_range (t : members) (r : json_range) : Prop :=
  must t "type" (str is) (jr_kind r) /\ must t "events" (arr says_event) (jr_events r).
Definition says_package (t : members) (p : osv_package) : Prop :=
  must t "ecosystem" (str is) (op_ecosystem p) /\ must t "name" (str is) (op_name p) /\ may t "purl" (str is) (op_purl p).
(** The type says how the score is written. *)
Definition says_severity (t : members) (s : osv_severity) : Prop :=
  match s with
  | SevV2 v => must t "type" (str is) "CVSS_V2" /\ must t "score" (str (fun s v => parse2 s = Ok v)) v
  | SevV3 b => must t "type" (str is) "CVSS_V3" /\ must t "score" (str (fun s v => parse3 s = Ok v)) b
  | SevV4 v => must t "type" (str is) "CVSS_V4" /\ must t "score" (str (fun s v => parse4 s = Ok v)) v
  end.
(** The names of reference types; as a text, or as an object with that one member, [null]. *)
Definition type_name (s : string) (k : ref_kind) : Prop :=
  match k with
  | RAdvisory => s = "ADVISORY" | RArticle => s = "ARTICLE" | RReport => s = "REPORT" | RFix => s = "FIX" | RPackage => s = "PACKAGE" | RWeb => s = "WEB"
  end.
Definition says_type (j : json) (k : ref_kind) : Prop := exists s, (j = JStr s \/ j = JObj [(s, JNull)]) /\ type_name s k.
Definition a_path (s : string) (p : list string) : Prop := path_from_str s = Ok p.
Definition says_platforms (t : members) (e : eco_affected) : Prop :=
  must t "arch" (arr (str is)) (ea_arch e) /\ must t "os" (arr (str is)) (ea_os e) /\ must t "functions" (arr (str a_path)) (ea_functions e).
Definition says_eco (t : members) (e : eco_specific) : Prop :=
  may t "affects" (obj says_platforms) (es_affects e) /\ may t "affected_functions" (arr (str a_path)) (es_functions e).
Definition says_db (t : members) (d : db_specific) : Prop :=
  or_else t "categories" (arr (str category_named)) [] (ds_categories d) /\ may t "cvss" (str a_score) (ds_cvss d) /\
  may t "informational" (str informational_named) (ds_informational d).
Definition says_entry (t : members) (a : osv_affected) : Prop :=
  must t "package" (obj says_package) (oa_package a) /\ may t "ecosystem_specific" (obj says_eco) (oa_eco a) /\
  must t "database_specific" (obj says_db) (oa_db a) /\ may t "ranges" (arr (obj says_range)) (oa_ranges a) /\
  may t "versions" (arr (str is)) (oa_versions a).
Section Doc.
  Context (norm : string -> option string).
  Definition says_reference (t : members) (r : osv_reference) : Prop :=
    must t "type" says_type (or_kind r) /\ must t "url" (str (fun s u => url_parse norm s = Some u)) (or_url r).
  Record says_osv (t : members) (o : osv_advisory) : Prop := {
    so_schema : may t "schema_version" (str (fun s v => parse_version s = Some v)) (o_schema o);
    so_id : must t "id" (str an_id) (o_id o);
    so_modified : must t "modified" (str is) (o_modified o);
    so_published : must t "published" (str is) (o_published o);
    so_withdrawn : may t "withdrawn" (str is) (o_withdrawn o);
    so_aliases : or_else t "aliases" (arr (str an_id)) [] (o_aliases o);
    so_related : or_else t "related" (arr (str an_id)) [] (o_related o);
    so_summary : must t "summary" (str is) (o_summary o);
    so_details : must t "details" (str is) (o_details o);
    so_severity : or_else t "severity" (arr (obj says_severity)) [] (o_severity o);
    so_affected : or_else t "affected" (arr (obj says_entry)) [] (o_affected o);
    so_references : or_else t "references" (arr (obj says_reference)) [] (o_references o);
    so_license : or_else t "database_specific" (obj (fun t => may t "license" (str is))) None (o_license o) }.
End Doc.

(** ** What the export writes *)
(** [p] occurs in [s]. *)
Definition mentions (p s : string) : Prop := exists a b, s = (a ++ p ++ b)%string.
(** The type of a reference, from its URL. *)
Definition issue_page (s : string) : Prop := (mentions "://github.com/" s \/ mentions "://gitlab." s) /\ mentions "/issues/" s.
Definition advisory_page (s : string) : Prop := mentions "/advisories/" s \/ mentions "://www.cve.org/" s.
Definition crate_page (s : string) : Prop := mentions "://crates.io/crates/" s.
Definition url_type (s ty : string) : Prop :=
  (issue_page s /\ ty = "REPORT") \/ (~ issue_page s /\ advisory_page s /\ ty = "ADVISORY") \/
  (~ issue_page s /\ ~ advisory_page s /\ crate_page s /\ ty = "PACKAGE") \/
  (~ issue_page s /\ ~ advisory_page s /\ ~ crate_page s /\ ty = "WEB").
Definition reference_entry (u : url) (j : json) : Prop :=
  exists ty, url_type (url_string u) ty /\ j = JObj [("type", JStr ty); ("url", JStr (url_string u))].
Definition ids_json (l : list adv_id) : json := JArr (map (fun i => JStr (id_string i)) l).
Definition strings_json (l : list string) : json := JArr (map JStr l).
Definition severity_type (c : cvss) : string :=
  match c with CvssV20 _ => "CVSS_V2" | CvssV30 _ => "CVSS_V3" | CvssV31 _ => "CVSS_V3" | CvssV40 _ => "CVSS_V4" end.

(** A time stamp [YYYY-MM-DDThh:mm:ssZ] of the instant [t], in seconds since 1970. *)
Definition number (w : nat) (s : string) : Prop := digits s /\ String.length s = w.
Definition clock_text (t : Z) (s : string) : Prop :=
  exists ys ms ds hs mis ss, number 4 ys /\ number 2 ms /\ number 2 ds /\ number 2 hs /\ number 2 mis /\ number 2 ss /\
    s = (ys ++ "-" ++ ms ++ "-" ++ ds ++ "T" ++ hs ++ ":" ++ mis ++ ":" ++ ss)%string /\
    is_date (Z.of_N (value ys), value ms, value ds) /\ (value hs < 24)%N /\ (value mis < 60)%N /\ (value ss < 60)%N /\
    (t = day_number (Z.of_N (value ys), value ms, value ds) * 86400 + Z.of_N (value hs) * 3600 + Z.of_N (value mis) * 60 + Z.of_N (value ss))%Z.
Definition utc_stamp (t : Z) (s : string) : Prop := exists c, clock_text t c /\ s = (c ++ "Z")%string.
Definition osv_members : list string :=
  ["schema_version"; "id"; "modified"; "published"; "withdrawn"; "aliases"; "related"; "summary"; "details"; "severity"; "affected"; "references";
   "database_specific"].
