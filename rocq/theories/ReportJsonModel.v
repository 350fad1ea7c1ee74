(** The JSON report of [cargo audit --json]: /repo/rustsec/src/report.rs, vulnerability.rs, warning.rs with the derived and
    hand-written serde implementations of the types they contain (rustsec/src/advisory/{metadata,versions,affected,date,id,...}.rs, collection.rs,
    cargo-lock/src/package.rs, package/{source,checksum}.rs, dependency.rs, cvss/src/{cvss,severity}.rs), and
    /repo/cargo-audit/src/presenter.rs:120-127.  The text of the JSON value is serde_json's. *)
From Coq Require Import List NArith ZArith Ascii String Bool Arith.
From Verif Require Import Base StrLib SemverModel OsvModel IdModel PkgModel DbModel VerText UrlModel SumModel CvssText ScanModel PartsModel
  AdvModel MtimeModel OsvAdvModel LockModel AuditModel SarifModel ConfigModel.
Import ListNotations.
Local Open Scope string_scope.

(** ** Types *)
(** vulnerability.rs:12-25 [struct Vulnerability]. *)
Record json_vuln := mkJVuln { jv_advisory : metadata; jv_versions : versions; jv_affected : option affected; jv_package : package }.
(** warning.rs:10-26 [struct Warning]. *)
Record json_warning := mkJWarning { jw_kind : warning_kind; jw_package : package; jw_advisory : option metadata;
  jw_affected : option affected; jw_versions : option versions }.
(** report.rs:98-110 [struct DatabaseInfo]; an [OffsetDateTime] as in MtimeModel. *)
Record database_info := mkDbInfo { di_count : nat; di_commit : option string; di_updated : option gtime }.
(** report.rs:16-34 [struct Report]; 125-130 [LockfileInfo]; 142-153 [VulnerabilityInfo]; 166 [WarningInfo], a [BTreeMap], as its
    entries in key order. *)
Record full_report := mkFullReport { fr_database : database_info; fr_dependencies : nat; fr_settings : settings;
  fr_found : bool; fr_count : nat; fr_list : list json_vuln; fr_warnings : list (warning_kind * list json_warning) }.

(** ** From the report of DbModel and AuditModel, whose advisories are those of queries ([AdvModel.to_db]).  [full] gives the
    whole advisory. *)
(** database/entries.rs:84-107: the collection is filled in. *)
Definition in_collection (a : full_advisory) (c : option collection) : full_advisory :=
  let m := f_meta a in
  mkFull (mkMeta (m_id m) (m_package m) (m_title m) (m_description m) (m_date m) (m_aliases m) (m_related m) c
            (m_categories m) (m_keywords m) (m_cvss m) (m_informational m) (m_references m) (m_source m) (m_url m)
            (m_withdrawn m) (m_license m) (m_expect_deleted m)) (f_affected a) (f_versions a).
Section Full.
  Context (full : advisory -> full_advisory).
  (** vulnerability.rs:28-35 [new]. *)
  Definition full_vuln (v : vulnerability) : json_vuln :=
    let a := full (v_advisory v) in mkJVuln (f_meta a) (f_versions a) (f_affected a) (v_package v).
  (** report.rs:199-205; cargo-audit/src/auditor.rs:221-229 for yanked crates. *)
  Definition full_warning (w : warning) : json_warning :=
    match w_advisory w with
    | Some a => let a := full a in mkJWarning (w_kind w) (w_package w) (Some (f_meta a)) (f_affected a) (Some (f_versions a))
    | None => mkJWarning (w_kind w) (w_package w) None None None
    end.
  Fixpoint winfo_find (k : warning_kind) (m : warning_info) : option (list warning) :=
    match m with [] => None | (k', ws) :: r => if warning_kind_eqb k' k then Some ws else winfo_find k r end.
  Definition full_warnings (m : warning_info) : list (warning_kind * list json_warning) :=
    flat_map (fun k => match winfo_find k m with Some ws => [(k, map full_warning ws)] | None => [] end) kinds_in_order.
  Definition full_report_of (d : database_info) (r : report) : full_report :=
    mkFullReport d (r_dependency_count r) (r_settings r) (vi_found (r_vulns r)) (vi_count (r_vulns r))
      (map full_vuln (vi_list (r_vulns r))) (full_warnings (r_warnings r)).
End Full.
(** report.rs:114-122 [DatabaseInfo::new]; the latest commit's id in hexadecimal and its time. *)
Definition database_info_new (db : database) (latest : option (string * gtime)) : database_info :=
  mkDbInfo (List.length (db_iter db)) (option_map fst latest) (option_map snd latest).

(** ** Serialize *)
Section Write.
  (** [Display for VersionReq] (crate semver); the calendar. *)
  Context (print_req : version_req -> string) (civil_of_day : Z -> Z * N * N).
  Definition j_nat (n : nat) : json := JNum (print_dec (N.of_nat n)).
  Definition j_req (r : version_req) : json := JStr (print_req r).
  (** package/source.rs:289-297. *)
  Definition j_source (s : source_id) : json := match s_kind s with SPath => JNull | _ => JStr (as_url false s) end.
  Definition j_metadata (m : metadata) : json := JObj
    [("id", j_id (m_id m)); ("package", JStr (m_package m)); ("title", JStr (m_title m)); ("description", JStr (m_description m));
     ("date", JStr (m_date m)); ("aliases", j_list j_id (m_aliases m)); ("related", j_list j_id (m_related m));
     ("collection", j_opt (fun c => JStr (collection_str c)) (m_collection m));
     ("categories", j_list (fun c => JStr (category_name c)) (m_categories m)); ("keywords", j_list JStr (m_keywords m));
     ("cvss", j_opt (fun c => JStr (cvss_print c)) (m_cvss m));
     ("informational", j_opt (fun i => JStr (informational_str i)) (m_informational m));
     ("references", j_list (fun u => JStr (url_string u)) (m_references m)); ("source", j_opt j_source (m_source m));
     ("url", j_opt (fun u => JStr (url_string u)) (m_url m)); ("withdrawn", j_opt JStr (m_withdrawn m));
     ("license", JStr (license_spdx (m_license m))); ("expect-deleted", JBool (m_expect_deleted m))].
  Definition j_versions (v : versions) : json :=
    JObj [("patched", j_list j_req (patched v)); ("unaffected", j_list j_req (unaffected v))].
  (** The keys of [functions] are written by [Display for FunctionPath], which panics on no segments; not reachable (C53). *)
  Definition path_text (p : list string) : string := match path_string p with Ok s => s | _ => "" end.
  Definition j_functions (m : list (list string * list version_req)) : json :=
    JObj (map (fun e => (path_text (fst e), j_list j_req (snd e))) m).
  Definition j_affects (a : affected) : json :=
    JObj [("arch", j_list JStr (af_arch a)); ("os", j_list JStr (af_os a)); ("functions", j_functions (af_functions a))].
  Definition j_dependency (d : dependency) : json :=
    JObj [("name", JStr (d_name d)); ("version", JStr (print_version (d_version d))); ("source", j_opt j_source (d_source d))].
  Definition j_pkg (p : package) : json := JObj
    ([("name", JStr (p_name p)); ("version", JStr (print_version (p_version p))); ("source", j_opt j_source (p_source p));
      ("checksum", j_opt (fun c => JStr (checksum_string c)) (p_checksum p))]
     ++ match p_deps p with [] => [] | l => [("dependencies", j_list j_dependency l)] end
     ++ [("replace", j_opt j_dependency (p_replace p))])%list.
  Definition j_vuln (v : json_vuln) : json :=
    JObj [("advisory", j_metadata (jv_advisory v)); ("versions", j_versions (jv_versions v));
          ("affected", j_opt j_affects (jv_affected v)); ("package", j_pkg (jv_package v))].
  Definition j_warning (w : json_warning) : json :=
    JObj [("kind", JStr (warning_kind_str (jw_kind w))); ("package", j_pkg (jw_package w)); ("advisory", j_opt j_metadata (jw_advisory w));
          ("affected", j_opt j_affects (jw_affected w)); ("versions", j_opt j_versions (jw_versions w))].
  (** cvss/src/severity.rs:44-53 [as_str], 91-98. *)
  Definition severity_str (s : severity) : string :=
    match s with SevNone => "none" | SevLow => "low" | SevMedium => "medium" | SevHigh => "high" | SevCritical => "critical" end.
  Definition j_settings (s : settings) : json :=
    JObj [("target_arch", j_list JStr (st_arch s)); ("target_os", j_list JStr (st_os s));
          ("severity", j_opt (fun v => JStr (severity_str v)) (st_severity s)); ("ignore", j_list j_id (st_ignore s));
          ("informational_warnings", j_list (fun i => JStr (informational_str i)) (st_info s))].
  (** [time::serde::rfc3339::option] (crate time): the clock at the offset; an error for years beyond 0 to 9999, for offsets of a day
      or more, and for offsets that are not whole minutes. *)
  Definition zone_text (o : Z) : option string :=
    let a := Z.abs o in
    if (Z.leb 86400 a || negb (Z.eqb (Z.modulo a 60) 0))%bool then None
    else if Z.eqb o 0 then Some "Z"
    else Some ((if Z.ltb o 0 then "-" else "+") ++ pad_left 2 (print_int (Z.div a 3600)) ++ ":" ++ pad_left 2 (print_int (Z.modulo (Z.div a 60) 60))).
  Definition time_text (t : gtime) : option string :=
    match clock civil_of_day (t_seconds t + t_offset t), zone_text (t_offset t) with
    | Some c, Some z => Some (c ++ z)
    | _, _ => None
    end.
  Definition j_database (d : database_info) : outcome json :=
    let? t := match di_updated d with
              | None => Ok JNull
              | Some t => match time_text t with Some s => Ok (JStr s) | None => Err end
              end in
    Ok (JObj [("advisory-count", j_nat (di_count d)); ("last-commit", j_opt JStr (di_commit d)); ("last-updated", t)]).
  Definition report_to_json (r : full_report) : outcome json :=
    let? d := j_database (fr_database r) in
    Ok (JObj [("database", d); ("lockfile", JObj [("dependency-count", j_nat (fr_dependencies r))]); ("settings", j_settings (fr_settings r));
      ("vulnerabilities", JObj [("found", JBool (fr_found r)); ("count", j_nat (fr_count r)); ("list", j_list j_vuln (fr_list r))]);
      ("warnings", JObj (map (fun e => (warning_kind_str (fst e), j_list j_warning (snd e))) (fr_warnings r)))]).
  (** presenter.rs:120-127: [serde_json::to_writer(..).unwrap()]. *)
  Definition print_json (r : full_report) : outcome json := match report_to_json r with Ok j => Ok j | _ => Panic end.
End Write.

(** ** Deserialize *)
(** [BTreeMap], as its entries in key order: the members are inserted one after the other, a later one replacing an earlier. *)
Section Map.
  Context {K V : Type} (cmp : K -> K -> comparison) (key : string -> outcome K) (val : json -> outcome V).
  Fixpoint bt_insert (k : K) (v : V) (m : list (K * V)) : list (K * V) :=
    match m with
    | [] => [(k, v)]
    | (k', v') :: r => match cmp k k' with Lt => (k, v) :: m | Eq => (k, v) :: r | Gt => (k', v') :: bt_insert k v r end
    end.
  Fixpoint d_map (t : list (string * json)) (m : list (K * V)) : outcome (list (K * V)) :=
    match t with
    | [] => Ok m
    | (s, j) :: r => let? k := key s in let? v := val j in d_map r (bt_insert k v m)
    end.
End Map.
Section Read.
  (** [read_time]: the external parser of time stamps (crate time). *)
  Context (x : externals) (read_time : string -> option gtime).
  Definition d_bool (j : json) : outcome bool := match j with JBool b => Ok b | _ => Err end.
  (** [usize]: digits, at most [u64::MAX]. *)
  Definition d_nat (j : json) : outcome nat :=
    match j with
    | JNum t => match parse_dec t with Some n => if N.leb n u64_max then Ok (N.to_nat n) else Err | None => Err end
    | _ => Err
    end.
  Definition d_date : json -> outcome string := d_from (date_from_str (x_civil x)).
  Definition d_url : json -> outcome url := d_from (fun s => of_option (url_parse (x_norm x) s)).
  Definition d_req : json -> outcome version_req := d_from (fun s => of_option (x_req x s)).
  Definition d_source_id : json -> outcome source_id := d_from (from_url (x_norm x)).
  Definition d_semver : json -> outcome version := d_from (fun s => of_option (parse_version s)).
  Definition d_metadata : json -> outcome metadata := d_obj (fun t =>
    let? id := jreq d_id "id" t in
    let? package := jreq d_str "package" t in
    let? title := jdef "" d_str "title" t in
    let? description := jdef "" d_str "description" t in
    let? date := jreq d_date "date" t in
    let? aliases := jdef [] (d_list d_id) "aliases" t in
    let? related := jdef [] (d_list d_id) "related" t in
    let? coll := jopt (d_from collection_from_str) "collection" t in
    let? categories := jdef [] (d_list (d_from (fun s => Ok (category_from_str s)))) "categories" t in
    let? keywords := jdef [] (d_list d_str) "keywords" t in
    let? cv := jopt (d_from cvss_parse) "cvss" t in
    let? info := jopt (d_from (fun s => Ok (informational_from_str s))) "informational" t in
    let? refs := jdef [] (d_list d_url) "references" t in
    let? source := jopt d_source_id "source" t in
    let? u := jopt d_url "url" t in
    let? withdrawn := jopt d_date "withdrawn" t in
    let? lic := jdef CcZero10 (d_from (fun s => Ok (license_from_str s))) "license" t in
    let? deleted := jdef false d_bool "expect-deleted" t in
    Ok (mkMeta id package title description date aliases related coll categories keywords cv info refs source u withdrawn lic deleted)).
  Definition d_versions : json -> outcome versions := d_obj (fun t =>
    let? p := jreq (d_list d_req) "patched" t in
    let? u := jdef [] (d_list d_req) "unaffected" t in
    versions_new (x_checks x) p u).
  Definition d_affects : json -> outcome affected := d_obj (fun t =>
    let? arch := jdef [] (d_list d_str) "arch" t in
    let? os := jdef [] (d_list d_str) "os" t in
    let? fs := jdef [] (d_obj (fun ft => d_map path_cmp path_from_str (d_list d_req) ft [])) "functions" t in
    Ok (mkAffected arch os fs)).
  Definition d_dependency : json -> outcome dependency := d_obj (fun t =>
    let? n := jreq d_str "name" t in
    let? v := jreq d_semver "version" t in
    let? s := jopt d_source_id "source" t in
    Ok (mkDep n v s)).
  Definition d_pkg : json -> outcome package := d_obj (fun t =>
    let? n := jreq d_str "name" t in
    let? v := jreq d_semver "version" t in
    let? s := jopt d_source_id "source" t in
    let? c := jopt (d_from checksum_from_str) "checksum" t in
    let? ds := jdef [] (d_list d_dependency) "dependencies" t in
    let? r := jopt d_dependency "replace" t in
    Ok (mkPkg n v s c ds r)).
  Definition d_vuln : json -> outcome json_vuln := d_obj (fun t =>
    let? a := jreq d_metadata "advisory" t in
    let? v := jreq d_versions "versions" t in
    let? f := jopt d_affects "affected" t in
    let? p := jreq d_pkg "package" t in
    Ok (mkJVuln a v f p)).
  Definition kind_of_str (s : string) : outcome warning_kind :=
    if String.eqb s "notice" then Ok WNotice else if String.eqb s "unmaintained" then Ok WUnmaintained
    else if String.eqb s "unsound" then Ok WUnsound else if String.eqb s "yanked" then Ok WYanked else Err.
  (** A variant without content: its name, or an object from its name to [null]. *)
  Definition d_kind (j : json) : outcome warning_kind :=
    match j with JStr s => kind_of_str s | JObj [(k, JNull)] => kind_of_str k | _ => Err end.
  Definition d_warning : json -> outcome json_warning := d_obj (fun t =>
    let? k := jreq d_kind "kind" t in
    let? p := jreq d_pkg "package" t in
    let? a := jopt d_metadata "advisory" t in
    let? f := jopt d_affects "affected" t in
    let? v := jopt d_versions "versions" t in
    Ok (mkJWarning k p a f v)).
  (** The derived order of [WarningKind]. *)
  Definition kind_rank (k : warning_kind) : nat := match k with WNotice => 0 | WUnmaintained => 1 | WUnsound => 2 | WYanked => 3 end.
  Definition kind_cmp (a b : warning_kind) : comparison := Nat.compare (kind_rank a) (kind_rank b).
  Definition d_settings : json -> outcome settings := d_obj (fun t =>
    let? a := jreq (d_list d_str) "target_arch" t in
    let? o := jreq (d_list d_str) "target_os" t in
    let? s := jopt (d_from severity_from_str) "severity" t in
    let? i := jreq (d_list d_id) "ignore" t in
    let? w := jreq (d_list (d_from (fun s => Ok (informational_from_str s)))) "informational_warnings" t in
    Ok (mkSettings a o s i w)).
  (** [last-updated] has a [with] attribute, so a missing field is an error although its type is an [Option]. *)
  Definition d_database : json -> outcome database_info := d_obj (fun t =>
    let? n := jreq d_nat "advisory-count" t in
    let? c := jopt d_str "last-commit" t in
    let? u := jreq (d_opt (d_from (fun s => of_option (read_time s)))) "last-updated" t in
    Ok (mkDbInfo n c u)).
  Definition report_of_json : json -> outcome full_report := d_obj (fun t =>
    let? d := jreq d_database "database" t in
    let? n := jreq (d_obj (jreq d_nat "dependency-count")) "lockfile" t in
    let? s := jreq d_settings "settings" t in
    let? v := jreq (d_obj (fun t => let? f := jreq d_bool "found" t in let? c := jreq d_nat "count" t in
                                    let? l := jreq (d_list d_vuln) "list" t in Ok (f, c, l))) "vulnerabilities" t in
    let? w := jreq (d_obj (fun t => d_map kind_cmp kind_of_str (d_list d_warning) t [])) "warnings" t in
    Ok (mkFullReport d n s (fst (fst v)) (snd (fst v)) (snd v) w)).
End Read.
