(** What a JSON report says, member by member, and when it can be read back. *)
From Coq Require Import List NArith ZArith Ascii String Bool Arith Sorting.Sorted.
From Verif Require Import Base StrLib SemverModel OsvModel IdModel IdSpec PkgModel DbModel DbSpec VerText UrlModel UrlSpec SumModel CvssText ScanModel PartsModel
  AdvModel MtimeModel OsvAdvModel LockModel AuditModel ConfigModel ConfigSpec DecodeSpec JsonSpec PropsMtime ReportJsonModel.
Import ListNotations.
Local Open Scope string_scope.

(** ** Values *)
Definition bool_is (j : json) (b : bool) : Prop := j = JBool b.
Definition num (j : json) (n : nat) : Prop := exists s, j = JNum s /\ digits s /\ value s = N.of_nat n /\ (value s <= u64_max)%N.
Definition warning_name (s : string) (k : warning_kind) : Prop :=
  match k with WNotice => s = "notice" | WUnmaintained => s = "unmaintained" | WUnsound => s = "unsound" | WYanked => s = "yanked" end.
Definition says_kind (j : json) (k : warning_kind) : Prop := exists s, (j = JStr s \/ j = JObj [(s, JNull)]) /\ warning_name s k.
(** An object as a map: of members with the same key the last one counts; the result is in the order of keys. *)
Definition says_map {K V} (before : K -> K -> Prop) (KR : string -> K -> Prop) (VR : json -> V -> Prop) (t : members) (m : list (K * V)) : Prop :=
  (forall s j, In (s, j) t -> exists k v, KR s k /\ VR j v) /\ StronglySorted before (map fst m) /\
  forall k v, In (k, v) m <-> exists l s j r, t = (l ++ (s, j) :: r)%list /\ KR s k /\ VR j v /\ forall s' j', In (s', j') r -> ~ KR s' k.
Definition kind_before (a b : warning_kind) : Prop := kind_cmp a b = Lt.

Section Says.
  Context (x : externals) (read_time : string -> option gtime).
  Definition a_version (s : string) (v : version) : Prop := parse_version s = Some v.
  Definition a_checksum (s : string) (c : list N) : Prop := checksum_from_str s = Ok c.
  Record says_metadata (t : members) (m : metadata) : Prop := {
    sm_id : must t "id" (str an_id) (m_id m);
    sm_package : must t "package" (str is) (m_package m);
    sm_title : or_else t "title" (str is) "" (m_title m);
    sm_description : or_else t "description" (str is) "" (m_description m);
    sm_date : must t "date" (str (a_day x)) (m_date m);
    sm_aliases : or_else t "aliases" (arr (str an_id)) [] (m_aliases m);
    sm_related : or_else t "related" (arr (str an_id)) [] (m_related m);
    sm_collection : may t "collection" (str collection_name) (m_collection m);
    sm_categories : or_else t "categories" (arr (str category_named)) [] (m_categories m);
    sm_keywords : or_else t "keywords" (arr (str is)) [] (m_keywords m);
    sm_cvss : may t "cvss" (str a_score) (m_cvss m);
    sm_informational : may t "informational" (str informational_named) (m_informational m);
    sm_references : or_else t "references" (arr (str (a_url x))) [] (m_references m);
    sm_source : may t "source" (str (a_source x)) (m_source m);
    sm_url : may t "url" (str (a_url x)) (m_url m);
    sm_withdrawn : may t "withdrawn" (str (a_day x)) (m_withdrawn m);
    sm_license : or_else t "license" (str license_named) CcZero10 (m_license m);
    sm_expect_deleted : or_else t "expect-deleted" bool_is false (m_expect_deleted m) }.
  (** The requirements, acceptable together (C01-C11). *)
  Record says_safe (t : members) (v : versions) : Prop := {
    ss_patched : must t "patched" (arr (str (a_req x))) (patched v);
    ss_unaffected : or_else t "unaffected" (arr (str (a_req x))) [] (unaffected v);
    ss_valid : versions_new (x_checks x) (patched v) (unaffected v) = Ok v }.
  Record says_affects (t : members) (a : affected) : Prop := {
    sa_arch : or_else t "arch" (arr (str is)) [] (af_arch a);
    sa_os : or_else t "os" (arr (str is)) [] (af_os a);
    sa_functions : or_else t "functions" (obj (says_map path_before a_path (arr (str (a_req x))))) [] (af_functions a) }.
  Record says_dependency (t : members) (d : dependency) : Prop := {
    sd_name : must t "name" (str is) (d_name d);
    sd_version : must t "version" (str a_version) (d_version d);
    sd_source : may t "source" (str (a_source x)) (d_source d) }.
  Record says_pkg (t : members) (p : package) : Prop := {
    sp_name : must t "name" (str is) (p_name p);
    sp_version : must t "version" (str a_version) (p_version p);
    sp_source : may t "source" (str (a_source x)) (p_source p);
    sp_checksum : may t "checksum" (str a_checksum) (p_checksum p);
    sp_deps : or_else t "dependencies" (arr (obj says_dependency)) [] (p_deps p);
    sp_replace : may t "replace" (obj says_dependency) (p_replace p) }.
  Record says_vuln (t : members) (v : json_vuln) : Prop := {
    sv_advisory : must t "advisory" (obj says_metadata) (jv_advisory v);
    sv_versions : must t "versions" (obj says_safe) (jv_versions v);
    sv_affected : may t "affected" (obj says_affects) (jv_affected v);
    sv_package : must t "package" (obj says_pkg) (jv_package v) }.
  Record says_warning (t : members) (w : json_warning) : Prop := {
    sw_kind : must t "kind" says_kind (jw_kind w);
    sw_package : must t "package" (obj says_pkg) (jw_package w);
    sw_advisory : may t "advisory" (obj says_metadata) (jw_advisory w);
    sw_affected : may t "affected" (obj says_affects) (jw_affected w);
    sw_versions : may t "versions" (obj says_safe) (jw_versions w) }.
  Record says_settings (t : members) (s : settings) : Prop := {
    se_arch : must t "target_arch" (arr (str is)) (st_arch s);
    se_os : must t "target_os" (arr (str is)) (st_os s);
    se_severity : may t "severity" (str severity_named) (st_severity s);
    se_ignore : must t "ignore" (arr (str an_id)) (st_ignore s);
    se_info : must t "informational_warnings" (arr (str informational_named)) (st_info s) }.
  (** The time may be [null] but not left out. *)
  Definition a_time (j : json) (o : option gtime) : Prop :=
    match o with Some t => str (fun s t => read_time s = Some t) j t | None => j = JNull end.
  Record says_database (t : members) (d : database_info) : Prop := {
    sb_count : must t "advisory-count" num (di_count d);
    sb_commit : may t "last-commit" (str is) (di_commit d);
    sb_updated : must t "last-updated" a_time (di_updated d) }.
  Record says_findings (t : members) (r : full_report) : Prop := {
    sg_found : must t "found" bool_is (fr_found r);
    sg_count : must t "count" num (fr_count r);
    sg_list : must t "list" (arr (obj says_vuln)) (fr_list r) }.
  Record says_report (t : members) (r : full_report) : Prop := {
    sr_database : must t "database" (obj says_database) (fr_database r);
    sr_lockfile : must t "lockfile" (obj (fun t => must t "dependency-count" num)) (fr_dependencies r);
    sr_settings : must t "settings" (obj says_settings) (fr_settings r);
    sr_vulnerabilities : must t "vulnerabilities" (obj says_findings) r;
    sr_warnings : must t "warnings" (obj (says_map kind_before warning_name (arr (obj says_warning)))) (fr_warnings r) }.
End Says.

(** ** Time stamps with an offset: [YYYY-MM-DDThh:mm:ss] on a clock that is ahead of UTC by the offset, then [Z] or the offset. *)
Definition zone (o : Z) (s : string) : Prop :=
  (o = 0%Z /\ s = "Z") \/
  (o <> 0%Z /\ exists hs ms, number 2 hs /\ number 2 ms /\ (value hs < 24)%N /\ (value ms < 60)%N /\
     let k := (Z.of_N (value hs) * 3600 + Z.of_N (value ms) * 60)%Z in
     ((o = k /\ s = ("+" ++ hs ++ ":" ++ ms)%string) \/ (o = - k /\ s = ("-" ++ hs ++ ":" ++ ms)%string)%Z)).
Definition stamp (t : gtime) (s : string) : Prop :=
  exists c z, s = (c ++ z)%string /\ clock_text (t_seconds t + t_offset t) c /\ zone (t_offset t) z.
(** The times that can be written: a year of four digits, an offset of whole minutes and less than a day. *)
Definition can_be_written (t : gtime) : Prop :=
  (0 <= fst (fst (gregorian ((t_seconds t + t_offset t) / 86400))) <= 9999)%Z /\ (Z.abs (t_offset t) < 86400)%Z /\ (60 | t_offset t)%Z.

(** ** What is assumed of the external parsers and printers *)
Definition reads_stamps (read_time : string -> option gtime) : Prop := forall t s, stamp t s -> read_time s = Some t.
Definition reads_printed (req : string -> option version_req) (print_req : version_req -> string) : Prop :=
  forall s r, req s = Some r -> req (print_req r) = Some r.

(** ** What survives: sources other than paths, whose branch, tag or revision can be written without escapes (C34) *)
Definition kept_source (s : source_id) : Prop := s_kind s <> SPath /\ plain_ref s.
Definition kept (o : option source_id) : Prop := forall s, o = Some s -> kept_source s.
Definition kept_package (p : package) : Prop :=
  kept (p_source p) /\ (forall d, In d (p_deps p) -> kept (d_source d)) /\ (forall d, p_replace p = Some d -> kept (d_source d)).

(** ** Reports made of what was read *)
Section Made.
  Context (x : externals).
  (** An advisory of a database: parsed from a file; the directory gives the collection (C17). *)
  Definition loaded_advisory (a : full_advisory) : Prop :=
    exists toml data b c, (forall s t, toml s = Some t -> one_each (TTab t)) /\ full_from_str x toml data = Ok b /\ a = in_collection b c.
  (** A package of a lockfile. *)
  Definition loaded_package (p : package) : Prop := exists raw l, load (x_norm x) raw = Ok l /\ In p (lk_packages l).
  Definition made_vuln (v : json_vuln) : Prop :=
    loaded_package (jv_package v) /\ exists a, loaded_advisory a /\ v = mkJVuln (f_meta a) (f_versions a) (f_affected a) (jv_package v).
  Definition made_warning (w : json_warning) : Prop :=
    loaded_package (jw_package w) /\
    (w = mkJWarning (jw_kind w) (jw_package w) None None None \/
     exists a, loaded_advisory a /\ w = mkJWarning (jw_kind w) (jw_package w) (Some (f_meta a)) (f_affected a) (Some (f_versions a))).
  Definition made_settings (s : settings) : Prop :=
    (forall i, In i (st_ignore s) -> exists t, an_id t i) /\ (forall i, In i (st_info s) -> exists t, informational_named t i).
  Record made (r : full_report) : Prop := {
    md_vulns : forall v, In v (fr_list r) -> made_vuln v;
    md_warnings : forall k ws w, In (k, ws) (fr_warnings r) -> In w ws -> made_warning w;
    md_kinds : StronglySorted kind_before (map fst (fr_warnings r));
    md_settings : made_settings (fr_settings r);
    md_sizes : (N.of_nat (di_count (fr_database r)) <= u64_max /\ N.of_nat (fr_dependencies r) <= u64_max /\ N.of_nat (fr_count r) <= u64_max)%N }.
End Made.
Definition kept_report (r : full_report) : Prop :=
  (forall v, In v (fr_list r) -> kept_package (jv_package v) /\ kept (m_source (jv_advisory v))) /\
  (forall k ws w, In (k, ws) (fr_warnings r) -> In w ws -> kept_package (jw_package w) /\ forall m, jw_advisory w = Some m -> kept (m_source m)).

(** The value at the end of a path of member names. *)
Fixpoint reach (j : json) (ks : list string) (v : json) : Prop :=
  match ks with
  | [] => v = j
  | k :: r => exists t w, j = JObj t /\ only t k w /\ reach w r v
  end.

(** What a JSON report lists: an entry with this advisory and this package, in [vulnerabilities.list]; under [warnings] by kind; a
    yanked package. *)
Definition of_package (e : json) (name version : string) : Prop :=
  reach e ["package"; "name"] (JStr name) /\ reach e ["package"; "version"] (JStr version).
Definition lists_vulnerability (j : json) (id name version : string) : Prop :=
  exists js e, reach j ["vulnerabilities"; "list"] (JArr js) /\ In e js /\ reach e ["advisory"; "id"] (JStr id) /\ of_package e name version.
Definition lists_warning (j : json) (kind id name version : string) : Prop :=
  exists js e, reach j ["warnings"; kind] (JArr js) /\ In e js /\ reach e ["kind"] (JStr kind) /\ reach e ["advisory"; "id"] (JStr id) /\ of_package e name version.
Definition lists_yanked (j : json) (name version : string) : Prop :=
  exists js e, reach j ["warnings"; "yanked"] (JArr js) /\ In e js /\ reach e ["kind"] (JStr "yanked") /\ reach e ["advisory"] JNull /\ of_package e name version.
(** The configuration was read from texts (C61, C79). *)
Definition made_config (c : config) : Prop :=
  (forall i, In i (cf_ignore c) -> exists t, an_id t i) /\ (forall l i, cf_info c = Some l -> In i l -> exists t, informational_named t i).
(** The whole advisories of a database, as they were loaded, behind the fields queries look at. *)
Definition in_full (x : externals) (sev : cvss -> severity) (text : metadata -> string) (full : advisory -> full_advisory) (advs : list advisory) : Prop :=
  forall a, In a advs -> loaded_advisory x (full a) /\ to_db sev text (full a) = a.
