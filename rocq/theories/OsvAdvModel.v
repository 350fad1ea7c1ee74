(** The OSV export of one advisory: /repo/rustsec/src/osv/advisory.rs, with the derived serde implementations of its types
    (crate serde_json), and /repo/admin/src/osv_export.rs. *)
From Coq Require Import List NArith ZArith Ascii String Bool Arith.
From Verif Require Import Base StrLib SemverModel OsvModel IdModel PkgModel DbModel VerText UrlModel CvssText ScanModel PartsModel
  AdvModel MtimeModel.
Import ListNotations.
Local Open Scope string_scope.

(** ** Types *)
(** 135-143 [enum OsvTimelineEvent]. *)
Inductive event := Introduced (v : string) | Fixed (v : string) | LastAffected (v : string).
(** 100-107 [struct OsvJsonRange]. *)
Record json_range := mkJRange { jr_kind : string; jr_events : list event }.
(** 47-56 [struct OsvPackage]. *)
Record osv_package := mkOPkg { op_ecosystem : string; op_name : string; op_purl : option string }.
(** 68-75 [enum OsvSeverity]. *)
Inductive osv_severity := SevV2 (v : slots) | SevV3 (b : base3) | SevV4 (v : slots).
(** 162-174 [enum OsvReferenceKind]. *)
Inductive ref_kind := RAdvisory | RArticle | RReport | RFix | RPackage | RWeb.
(** 145-152 [struct OsvReference]. *)
Record osv_reference := mkORef { or_kind : ref_kind; or_url : url }.
(** 182-189 [struct OsvEcosystemSpecificAffected]; a function path is its segments. *)
Record eco_affected := mkEcoA { ea_arch : list string; ea_os : list string; ea_functions : list (list string) }.
(** 176-180 [struct OsvEcosystemSpecific]. *)
Record eco_specific := mkEco { es_affects : option eco_affected; es_functions : option (list (list string)) }.
(** 201-207 [struct OsvDatabaseSpecific]. *)
Record db_specific := mkDbs { ds_categories : list category; ds_cvss : option cvss; ds_informational : option informational }.
(** 90-98 [struct OsvAffected]. *)
Record osv_affected := mkOAff { oa_package : osv_package; oa_eco : option eco_specific; oa_db : db_specific;
  oa_ranges : option (list json_range); oa_versions : option (list string) }.
(** 20-45 [struct OsvAdvisory]; [database_specific] (209-213) is its only field, the license. *)
Record osv_advisory := mkOsvAdv { o_schema : option version; o_id : adv_id; o_modified : string; o_published : string;
  o_withdrawn : option string; o_aliases : list adv_id; o_related : list adv_id; o_summary : string; o_details : string;
  o_severity : list osv_severity; o_affected : list osv_affected; o_references : list osv_reference; o_license : option string }.

(** ** Export *)
(** 18. *)
Definition ECOSYSTEM : string := "crates.io".
(** 58-66 [From<&Name> for OsvPackage]. *)
Definition package_of (name : string) : osv_package := mkOPkg ECOSYSTEM name (Some ("pkg:cargo/" ++ name)).
(** 77-88 [TryFrom<Cvss> for OsvSeverity]. *)
Definition severity_of (c : cvss) : osv_severity :=
  match c with CvssV20 v => SevV2 v | CvssV30 b => SevV3 b | CvssV31 b => SevV3 b | CvssV40 v => SevV4 v end.
(** 117-128: the events of one range. *)
Definition range_events (r : osv_range) : list event :=
  (match introduced r with Some v => [Introduced (print_version v)] | None => [Introduced "0.0.0-0"] end
   ++ match fixed r with Some v => [Fixed (print_version v)] | None => [] end)%list.
(** 110-133 [OsvJsonRange::new]; the [assert!] is the second [Panic]. *)
Definition json_range_new (checks : bool) (vs : versions) : outcome json_range :=
  let? ranges := ranges_for_advisory checks vs in
  match ranges with
  | [] => Panic
  | _ => Ok (mkJRange "SEMVER" (List.concat (map range_events ranges)))
  end.
(** 191-199. *)
Definition eco_affected_of (a : affected) : eco_affected := mkEcoA (af_arch a) (af_os a) (map fst (af_functions a)).
Definition affected_default : affected := mkAffected [] [] [].
(** 344-356 [guess_url_kind]. *)
Definition guess_url_kind (s : string) : ref_kind :=
  if (contains "://github.com/" s || contains "://gitlab." s) && contains "/issues/" s then RReport
  else if contains "/advisories/" s || contains "://www.cve.org/" s then RAdvisory
  else if contains "://crates.io/crates/" s then RPackage
  else RWeb.
(** 154-161 [From<Url>], 340-342 [osv_references]. *)
Definition reference_of (u : url) : osv_reference := mkORef (guess_url_kind (url_string u)) u.
(** 358-360 [rustsec_date_to_rfc3339].  [{:02}] on a number pads on the left with zeros. *)
Definition date_to_rfc3339 (d : string) : outcome string :=
  let? y := date_year d in
  let? m := date_month d in
  let? dd := date_day d in
  Ok (print_dec y ++ "-" ++ pad_left 2 (print_dec m) ++ "-" ++ pad_left 2 (print_dec dd) ++ "T12:00:00Z").
(** [YYYY-MM-DDThh:mm:ss] of [t] seconds after the epoch, on a clock without offset; the year must be between 0 and 9999 (crate
    time, the format Rfc3339).  [civil_of_day] is the calendar. *)
Definition clock (civil_of_day : Z -> Z * N * N) (t : Z) : option string :=
  let '(y, m, d) := civil_of_day (Z.div t 86400) in
  if (Z.leb 0 y && Z.leb y 9999)%bool then
    let s := Z.modulo t 86400 in
    let two z := pad_left 2 (print_int z) in
    Some (pad_left 4 (print_int y) ++ "-" ++ pad_left 2 (print_dec m) ++ "-" ++ pad_left 2 (print_dec d) ++ "T"
          ++ two (Z.div s 3600) ++ ":" ++ two (Z.modulo (Z.div s 60) 60) ++ ":" ++ two (Z.modulo s 60))
  else None.
(** 255-258: [OffsetDateTime::format(&Rfc3339)] in UTC; the [expect] is the [Panic]. *)
Definition rfc3339 (civil_of_day : Z -> Z * N * N) (t : Z) : outcome string :=
  match clock civil_of_day t with Some s => Ok (s ++ "Z") | None => Panic end.
(** [Url::parse(..).unwrap()]. *)
Definition url_unwrap (norm : string -> option string) (s : string) : outcome url :=
  match url_parse norm s with Some u => Ok u | None => Panic end.

(** 226-292 [OsvAdvisory::from_rustsec]. *)
Definition from_rustsec (x : externals) (civil_of_day : Z -> Z * N * N) (mt : mod_times) (p : path) (a : full_advisory)
  : outcome osv_advisory :=
  let m := f_meta a in
  let? package_url := url_unwrap (x_norm x) ("https://crates.io/crates/" ++ m_package m) in
  let? advisory_url := url_unwrap (x_norm x) ("https://rustsec.org/advisories/" ++ id_string (m_id m) ++ ".html") in
  let urls := (package_url :: advisory_url :: match m_url m with Some u => [u] | None => [] end ++ m_references m)%list in
  let? t := for_path mt p in
  let? modified := rfc3339 civil_of_day t in
  let? published := date_to_rfc3339 (m_date m) in
  let? range := json_range_new (x_checks x) (f_versions a) in
  let? withdrawn := match m_withdrawn m with
                    | None => Ok None
                    | Some d => let? s := date_to_rfc3339 d in Ok (Some s)
                    end in
  let aff := match f_affected a with Some af => af | None => affected_default end in
  Ok (mkOsvAdv None (m_id m) modified published withdrawn (m_aliases m) (m_related m) (m_title m) (m_description m)
        (match m_cvss m with Some c => [severity_of c] | None => [] end)
        [mkOAff (package_of (m_package m)) (Some (mkEco (Some (eco_affected_of aff)) None))
           (mkDbs (m_categories m) (m_cvss m) (m_informational m)) (Some [range]) (Some [])]
        (map reference_of urls) (Some (license_spdx (m_license m)))).

(** ** Import *)
(** id.rs:12-22, 169-186: the derived orders of [Id] and [IdKind]. *)
Definition kind_rank (k : id_kind) : N :=
  match k with KRustSec => 0 | KCve => 1 | KGhsa => 2 | KTalos => 3 | KOther => 4 end%N.
Definition opt_cmp (a b : option N) : comparison :=
  match a, b with None, None => Eq | None, _ => Lt | _, None => Gt | Some x, Some y => N.compare x y end.
Definition id_cmp (a b : adv_id) : comparison :=
  match N.compare (kind_rank (id_kind_of a)) (kind_rank (id_kind_of b)) with
  | Eq => match opt_cmp (id_year a) (id_year b) with Eq => str_cmp (id_string a) (id_string b) | c => c end
  | c => c
  end.
(** [Vec::sort] (stable) and [Vec::dedup], by a comparison. *)
Section Sort.
  Context {A : Type} (cmp : A -> A -> comparison).
  Fixpoint insert_sorted (x : A) (l : list A) : list A :=
    match l with
    | [] => [x]
    | y :: r => match cmp x y with Gt => y :: insert_sorted x r | _ => x :: l end
    end.
  Definition sort_list (l : list A) : list A := fold_right insert_sorted [] l.
  Fixpoint dedup (l : list A) : list A :=
    match l with
    | [] => []
    | x :: r => match r with
                | [] => [x]
                | y :: _ => match cmp x y with Eq => dedup r | _ => x :: dedup r end
                end
    end.
End Sort.
(** [&s[a..b]] on ASCII text: [None] is the panic. *)
Definition slice (a b : nat) (s : string) : option string :=
  if Nat.leb b (String.length s) then Some (substring a (b - a) s) else None.
Definition ADVISORIES_URL : string := "https://rustsec.org/advisories/".
(** 304: one reference. *)
Definition imported_id (r : osv_reference) : outcome adv_id :=
  match slice 31 48 (url_string (or_url r)) with
  | None => Panic
  | Some s => match id_from_str s with Ok i => Ok i | _ => Panic end
  end.
(** 294-309 [rustsec_refs_imported]. *)
Definition rustsec_refs_imported (o : osv_advisory) : outcome (list adv_id) :=
  let? ids := omap imported_id (filter (fun r => starts_with ADVISORIES_URL (url_string (or_url r))) (o_references o)) in
  Ok (dedup id_cmp (sort_list id_cmp ids)).
(** 311-327 [crates]. *)
Definition osv_crates (o : osv_advisory) : list string :=
  dedup str_cmp (sort_list str_cmp
    (map (fun a => op_name (oa_package a)) (filter (fun a => String.eqb (op_ecosystem (oa_package a)) ECOSYSTEM) (o_affected o)))).

(** ** JSON (crate serde_json).  [JNum]: a number, as its text.  An object is the list of its entries. *)
Inductive json := JNull | JBool (b : bool) | JNum (t : string) | JStr (s : string) | JArr (l : list json) | JObj (t : list (string * json)).

(** The derived [Serialize].  [Option] is [null] or the value; [skip_serializing_if] leaves the field out. *)
Definition j_opt {A} (f : A -> json) (o : option A) : json := match o with None => JNull | Some x => f x end.
Definition j_list {A} (f : A -> json) (l : list A) : json := JArr (map f l).
Definition j_skip {A} (k : string) (f : A -> json) (o : option A) : list (string * json) :=
  match o with None => [] | Some x => [(k, f x)] end.
Definition j_id (i : adv_id) : json := JStr (id_string i).
Definition j_event (e : event) : json :=
  match e with
  | Introduced v => JObj [("introduced", JStr v)] | Fixed v => JObj [("fixed", JStr v)]
  | LastAffected v => JObj [("last_affected", JStr v)]
  end.
Definition j_range (r : json_range) : json := JObj [("type", JStr (jr_kind r)); ("events", j_list j_event (jr_events r))].
Definition j_package (p : osv_package) : json :=
  JObj [("ecosystem", JStr (op_ecosystem p)); ("name", JStr (op_name p)); ("purl", j_opt JStr (op_purl p))].
Definition j_severity (s : osv_severity) : json :=
  match s with
  | SevV2 v => JObj [("type", JStr "CVSS_V2"); ("score", JStr (print2 v))]
  | SevV3 b => JObj [("type", JStr "CVSS_V3"); ("score", JStr (print3 b))]
  | SevV4 v => JObj [("type", JStr "CVSS_V4"); ("score", JStr (print4 v))]
  end.
Definition ref_kind_name (k : ref_kind) : string :=
  match k with RAdvisory => "ADVISORY" | RArticle => "ARTICLE" | RReport => "REPORT" | RFix => "FIX" | RPackage => "PACKAGE" | RWeb => "WEB" end.
Definition j_reference (r : osv_reference) : json :=
  JObj [("type", JStr (ref_kind_name (or_kind r))); ("url", JStr (url_string (or_url r)))].
(** A function path without segments panics ([path_string]); such a path cannot be built. *)
Definition j_path (p : list string) : json := match path_string p with Ok s => JStr s | _ => JNull end.
Definition j_eco_affected (e : eco_affected) : json :=
  JObj [("arch", j_list JStr (ea_arch e)); ("os", j_list JStr (ea_os e)); ("functions", j_list j_path (ea_functions e))].
Definition j_eco (e : eco_specific) : json :=
  JObj [("affects", j_opt j_eco_affected (es_affects e)); ("affected_functions", j_opt (j_list j_path) (es_functions e))].
Definition j_db (d : db_specific) : json :=
  JObj [("categories", j_list (fun c => JStr (category_name c)) (ds_categories d)); ("cvss", j_opt (fun c => JStr (cvss_print c)) (ds_cvss d));
        ("informational", j_opt (fun i => JStr (informational_str i)) (ds_informational d))].
Definition j_affected (a : osv_affected) : json :=
  JObj [("package", j_package (oa_package a)); ("ecosystem_specific", j_opt j_eco (oa_eco a)); ("database_specific", j_db (oa_db a));
        ("ranges", j_opt (j_list j_range) (oa_ranges a)); ("versions", j_opt (j_list JStr) (oa_versions a))].
Definition osv_to_json (o : osv_advisory) : json :=
  JObj (j_skip "schema_version" (fun v => JStr (print_version v)) (o_schema o)
    ++ [("id", j_id (o_id o)); ("modified", JStr (o_modified o)); ("published", JStr (o_published o))]
    ++ j_skip "withdrawn" JStr (o_withdrawn o)
    ++ [("aliases", j_list j_id (o_aliases o)); ("related", j_list j_id (o_related o)); ("summary", JStr (o_summary o));
        ("details", JStr (o_details o)); ("severity", j_list j_severity (o_severity o)); ("affected", j_list j_affected (o_affected o));
        ("references", j_list j_reference (o_references o)); ("database_specific", JObj [("license", j_opt JStr (o_license o))])])%list.

(** The derived [Deserialize].  A field that occurs twice is an error, unknown fields are ignored.  (The derived code also
    reads a struct from an array of its fields; not modelled.) *)
Definition jentries (k : string) (t : list (string * json)) : list json :=
  map snd (filter (fun e => String.eqb (fst e) k) t).
Definition jreq {A} (f : json -> outcome A) (k : string) (t : list (string * json)) : outcome A :=
  match jentries k t with [v] => f v | _ => Err end.
Definition jdef {A} (d : A) (f : json -> outcome A) (k : string) (t : list (string * json)) : outcome A :=
  match jentries k t with [] => Ok d | [v] => f v | _ => Err end.
Definition d_opt {A} (f : json -> outcome A) (j : json) : outcome (option A) :=
  match j with JNull => Ok None | _ => let? x := f j in Ok (Some x) end.
Definition jopt {A} (f : json -> outcome A) (k : string) (t : list (string * json)) : outcome (option A) := jdef None (d_opt f) k t.
Definition d_str (j : json) : outcome string := match j with JStr s => Ok s | _ => Err end.
Definition d_list {A} (f : json -> outcome A) (j : json) : outcome (list A) := match j with JArr l => omap f l | _ => Err end.
Definition d_obj {A} (f : list (string * json) -> outcome A) (j : json) : outcome A := match j with JObj t => f t | _ => Err end.
Definition d_from {A} (f : string -> outcome A) (j : json) : outcome A := let? s := d_str j in f s.
Definition d_id : json -> outcome adv_id := d_from id_from_str.
(** An externally tagged enum: an object with one entry. *)
Definition d_event (j : json) : outcome event :=
  match j with
  | JObj [(k, JStr s)] =>
      if String.eqb k "introduced" then Ok (Introduced s) else if String.eqb k "fixed" then Ok (Fixed s)
      else if String.eqb k "last_affected" then Ok (LastAffected s) else Err
  | _ => Err
  end.
Definition d_range : json -> outcome json_range := d_obj (fun t =>
  let? k := jreq d_str "type" t in let? e := jreq (d_list d_event) "events" t in Ok (mkJRange k e)).
Definition d_package : json -> outcome osv_package := d_obj (fun t =>
  let? e := jreq d_str "ecosystem" t in let? n := jreq d_str "name" t in let? p := jopt d_str "purl" t in Ok (mkOPkg e n p)).
(** 70-75: an adjacently tagged enum. *)
Definition d_severity : json -> outcome osv_severity := d_obj (fun t =>
  let? k := jreq d_str "type" t in
  jreq (d_from (fun s =>
    if String.eqb k "CVSS_V2" then let? v := parse2 s in Ok (SevV2 v)
    else if String.eqb k "CVSS_V3" then let? v := parse3 s in Ok (SevV3 v)
    else if String.eqb k "CVSS_V4" then let? v := parse4 s in Ok (SevV4 v)
    else Err)) "score" t).
Definition ref_kind_of (s : string) : outcome ref_kind :=
  if String.eqb s "ADVISORY" then Ok RAdvisory else if String.eqb s "ARTICLE" then Ok RArticle
  else if String.eqb s "REPORT" then Ok RReport else if String.eqb s "FIX" then Ok RFix
  else if String.eqb s "PACKAGE" then Ok RPackage else if String.eqb s "WEB" then Ok RWeb else Err.
(** A variant without content: its name, or an object from its name to [null]. *)
Definition d_ref_kind (j : json) : outcome ref_kind :=
  match j with JStr s => ref_kind_of s | JObj [(k, JNull)] => ref_kind_of k | _ => Err end.
Section Read.
  Context (norm : string -> option string).
  Definition d_reference : json -> outcome osv_reference := d_obj (fun t =>
    let? k := jreq d_ref_kind "type" t in let? u := jreq (d_from (fun s => of_option (url_parse norm s))) "url" t in Ok (mkORef k u)).
  Definition d_eco_affected : json -> outcome eco_affected := d_obj (fun t =>
    let? a := jreq (d_list d_str) "arch" t in let? o := jreq (d_list d_str) "os" t in
    let? f := jreq (d_list (d_from path_from_str)) "functions" t in Ok (mkEcoA a o f)).
  Definition d_eco : json -> outcome eco_specific := d_obj (fun t =>
    let? a := jopt d_eco_affected "affects" t in let? f := jopt (d_list (d_from path_from_str)) "affected_functions" t in Ok (mkEco a f)).
  Definition d_db : json -> outcome db_specific := d_obj (fun t =>
    let? c := jdef [] (d_list (d_from (fun s => Ok (category_from_str s)))) "categories" t in
    let? v := jopt (d_from cvss_parse) "cvss" t in
    let? i := jopt (d_from (fun s => Ok (informational_from_str s))) "informational" t in Ok (mkDbs c v i)).
  Definition d_affected : json -> outcome osv_affected := d_obj (fun t =>
    let? p := jreq d_package "package" t in let? e := jopt d_eco "ecosystem_specific" t in let? d := jreq d_db "database_specific" t in
    let? r := jopt (d_list d_range) "ranges" t in let? v := jopt (d_list d_str) "versions" t in Ok (mkOAff p e d r v)).
  Definition osv_of_json : json -> outcome osv_advisory := d_obj (fun t =>
    let? schema := jopt (d_from (fun s => of_option (parse_version s))) "schema_version" t in
    let? id := jreq d_id "id" t in
    let? modified := jreq d_str "modified" t in
    let? published := jreq d_str "published" t in
    let? withdrawn := jopt d_str "withdrawn" t in
    let? aliases := jdef [] (d_list d_id) "aliases" t in
    let? related := jdef [] (d_list d_id) "related" t in
    let? summary := jreq d_str "summary" t in
    let? details := jreq d_str "details" t in
    let? severity := jdef [] (d_list d_severity) "severity" t in
    let? aff := jdef [] (d_list d_affected) "affected" t in
    let? refs := jdef [] (d_list d_reference) "references" t in
    let? license := jdef None (d_obj (jopt d_str "license")) "database_specific" t in
    Ok (mkOsvAdv schema id modified published withdrawn aliases related summary details severity aff refs license)).
End Read.
