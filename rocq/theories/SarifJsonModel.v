(** The SARIF document of [cargo audit --format sarif] in full: /repo/cargo-audit/src/sarif.rs with its derived serde implementations,
    and presenter.rs:128-138.  (SarifModel keeps only ids, levels and fingerprints.)  The text of the JSON value is serde_json's. *)
From Coq Require Import List NArith ZArith Ascii String Bool Arith SpecFloat.
From Verif Require Import Base StrLib SemverModel OsvModel IdModel PkgModel DbModel VerText UrlModel CvssText CvssFloat PartsModel
  AdvModel MtimeModel OsvAdvModel AuditModel SarifModel ReportJsonModel SeverityModel.
Import ListNotations.
Local Open Scope string_scope.

(** [format!("{:.1}", x)] (standard library): the exact value rounded to tenths, ties to even; the sign of zero is written. *)
Definition round_even (n d : Z) : Z :=
  let q := Z.div n d in
  let r := Z.modulo n d in
  match Z.compare (2 * r) d with Lt => q | Gt => (q + 1)%Z | Eq => if Z.even q then q else (q + 1)%Z end.
Definition fmt1 (x : f64) : string :=
  match x with
  | S754_nan => "NaN"
  | S754_infinity s => if s then "-inf" else "inf"
  | S754_zero s => if s then "-0.0" else "0.0"
  | S754_finite s m e =>
      let t := if Z.leb 0 e then (10 * Z.pos m * 2 ^ e)%Z else round_even (10 * Z.pos m) (2 ^ (- e)) in
      (if s then "-" else "") ++ print_int (Z.div t 10) ++ "." ++ print_int (Z.modulo t 10)
  end.

(** [#[serde(skip_serializing_if = "Option::is_none")]]. *)
Definition member (k : string) (o : option json) : list (string * json) := match o with Some j => [(k, j)] | None => [] end.
(** sarif.rs:281-288 [MultiformatMessageString]. *)
Definition sj_text (text : string) (markdown : option string) : json :=
  JObj (("text", JStr text) :: member "markdown" (option_map JStr markdown)).
(** sarif.rs:273-276 [ReportingLevel], 381-384 [ResultLevel], camelCase. *)
Definition level_str (l : sarif_level) : string := match l with LError => "error" | LWarning => "warning" end.
(** sarif.rs:474-479 [Tag], 483-486 [Precision]: kebab-case. *)
Definition sj_tags (is_vulnerability : bool) : json :=
  JArr [JStr "security"; JStr (if is_vulnerability then "vulnerability" else "warning")].
(** sarif.rs:124-141 [ReportingDescriptor], 241-255 [RuleProperties], 267-270 [ReportingConfiguration]. *)
Definition sj_rule (id short : string) (full : option string) (l : sarif_level) (help : option json)
    (tags : json) (precision : string) (problem security : option string) : json :=
  JObj ([("id", JStr id); ("name", JStr id); ("shortDescription", sj_text short None)]
        ++ member "fullDescription" (option_map (fun d => sj_text d None) full)
        ++ [("defaultConfiguration", JObj [("level", JStr (level_str l))])]
        ++ member "help" help
        ++ [("properties", JObj ([("tags", tags); ("precision", JStr precision)]
              ++ member "problem.severity" (option_map JStr problem) ++ member "security-severity" (option_map JStr security)))])%list.
Section Score.
  (** [powf(_, 15.0)] of the platform (Cvss3). *)
  Context (pow : f64 -> f64).
  (** sarif.rs:145-196 [from_advisory]. *)
  Definition sj_rule_of_advisory (m : metadata) (is_vulnerability : bool) : outcome json :=
    let? security := match m_cvss m with
                     | Some c => let? x := cvss_score pow c in Ok (Some (fmt1 x))
                     | None => Ok None
                     end in
    Ok (sj_rule (id_string (m_id m)) (m_title m)
      (if String.eqb (m_description m) "" then None else Some (m_description m))
      (if is_vulnerability then LError else LWarning)
      (option_map (fun u => sj_text ("For more information, see: " ++ url_string u)
        (Some ("For more information, see: [" ++ id_string (m_id m) ++ "](" ++ url_string u ++ ")"))) (m_url m))
      (sj_tags is_vulnerability) "very-high" (if is_vulnerability then None else Some "warning") security).
End Score.
(** sarif.rs:199-235 [from_warning_kind]. *)
Definition sj_rule_of_kind (k : warning_kind) : json :=
  let '(name, description) :=
    match k with
    | WUnmaintained => ("unmaintained", "Package is unmaintained and may have unaddressed security vulnerabilities")
    | WUnsound => ("unsound", "Package has known soundness issues that may lead to memory safety problems")
    | WYanked => ("yanked", "Package version has been yanked from the registry")
    | WNotice => ("unknown", "Unknown warning type")
    end in
  sj_rule name description None LWarning None (sj_tags false) "high" (Some "warning") None.
(** sarif.rs:403-414 [Location::new], 419-461. *)
Definition sj_location (path : string) : json :=
  JObj [("physicalLocation", JObj [("artifactLocation", JObj [("uri", JStr path)]); ("region", JObj [("startLine", JNum "1")])])].
(** sarif.rs:292-303 [SarifResult], 389-392 [Message]. *)
Definition sj_result (rule message : string) (l : sarif_level) (path fingerprint : string) : json :=
  JObj [("ruleId", JStr rule); ("message", JObj [("text", JStr message)]); ("level", JStr (level_str l));
        ("locations", JArr [sj_location path]); ("partialFingerprints", JObj [("cargo-audit/advisory-fingerprint", JStr fingerprint)])].
(** sarif.rs:307-331 [from_vulnerability]. *)
Definition sj_result_of_vuln (path : string) (v : json_vuln) : json :=
  let id := id_string (m_id (jv_advisory v)) in
  let name := p_name (jv_package v) in
  let version := print_version (p_version (jv_package v)) in
  sj_result id (name ++ " " ++ version ++ " is vulnerable to " ++ id ++ " (" ++ m_title (jv_advisory v) ++ ")") LError path
    (id ++ ":" ++ name ++ ":" ++ version).
(** sarif.rs:334-376 [from_warning]. *)
Definition sj_result_of_warning (path : string) (w : json_warning) : json :=
  let rule := match jw_advisory w with Some m => id_string (m_id m) | None => warning_kind_str (jw_kind w) end in
  let name := p_name (jw_package w) in
  let version := print_version (p_version (jw_package w)) in
  let message := match jw_advisory w with
                 | Some m => name ++ " " ++ version ++ " has a " ++ warning_kind_str (jw_kind w) ++ " warning: " ++ m_title m
                 | None => name ++ " " ++ version ++ " has a " ++ warning_kind_str (jw_kind w) ++ " warning"
                 end in
  sj_result rule message LWarning path (rule ++ ":" ++ name ++ ":" ++ version).

Section Run.
  Context (pow : f64 -> f64) (path : string).
  (** The mutable variables of [from_report]: rules, seen rules, results. *)
  Definition sj_state : Type := list json * list string * list json.
  (** [if seen_rules.insert(id) { rules.push(..) }; results.push(..)]: the rule is only made if its id is new. *)
  Definition sj_push (id : string) (rule : outcome json) (result : json) (st : sj_state) : outcome sj_state :=
    let '(rules, seen, results) := st in
    if existsb (String.eqb id) seen then Ok (rules, seen, (results ++ [result])%list)
    else let? r := rule in Ok ((rules ++ [r])%list, id :: seen, (results ++ [result])%list).
  (** sarif.rs:57-65. *)
  Fixpoint sj_vulns (vs : list json_vuln) (st : sj_state) : outcome sj_state :=
    match vs with
    | [] => Ok st
    | v :: vs =>
        let? st := sj_push (id_string (m_id (jv_advisory v))) (sj_rule_of_advisory pow (jv_advisory v) true) (sj_result_of_vuln path v) st in
        sj_vulns vs st
    end.
  (** sarif.rs:68-83; [k] is the key of the map. *)
  Fixpoint sj_warnings (k : warning_kind) (ws : list json_warning) (st : sj_state) : outcome sj_state :=
    match ws with
    | [] => Ok st
    | w :: ws =>
        let? st := sj_push (match jw_advisory w with Some m => id_string (m_id m) | None => warning_kind_str k end)
                     (match jw_advisory w with Some m => sj_rule_of_advisory pow m false | None => Ok (sj_rule_of_kind k) end)
                     (sj_result_of_warning path w) st in
        sj_warnings k ws st
    end.
  Fixpoint sj_kinds (l : list (warning_kind * list json_warning)) (st : sj_state) : outcome sj_state :=
    match l with
    | [] => Ok st
    | (k, ws) :: l => let? st := sj_warnings k ws st in sj_kinds l st
    end.
  (** sarif.rs:24-40 [SarifLog], 43-92 [Run], 96-119 [Tool], [ToolComponent]; [pkg] is [CARGO_PKG_VERSION]. *)
  Definition sarif_log (pkg : string) (r : full_report) : outcome json :=
    let? st := sj_vulns (fr_list r) ([], [], []) in
    let? st := sj_kinds (fr_warnings r) st in
    let '(rules, _, results) := st in
    Ok (JObj [("$schema", JStr "https://json.schemastore.org/sarif-2.1.0.json"); ("version", JStr "2.1.0");
      ("runs", JArr [JObj [("tool", JObj [("driver", JObj [("name", JStr "cargo-audit"); ("version", JStr pkg);
         ("semanticVersion", JStr pkg); ("rules", JArr rules)])]); ("results", JArr results)]])]).
End Run.

(** What is audited: auditor.rs:203-218 [audit_lockfile] (for `-` too), 279-290 [audit_binary]. *)
Inductive audited := ALockfile (path : string) | ABinary (path : string).
(** auditor.rs:217, 290: the path given to [audit] and with it to the presenter, as [to_string_lossy] gives it. *)
Definition presented_path (a : audited) : option string := match a with ALockfile _ => None | ABinary p => Some p end.
(** presenter.rs:128-138. *)
Definition print_sarif (pow : f64 -> f64) (pkg : string) (path : option string) (r : full_report) : outcome json :=
  sarif_log pow (match path with Some p => p | None => "Cargo.lock" end) pkg r.
