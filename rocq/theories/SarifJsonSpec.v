(** What a SARIF document of an audit says. *)
From Coq Require Import List NArith ZArith Ascii String Bool Arith.
From Verif Require Import Base StrLib SemverModel OsvModel IdModel PkgModel DbModel VerText UrlModel CvssText PartsModel
  AdvModel MtimeModel OsvAdvModel AuditModel ReportJsonModel JsonSpec ReportJsonSpec PropsSeverity.
Import ListNotations.
Local Open Scope string_scope.

(** ** Findings of a report: the vulnerabilities, then the warnings kind by kind *)
Inductive finding := Vulnerable (v : json_vuln) | Warned (w : json_warning).
Definition all_findings (r : full_report) : list finding :=
  (map Vulnerable (fr_list r) ++ flat_map (fun e => map Warned (snd e)) (fr_warnings r))%list.
Definition advisory_of (f : finding) : option metadata := match f with Vulnerable v => Some (jv_advisory v) | Warned w => jw_advisory w end.
Definition package_of (f : finding) : package := match f with Vulnerable v => jv_package v | Warned w => jw_package w end.
Definition kind_text (k : warning_kind) : string :=
  match k with WNotice => "notice" | WUnmaintained => "unmaintained" | WUnsound => "unsound" | WYanked => "yanked" end.
(** The rule of a finding: its advisory's id, or the kind of a warning without advisory. *)
Definition rule_of (f : finding) : string :=
  match f with
  | Vulnerable v => id_string (m_id (jv_advisory v))
  | Warned w => match jw_advisory w with Some m => id_string (m_id m) | None => kind_text (jw_kind w) end
  end.
Definition level_of (f : finding) : string := match f with Vulnerable _ => "error" | Warned _ => "warning" end.
(** Reports as audits make them: warnings are filed under their kind; without advisory are only those for yanked packages. *)
Definition well_filed (r : full_report) : Prop :=
  forall k ws w, In (k, ws) (fr_warnings r) -> In w ws -> jw_kind w = k /\ (jw_advisory w = None -> k = WYanked).
(** The scores in the report are of vectors that were read from texts. *)
Definition scores_read (r : full_report) : Prop :=
  forall f m c, In f (all_findings r) -> advisory_of f = Some m -> m_cvss m = Some c -> exists s, cvss_parse s = Ok c.
(** Of the findings with one rule, the first. *)
Fixpoint firsts (l : list finding) : list finding :=
  match l with
  | [] => []
  | f :: l => f :: filter (fun g => negb (String.eqb (rule_of g) (rule_of f))) (firsts l)
  end.

(** ** Results *)
Definition named (p : package) : string := p_name p ++ " " ++ print_version (p_version p).
Definition message_of (f : finding) : string :=
  match f with
  | Vulnerable v => named (jv_package v) ++ " is vulnerable to " ++ id_string (m_id (jv_advisory v)) ++ " (" ++ m_title (jv_advisory v) ++ ")"
  | Warned w => named (jw_package w) ++ " has a " ++ kind_text (jw_kind w) ++ " warning" ++
                match jw_advisory w with Some m => ": " ++ m_title m | None => "" end
  end.
Definition fingerprint_of (f : finding) : string :=
  rule_of f ++ ":" ++ p_name (package_of f) ++ ":" ++ print_version (p_version (package_of f)).
Record says_result (uri : string) (f : finding) (j : json) : Prop := {
  sx_members : exists t, j = JObj t /\ map fst t = ["ruleId"; "message"; "level"; "locations"; "partialFingerprints"];
  sx_rule : reach j ["ruleId"] (JStr (rule_of f));
  sx_message : reach j ["message"; "text"] (JStr (message_of f));
  sx_level : reach j ["level"] (JStr (level_of f));
  sx_location : exists l, reach j ["locations"] (JArr [l]) /\ reach l ["physicalLocation"; "artifactLocation"; "uri"] (JStr uri) /\
                  reach l ["physicalLocation"; "region"; "startLine"] (JNum "1");
  sx_fingerprint : reach j ["partialFingerprints"; "cargo-audit/advisory-fingerprint"] (JStr (fingerprint_of f)) }.

(** ** Rules *)
(** There is no member at the end of the path. *)
Definition no_member (j : json) (ks : list string) : Prop := forall v, ~ reach j ks v.
(** A score in tenths as people write it. *)
Definition score_text (n : Z) : string := print_int (n / 10) ++ "." ++ print_int (n mod 10).
Record says_advisory_rule (f : finding) (m : metadata) (j : json) : Prop := {
  sy_short : reach j ["shortDescription"; "text"] (JStr (m_title m));
  sy_full : (m_description m <> "" -> reach j ["fullDescription"; "text"] (JStr (m_description m))) /\
            (m_description m = "" -> no_member j ["fullDescription"]);
  sy_help : match m_url m with
            | Some u => reach j ["help"; "text"] (JStr ("For more information, see: " ++ url_string u)) /\
                        reach j ["help"; "markdown"] (JStr ("For more information, see: [" ++ id_string (m_id m) ++ "](" ++ url_string u ++ ")"))
            | None => no_member j ["help"]
            end;
  sy_precision : reach j ["properties"; "precision"] (JStr "very-high");
  sy_severity : match m_cvss m with
                | Some c => exists n, published_score c n /\ reach j ["properties"; "security-severity"] (JStr (score_text n))
                | None => no_member j ["properties"; "security-severity"]
                end }.
Record says_yanked_rule (j : json) : Prop := {
  sz_short : reach j ["shortDescription"; "text"] (JStr "Package version has been yanked from the registry");
  sz_full : no_member j ["fullDescription"];
  sz_help : no_member j ["help"];
  sz_precision : reach j ["properties"; "precision"] (JStr "high");
  sz_severity : no_member j ["properties"; "security-severity"] }.
Record says_rule (f : finding) (j : json) : Prop := {
  su_id : reach j ["id"] (JStr (rule_of f));
  su_name : reach j ["name"] (JStr (rule_of f));
  su_level : reach j ["defaultConfiguration"; "level"] (JStr (level_of f));
  su_tags : reach j ["properties"; "tags"] (JArr [JStr "security"; JStr (match f with Vulnerable _ => "vulnerability" | Warned _ => "warning" end)]);
  su_problem : match f with
               | Vulnerable _ => no_member j ["properties"; "problem.severity"]
               | Warned _ => reach j ["properties"; "problem.severity"] (JStr "warning")
               end;
  su_rest : match advisory_of f with Some m => says_advisory_rule f m j | None => says_yanked_rule j end }.

(** ** The document: one run of the tool, [rules] and [results] *)
Definition says_run (j : json) (pkg : string) (rules results : list json) : Prop :=
  reach j ["$schema"] (JStr "https://json.schemastore.org/sarif-2.1.0.json") /\ reach j ["version"] (JStr "2.1.0") /\
  exists run, reach j ["runs"] (JArr [run]) /\
    reach run ["tool"; "driver"; "name"] (JStr "cargo-audit") /\ reach run ["tool"; "driver"; "version"] (JStr pkg) /\
    reach run ["tool"; "driver"; "semanticVersion"] (JStr pkg) /\
    reach run ["tool"; "driver"; "rules"] (JArr rules) /\ reach run ["results"] (JArr results).
