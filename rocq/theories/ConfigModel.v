(** The configuration file of `cargo audit`: the derived [Deserialize] implementations of /repo/cargo-audit/src/config.rs, and
    the choice of the file in /repo/cargo-audit/src/commands.rs. *)
From Coq Require Import List NArith Ascii String Bool Arith.
From Verif Require Import Base StrLib IdModel DbModel AdvModel AuditModel.
Import ListNotations.
Local Open Scope string_scope.

(** [str::to_ascii_lowercase]. *)
Definition ascii_lower (c : ascii) : ascii :=
  let n := N_of_ascii c in if (N.leb 65 n && N.leb n 90)%bool then ascii_of_N (n + 32) else c.
Fixpoint to_ascii_lowercase (s : string) : string :=
  match s with EmptyString => EmptyString | String c r => String (ascii_lower c) (to_ascii_lowercase r) end.
(** cvss/src/severity.rs:56-69 [FromStr for Severity], 79-87 [Deserialize]. *)
Definition severity_from_str (s : string) : outcome severity :=
  let l := to_ascii_lowercase s in
  if String.eqb l "none" then Ok SevNone
  else if String.eqb l "low" then Ok SevLow
  else if String.eqb l "medium" then Ok SevMedium
  else if String.eqb l "high" then Ok SevHigh
  else if String.eqb l "critical" then Ok SevCritical
  else Err.
(** config.rs:171-190: the derived [Deserialize for DenyOption], by the names in [serde(rename)].  Simplified: a variant is
    written as a text (the derived code also takes a table with the name as its only key and an empty value). *)
Definition de_deny (s : string) : outcome deny_option :=
  if String.eqb s "warnings" then Ok DWarnings
  else if String.eqb s "unmaintained" then Ok DUnmaintained
  else if String.eqb s "unsound" then Ok DUnsound
  else if String.eqb s "yanked" then Ok DYanked
  else Err.
(** config.rs:235-249: the derived [Deserialize for OutputFormat]; simplified in the same way. *)
Definition de_format (s : string) : outcome output_format :=
  if String.eqb s "json" then Ok FJson
  else if String.eqb s "sarif" then Ok FSarif
  else if String.eqb s "terminal" then Ok FTerminal
  else Err.
(** config.rs:275-282: the derived [Deserialize for FilterList<String>], untagged: the first variant that fits. *)
Definition de_filter (v : tval) : outcome filter_list :=
  match de_string v with
  | Ok s => Ok (Single s)
  | _ => match de_list de_string v with Ok l => Ok (Many l) | _ => Err end
  end.

(** [#[serde(deny_unknown_fields)]]: a table all of whose keys are fields.  Simplified: a section is written as a table (the
    derived code also takes an array with one element per field). *)
Definition only_fields (ks : list string) (t : ttable) : bool := forallb (fun e => existsb (String.eqb (fst e)) ks) t.
Definition de_section {A} (ks : list string) (f : ttable -> outcome A) (v : tval) : outcome A :=
  match v with TTab t => if only_fields ks t then f t else Err | _ => Err end.

(** config.rs:92-109 [struct AdvisoryConfig]. *)
Definition sec_advisories : Type := list adv_id * option (list informational) * option severity.
Definition de_advisories : tval -> outcome sec_advisories :=
  de_section ["ignore"; "informational_warnings"; "severity_threshold"] (fun t =>
    let? ignore := field_def [] (de_list de_id) "ignore" t in
    let? info := field_opt (de_list (de_from (fun s => Ok (informational_from_str s)))) "informational_warnings" t in
    let? sev := field_opt (de_from severity_from_str) "severity_threshold" t in
    Ok (ignore, info, sev)).
(** config.rs:115-132 [struct DatabaseConfig]: [stale] has no default. *)
Definition sec_database : Type := option string * option string * bool * bool.
Definition de_database : tval -> outcome sec_database :=
  de_section ["path"; "url"; "fetch"; "stale"] (fun t =>
    let? path := field_opt de_string "path" t in
    let? url := field_opt de_string "url" t in
    let? fetch := field_def true de_bool "fetch" t in
    let? stale := field_req de_bool "stale" t in
    Ok (path, url, fetch, stale)).
(** config.rs:145-163 [struct OutputConfig]: [quiet] has no default. *)
Definition sec_output : Type := list deny_option * output_format * bool * bool.
Definition de_output : tval -> outcome sec_output :=
  de_section ["deny"; "format"; "quiet"; "show_tree"] (fun t =>
    let? deny := field_def [] (de_list (de_from de_deny)) "deny" t in
    let? format := field_def FTerminal (de_from de_format) "format" t in
    let? quiet := field_req de_bool "quiet" t in
    let? tree := field_def true de_bool "show_tree" t in
    Ok (deny, format, quiet, tree)).
(** config.rs:285-294 [struct TargetConfig]. *)
Definition sec_target : Type := option filter_list * option filter_list.
Definition de_target : tval -> outcome sec_target :=
  de_section ["arch"; "os"] (fun t =>
    let? arch := field_opt de_filter "arch" t in
    let? os := field_opt de_filter "os" t in
    Ok (arch, os)).
(** config.rs:317-328 [struct YankedConfig]. *)
Definition sec_yanked : Type := bool * bool.
Definition de_yanked : tval -> outcome sec_yanked :=
  de_section ["enabled"; "update_index"] (fun t =>
    let? enabled := field_def true de_bool "enabled" t in
    let? update := field_def true de_bool "update_index" t in
    Ok (enabled, update)).
(** config.rs:12-34: the derived [Deserialize for AuditConfig].  A section that is left out is the [Default] of its type: derived
    for [AdvisoryConfig], [OutputConfig] (so [show_tree] is false) and [TargetConfig], 134-143 and 330-337 for the others. *)
Definition config_of_table (t : ttable) : outcome config :=
  if only_fields ["advisories"; "database"; "output"; "target"; "yanked"] t then
    let? a := field_def ([], None, None) de_advisories "advisories" t in
    let? d := field_def (None, None, true, false) de_database "database" t in
    let? o := field_def ([], FTerminal, false, false) de_output "output" t in
    let? g := field_def (None, None) de_target "target" t in
    let? y := field_def (true, true) de_yanked "yanked" t in
    let '(ignore, info, sev) := a in
    let '(path, url, fetch, stale) := d in
    let '(deny, format, quiet, tree) := o in
    let '(arch, os) := g in
    let '(enabled, update) := y in
    Ok (mkConfig ignore info sev path url fetch stale deny format quiet tree arch os enabled update)
  else Err.

(** ** The file *)
(** What the file system holds: the text of the file at a path, if there is one. *)
Definition files := string -> option string.
Definition exists_file (fs : files) (p : string) : bool := match fs p with Some _ => true | None => false end.
(** commands.rs:21, 54-77 [config_path]; [home] is [home::cargo_home()], a directory or an error. *)
Definition CONFIG_FILE : string := "audit.toml".
Definition project_config : string := "./.cargo/" ++ CONFIG_FILE.
Definition config_path (fs : files) (home : option string) : option string :=
  if exists_file fs project_config then Some project_config
  else match home with
       | None => None
       | Some h => let p := h ++ "/" ++ CONFIG_FILE in if exists_file fs p then Some p else None
       end.
(** abscissa [Application::init]: without a file the configuration is [AuditConfig::default()]; a file that cannot be read, is
    not TOML, or does not decode is an error.  [toml] is the TOML parser. *)
Definition load_config (toml : string -> option ttable) (fs : files) (home : option string) : outcome config :=
  match config_path fs home with
  | None => Ok default_config
  | Some p => match fs p with
              | None => Err
              | Some text => match toml text with None => Err | Some t => config_of_table t end
              end
  end.
(** `cargo audit`: the configuration is loaded before anything else; an error ends the process with status 1. *)
Definition cargo_audit_files (checks : bool) (toml : string -> option ttable) (fs : files) (home : option string) (l : cli) (w : world)
  : list item * exit_code :=
  match load_config toml fs home with
  | Ok c => cargo_audit checks l c w
  | Err => ([], Exit 1)
  | Panic => ([], Crash)
  end.
