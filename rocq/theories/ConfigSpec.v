(** What a configuration file of `cargo audit` says: a reading of its TOML in which the order of keys plays no role. *)
From Coq Require Import List NArith Ascii String Bool Arith.
From Verif Require Import Base StrLib IdModel DbModel AdvModel AuditModel ConfigModel DecodeSpec.
Import ListNotations.
Local Open Scope string_scope.

(** The keys a table may have. *)
Definition only_keys (ks : list string) (t : ttable) : Prop := forall k v, In (k, v) t -> In k ks.
(** Names of severities, in any mixture of upper and lower case. *)
Definition same_letter (a b : ascii) : Prop :=
  a = b \/ (exists n, (65 <= n <= 90)%N /\ a = ascii_of_N n /\ b = ascii_of_N (n + 32)) \/
           (exists n, (65 <= n <= 90)%N /\ b = ascii_of_N n /\ a = ascii_of_N (n + 32)).
Inductive same_letters : string -> string -> Prop :=
| sl_nil : same_letters "" ""
| sl_cons a b s t : same_letter a b -> same_letters s t -> same_letters (String a s) (String b t).
Definition severity_named (s : string) (v : severity) : Prop :=
  same_letters s (match v with SevNone => "none" | SevLow => "low" | SevMedium => "medium" | SevHigh => "high" | SevCritical => "critical" end).
Definition deny_named (s : string) (d : deny_option) : Prop :=
  s = match d with DWarnings => "warnings" | DUnmaintained => "unmaintained" | DUnsound => "unsound" | DYanked => "yanked" end.
Definition format_named (s : string) (f : output_format) : Prop :=
  s = match f with FJson => "json" | FSarif => "sarif" | FTerminal => "terminal" end.
(** One text, or an array of texts. *)
Definition filter_written (v : tval) (f : filter_list) : Prop :=
  match f with Single s => v = TStr s | Many l => v = TArr (map TStr l) end.

(** The entries of a section: those of its table, or none if the section is missing. *)
Definition section (t : ttable) (k : string) (s : ttable) : Prop := In (k, TTab s) t \/ (lacks t k /\ s = []).

(** The file as written.  An entry left out has the value given here; [stale] and [quiet] cannot be left out of a section that
    is there, and [show_tree] counts as [true] in a section that is there and as [false] otherwise. *)
Record config_says (t : ttable) (c : config) : Prop := {
  cs_keys : only_keys ["advisories"; "database"; "output"; "target"; "yanked"] t;
  cs_advisories : exists s, section t "advisories" s /\ only_keys ["ignore"; "informational_warnings"; "severity_threshold"] s /\
    defaulted s "ignore" (texts an_id) [] (cf_ignore c) /\
    optional s "informational_warnings" (texts informational_named) (cf_info c) /\
    optional s "severity_threshold" (text severity_named) (cf_severity c);
  cs_database : exists s, section t "database" s /\ only_keys ["path"; "url"; "fetch"; "stale"] s /\
    optional s "path" (text is) (cf_db_path c) /\ optional s "url" (text is) (cf_db_url c) /\
    defaulted s "fetch" flag true (cf_fetch c) /\ defaulted s "stale" flag false (cf_stale c) /\
    (lacks s "stale" -> lacks t "database");
  cs_output : exists s, section t "output" s /\ only_keys ["deny"; "format"; "quiet"; "show_tree"] s /\
    defaulted s "deny" (texts deny_named) [] (cf_deny c) /\ defaulted s "format" (text format_named) FTerminal (cf_format c) /\
    defaulted s "quiet" flag false (cf_quiet c) /\ (lacks s "quiet" -> lacks t "output") /\
    ((lacks t "output" /\ cf_show_tree c = false) \/ (~ lacks t "output" /\ defaulted s "show_tree" flag true (cf_show_tree c)));
  cs_target : exists s, section t "target" s /\ only_keys ["arch"; "os"] s /\
    optional s "arch" filter_written (cf_arch c) /\ optional s "os" filter_written (cf_os c);
  cs_yanked : exists s, section t "yanked" s /\ only_keys ["enabled"; "update_index"] s /\
    defaulted s "enabled" flag true (cf_yanked c) /\ defaulted s "update_index" flag true (cf_update_index c) }.
