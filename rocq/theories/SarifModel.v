(** SARIF output: /repo/cargo-audit/src/sarif.rs.
    Modelled: which results and rules a run has, with their ids, levels, security severity source, locations and
    fingerprints.  Not modelled: message texts, descriptions, help, tags and the JSON rendering. *)
From Coq Require Import List NArith Ascii String Bool Arith.
From Verif Require Import Base StrLib SemverModel VerText IdModel PkgModel DbModel AuditModel.
Import ListNotations.
Local Open Scope string_scope.
Local Infix "++" := String.append (right associativity, at level 60).

(** sarif.rs:273-276, 381-384 [ReportingLevel], [ResultLevel]. *)
Inductive sarif_level := LError | LWarning.
(** sarif.rs:124-141 [ReportingDescriptor] and 292-303 [SarifResult]. *)
Record sarif_rule := mkRule { ru_id : string; ru_level : sarif_level; ru_severity : option severity }.
Record sarif_result := mkResult {
  rs_rule : string; rs_level : sarif_level; rs_uri : string; rs_fingerprint : string }.

(** warning.rs:88-96 [WarningKind::as_str]; also [format!("{:?}").to_lowercase()] of the kind. *)
Definition warning_kind_str (k : warning_kind) : string :=
  match k with WNotice => "notice" | WUnmaintained => "unmaintained" | WUnsound => "unsound" | WYanked => "yanked" end.

(** sarif.rs:145-196 [from_advisory]. *)
Definition rule_of_advisory (a : advisory) (is_vulnerability : bool) : sarif_rule :=
  mkRule (id_string (a_id a)) (if is_vulnerability then LError else LWarning) (a_severity a).
(** sarif.rs:199-235 [from_warning_kind]. *)
Definition rule_of_kind (k : warning_kind) : sarif_rule :=
  mkRule (match k with WUnmaintained => "unmaintained" | WUnsound => "unsound" | WYanked => "yanked" | WNotice => "unknown" end)
    LWarning None.
(** sarif.rs:307-331 [from_vulnerability]. *)
Definition result_of_vuln (path : string) (v : vulnerability) : sarif_result :=
  mkResult (id_string (a_id (v_advisory v))) LError path
    (id_string (a_id (v_advisory v)) ++ ":" ++ p_name (v_package v) ++ ":" ++ print_version (p_version (v_package v))).
(** sarif.rs:334-376 [from_warning]. *)
Definition result_of_warning (path : string) (w : warning) : sarif_result :=
  let rule := match w_advisory w with Some a => id_string (a_id a) | None => warning_kind_str (w_kind w) end in
  mkResult rule LWarning path (rule ++ ":" ++ p_name (w_package w) ++ ":" ++ print_version (p_version (w_package w))).

(** The three mutable variables of [from_report]: rules, seen rules, results. *)
Record run_state := mkRun { rn_rules : list sarif_rule; rn_seen : list string; rn_results : list sarif_result }.
(** [if seen_rules.insert(id) { rules.push(..) }; results.push(..)]. *)
Definition run_push (st : run_state) (id : string) (rule : sarif_rule) (res : sarif_result) : run_state :=
  let fresh := negb (existsb (String.eqb id) (rn_seen st)) in
  mkRun (if fresh then (rn_rules st ++ [rule])%list else rn_rules st)
    (if fresh then id :: rn_seen st else rn_seen st)
    (rn_results st ++ [res])%list.
(** sarif.rs:57-65. *)
Definition vuln_step (path : string) (st : run_state) (v : vulnerability) : run_state :=
  run_push st (id_string (a_id (v_advisory v))) (rule_of_advisory (v_advisory v) true) (result_of_vuln path v).
(** sarif.rs:68-83; [k] is the key of the map, not the warning's own kind. *)
Definition warning_step (path : string) (k : warning_kind) (st : run_state) (w : warning) : run_state :=
  run_push st (match w_advisory w with Some a => id_string (a_id a) | None => warning_kind_str k end)
    (match w_advisory w with Some a => rule_of_advisory a false | None => rule_of_kind k end)
    (result_of_warning path w).
(** sarif.rs:52-92 [Run::from_report]; the map is traversed in key order. *)
Definition sarif_run (r : report) (path : string) : run_state :=
  fold_left (fun st k => fold_left (warning_step path k) (winfo_get k (r_warnings r)) st) kinds_in_order
    (fold_left (vuln_step path) (vi_list (r_vulns r)) (mkRun [] [] [])).
