(** Property C91: what it gives to the properties that assumed it of the reader of requirements. *)
From Coq Require Import List NArith ZArith Ascii String Bool.
From Verif Require Import Base SemverModel ReqText ReqSpec PropsReq3.
From Verif Require Import StrLib OsvModel OsvSpec AdvModel MtimeModel Calendar LockModel DecodeSpec ReportJsonModel ReportJsonSpec PropsReportJson3 PropsCrash UrlModel UrlSpec UrlProofs ScanModel OsvAdvModel PropsOsvAdv PropsOsvAdv2 PropsReportJson5 PropsMtime JsonSpec PropsReportJson4 IdModel PkgModel DbModel CvssText IndexModel IndexSpec AuditModel AuditSpec.
Import ListNotations.
Local Open Scope string_scope.

(** ** The two properties that assumed this of the reader *)
(** *** C81 with the reader and the writer of requirements given. *)
Theorem C91_reports_read_back : forall x read_time r j, x_req x = parse_req -> norm_laws (x_norm x) -> reads_stamps read_time ->
  made x r -> kept_report r -> print_json print_req gregorian r = Ok j -> report_of_json x read_time j = Ok r.
Proof.
  intros x rt r j E L RS. apply (C81_reads_back x print_req rt r j L RS). rewrite E. intros s q H. apply C91_rewriting in H as [H _]. exact H.
Qed.
Print Assumptions C91_reports_read_back.
(** *** C83: likewise. *)
Theorem C91_clashing_versions : forall x t, x_req x = parse_req -> clashing_versions x t ->
  exists vt p u, In ("versions", TTab vt) t /\ required vt "patched" (texts (a_req x)) p /\ defaulted vt "unaffected" (texts (a_req x)) [] u /\
    (below_u64_max (p ++ u) ->
     exists r1 r2 lo, In r1 (p ++ u)%list /\ In r2 (p ++ u)%list /\ In lo r1 /\ c_op lo = OpGreater /\
       forall v, version_wf v = true -> (req_denotes r2 v <-> prec_eq v (OsvSpec.written lo))).
Proof. intros x t E. apply C83_clashing_versions. rewrite E. intros s r H. apply (C91_what_is_read s r H). Qed.
Print Assumptions C91_clashing_versions.

(** *** C81 for a whole audit. *)
Theorem C91_audit_reads_back : forall x read_time sev text full checks c w truth t db raw l latest,
  x_req x = parse_req -> norm_laws (x_norm x) -> reads_stamps read_time ->
  wd_located w = true -> wd_checkout w c = Some t -> db_open t = Ok db -> load (x_norm x) raw = Ok l -> wd_lockfile w = Ok l ->
  index_answers c w truth -> cf_format c = FJson -> in_full x sev text full (db_iter db) -> made_config c ->
  (forall p, In p (lk_packages l) -> kept_package p) -> (forall a, In a (db_iter db) -> kept (DbModel.a_source a)) ->
  (N.of_nat (List.length (db_iter db)) <= u64_max)%N -> (N.of_nat (List.length (lk_packages l)) <= u64_max)%N ->
  exists r rest code, run_audit checks c w = (OutJson r :: rest, Exit code) /\
  ((N.of_nat (List.length (vi_list (r_vulns r))) <= u64_max)%N ->
   forall j, print_json print_req gregorian (full_report_of full (database_info_new db latest) r) = Ok j ->
     report_of_json x read_time j = Ok (full_report_of full (database_info_new db latest) r)).
Proof.
  intros x rt sev text full checks c w truth t db raw l latest E L RS. apply (C81_audit_reads_back x print_req rt sev text full checks c w truth t db raw l latest L RS).
  rewrite E. intros s q H. apply C91_rewriting in H as [H _]. exact H.
Qed.
Print Assumptions C91_audit_reads_back.
(** The example of C81 with this reader: the same advisory, and the report is read back. *)
Definition with_reader : externals := mkExt (x_civil extn) (x_norm extn) parse_req false.
Example C91_audit_nonvacuous :
  x_req with_reader = parse_req /\ norm_laws (x_norm with_reader) /\ reads_stamps read_stamp /\
  in_full with_reader no_sev no_text one_all (db_iter one_db) /\
  exists r j, report_in main_branch = Some r /\ print_json print_req gregorian (full_report_of one_all (database_info_new one_db one_commit) r) = Ok j /\
    report_of_json with_reader read_stamp j = Ok (full_report_of one_all (database_info_new one_db one_commit) r).
Proof.
  split; [reflexivity|]. split; [exact visible_norm_laws|]. split; [exact read_stamp_reads|]. split.
  - intros a I. split.
    + exists toml_of, (data_of "x"), one_full, (Some Crates). split; [exact one_doc|split; [vm_compute; reflexivity|reflexivity]].
    + exact (proj2 (one_in_full a I)).
  - do 2 eexists. split; [vm_compute; reflexivity|]. split; [vm_compute; reflexivity|]. vm_compute. reflexivity.
Qed.
