(** C84: the SARIF document `cargo audit` writes. *)
From Coq Require Import List NArith ZArith Ascii String Bool Arith Lia.
From Verif Require Import Base StrLib SemverModel OsvModel IdModel IdSpec PkgModel DbModel DbSpec DbProofs DbProofs2 PropsDb VerText UrlModel UrlSpec CvssText CvssFloat CvssScoreSpec Cvss3 PropsCvss3 ScanModel PartsModel
  AdvModel MtimeModel OsvAdvModel LockModel IndexModel IndexSpec AuditModel AuditSpec AuditProofs PropsAudit SarifModel PropsSarif JsonSpec PropsOsvAdv PropsOsvAdv2 PropsOsvAdv3 DecodeSpec PropsDecode PropsDecode2
  ReportJsonModel ReportJsonSpec PropsReportJson PropsReportJson2 PropsReportJson3 PropsReportJson4 PropsReportJson5 SeverityModel PropsSeverity SarifJsonModel SarifJsonSpec PropsSarifJson.
Import ListNotations.
Local Open Scope string_scope.

(** The document has a result with this level, rule, message and fingerprint. *)
Definition has_result (results : list json) (level rule message fingerprint : string) : Prop :=
  exists re, In re results /\ reach re ["level"] (JStr level) /\ reach re ["ruleId"] (JStr rule) /\ reach re ["message"; "text"] (JStr message) /\
    reach re ["partialFingerprints"; "cargo-audit/advisory-fingerprint"] (JStr fingerprint).
Definition print_of (i : string) (p : package) : string := i ++ ":" ++ p_name p ++ ":" ++ print_version (p_version p).

Lemma forall2_in_l {A B} (P : A -> B -> Prop) l m a : Forall2 P l m -> In a l -> exists b, In b m /\ P a b.
Proof. intros F. induction F as [|x y l m Pxy F IH]; intros I; [destruct I|]. destruct I as [<-|I]; [exists y; split; [left; reflexivity|exact Pxy]|]. destruct (IH I) as (b & Ib & Pb). exists b. split; [right; exact Ib|exact Pb]. Qed.
Lemma forall2_in_r {A B} (P : A -> B -> Prop) l m b : Forall2 P l m -> In b m -> exists a, In a l /\ P a b.
Proof. intros F. induction F as [|x y l m Pxy F IH]; intros I; [destruct I|]. destruct I as [<-|I]; [exists x; split; [left; reflexivity|exact Pxy]|]. destruct (IH I) as (c & Ic & Pc). exists c. split; [right; exact Ic|exact Pc]. Qed.
Lemma has_result_iff uri fs results lv i m fp : Forall2 (says_result uri) fs results ->
  has_result results lv i m fp <-> exists f, In f fs /\ lv = level_of f /\ i = rule_of f /\ m = message_of f /\ fp = fingerprint_of f.
Proof.
  intros F. split.
  - intros (re & I & R1 & R2 & R3 & R4). destruct (forall2_in_r _ _ _ _ F I) as (f & If & S). exists f. split; [exact If|]. destruct S as [_ S1 S2 S3 _ S4].
    pose proof (reach_fun _ _ _ _ R1 S3). pose proof (reach_fun _ _ _ _ R2 S1). pose proof (reach_fun _ _ _ _ R3 S2). pose proof (reach_fun _ _ _ _ R4 S4). repeat split; congruence.
  - intros (f & If & -> & -> & -> & ->). destruct (forall2_in_l _ _ _ _ F If) as (re & I & [_ S1 S2 S3 _ S4]). exists re. auto.
Qed.

Section Filed.
  Context (full : advisory -> full_advisory) (d : database_info) (r : report).
  Lemma finding_iff f : In f (all_findings (full_report_of full d r)) <->
    (exists v, In v (vi_list (r_vulns r)) /\ f = Vulnerable (full_vuln full v)) \/ (exists k w, In w (winfo_get k (r_warnings r)) /\ f = Warned (full_warning full w)).
  Proof.
    unfold all_findings, full_report_of. cbn [fr_list fr_warnings]. rewrite in_app_iff. split.
    - intros [I|I].
      + left. apply in_map_iff in I as (x & <- & I). apply in_map_iff in I as (v & <- & I). eauto.
      + right. apply in_flat_map in I as ([k ws] & I1 & I2). apply full_warnings_in in I1. cbn [snd] in I2. subst ws. apply in_map_iff in I2 as (x & <- & I2).
        apply in_map_iff in I2 as (w & <- & I2). eauto.
    - intros [(v & I & ->)|(k & w & I & ->)]; [left; apply in_map, in_map, I|right].
      apply in_flat_map. exists (k, map (full_warning full) (winfo_get k (r_warnings r))). split; [|cbn [snd]; apply in_map, in_map, I].
      unfold full_warnings. apply in_flat_map. exists k. split; [destruct k; unfold kinds_in_order; cbn [In]; auto|].
      rewrite find_get in *. destruct (winfo_find k (r_warnings r)); [left; reflexivity|destruct I].
  Qed.
  Lemma kind_kept w : jw_kind (full_warning full w) = w_kind w.
  Proof. unfold full_warning. destruct (w_advisory w); reflexivity. Qed.
  Lemma advisory_kept w : jw_advisory (full_warning full w) = option_map (fun a => f_meta (full a)) (w_advisory w).
  Proof. unfold full_warning. destruct (w_advisory w); reflexivity. Qed.
  Lemma package_kept w : jw_package (full_warning full w) = w_package w.
  Proof. unfold full_warning. destruct (w_advisory w); reflexivity. Qed.
  Lemma filed : coherent r -> well_filed (full_report_of full d r).
  Proof.
    intros C k ws w I1 I2. cbn [full_report_of fr_warnings] in I1. apply full_warnings_in in I1. subst ws. apply in_map_iff in I2 as (v & <- & I2).
    destruct (C k v I2) as [E Y]. rewrite kind_kept, advisory_kept. split; [exact E|]. intros N. apply Y. destruct (w_advisory v); [discriminate|reflexivity].
  Qed.
  Lemma scores x sev text advs : in_full x sev text full advs -> (forall v, In v (vi_list (r_vulns r)) -> In (v_advisory v) advs) ->
    (forall k w a, In w (winfo_get k (r_warnings r)) -> w_advisory w = Some a -> In a advs) -> scores_read (full_report_of full d r).
  Proof.
    intros F Hv Hw f m c I Ea Ec. apply finding_iff in I as [(v & I & ->)|(k & w & I & ->)]; cbn [advisory_of] in Ea.
    - injection Ea as <-. destruct (F _ (Hv v I)) as [L _]. exact (loaded_cvss x _ c L Ec).
    - rewrite advisory_kept in Ea. destruct (w_advisory w) as [a|] eqn:E; [|discriminate]. injection Ea as <-. destruct (F _ (Hw k w a I E)) as [L _]. exact (loaded_cvss x _ c L Ec).
  Qed.
End Filed.

(** With `--format sarif`, a lockfile that can be loaded and a database that can be opened, one document goes to the output; it has
    error results exactly for the vulnerabilities and warning results exactly for the warnings and the yanked packages. *)
Theorem C84_audit : forall pow pkg x text full checks c w truth t db l latest file,
  accurate pow -> wd_located w = true -> wd_checkout w c = Some t -> db_open t = Ok db -> wd_lockfile w = Ok l ->
  index_answers c w truth -> cf_format c = FSarif -> in_full x (sev_of pow) text full (db_iter db) ->
  exists r rest code j rules results, run_audit checks c w = (OutSarif r :: rest, Exit code) /\ (forall it, In it rest -> exists s, it = OutSelf s) /\
   print_sarif pow pkg (presented_path (ALockfile file)) (full_report_of full (database_info_new db latest) r) = Ok j /\ says_run j pkg rules results /\
   (forall i m fp, has_result results "error" i m fp <->
      exists a p, In a (db_iter db) /\ In p (lk_packages l) /\ concerns checks (report_settings c) a p /\ a_informational a = None /\ ~ In (a_id a) (cf_ignore c) /\
        i = id_string (a_id a) /\ m = named p ++ " is vulnerable to " ++ i ++ " (" ++ m_title (f_meta (full a)) ++ ")" /\ fp = print_of i p) /\
   (forall i m fp, has_result results "warning" i m fp <->
      (exists a p f k, In a (db_iter db) /\ In p (lk_packages l) /\ concerns checks (report_settings c) a p /\ a_informational a = Some f /\ kind_of_info k f /\
        In f (st_info (report_settings c)) /\ ~ In (a_id a) (cf_ignore c) /\
        i = id_string (a_id a) /\ m = named p ++ " has a " ++ kind_text k ++ " warning: " ++ m_title (f_meta (full a)) /\ fp = print_of i p) \/
      (index_consulted c w /\ exists p, In p (lk_packages l) /\ from_crates_io p /\ IndexSpec.says (truth (p_name p)) (p_version p) true /\
        i = "yanked" /\ m = named p ++ " has a yanked warning" /\ fp = print_of i p)).
Proof.
  intros pow pkg x text full checks c w truth t db l latest file A Hl Hc Hd Hf I Fj F.
  assert (Pr : printable checks c (db_iter db) l) by (intros K; rewrite Fj in K; discriminate).
  destruct (run_audit_spec checks c w truth t db l Hl Hc Hd Hf I Pr) as (r0 & ws & r & out & d & s & b & E0 & Er & EP & _ & ER & _ & Y1 & Y2 & Y3).
  unfold print_report in EP. rewrite Fj in EP. injection EP as <- _.
  set (di := database_info_new db latest) in *. set (fr := full_report_of full di r).
  assert (Id : forall a, In a (db_iter db) -> id_string (m_id (f_meta (full a))) = id_string (a_id a)).
  { intros a Ia. destruct (F a Ia) as [_ Ea]. rewrite <- Ea at 2. reflexivity. }
  assert (VI : forall v, In v (vi_list (r_vulns r)) <-> In (v_advisory v) (db_iter db) /\ In (v_package v) (lk_packages l) /\ concerns checks (report_settings c) (v_advisory v) (v_package v) /\
     a_informational (v_advisory v) = None /\ ~ In (a_id (v_advisory v)) (cf_ignore c)).
  { intros v. rewrite Er, with_yanked_vulns. exact (report_vuln_in checks t db _ _ r0 v Hd E0). }
  assert (WI : forall k q, In q (winfo_get k (r_warnings r)) -> (In q (winfo_get k (r_warnings r0)) \/ (k = WYanked /\ In q ws))).
  { intros k q. rewrite Er, with_yanked_get. intros Iq. apply in_app_or in Iq as [Iq|Iq]; [left; exact Iq|right].
    destruct k; cbn [warning_kind_eqb] in Iq; try destruct Iq; auto. }
  assert (C : coherent r) by (apply (C60_written_by_audit checks c w _ _ r ER); left; reflexivity).
  assert (W : well_filed fr) by (apply filed; exact C).
  assert (Hs : scores_read fr).
  { apply (scores full di r x (sev_of pow) text (db_iter db) F).
    - intros v Iv. apply VI in Iv. tauto.
    - intros k q a Iq Ea. apply WI in Iq as [Iq|[_ Iq]].
      + apply (report_warning_in checks t db _ _ r0 k q Hd E0) in Iq as (a' & f & Eq & I1 & _). rewrite Eq in Ea. cbn [w_advisory] in Ea. injection Ea as <-. exact I1.
      + destruct (Y1 q Iq) as (p & -> & _). discriminate. }
  destruct (C84_location pow pkg (ALockfile file) fr A W Hs) as (j & rules & results & Ej & Sr & F2).
  exists r, (match s with [] => [] | _ => [OutSelf s] end), (if b then 1%N else 0%N), j, rules, results. split; [exact ER|].
  split. { intros it Hi. destruct s as [|q s]; [destruct Hi|]. destruct Hi as [<-|[]]. eexists. reflexivity. }
  split; [exact Ej|]. split; [exact Sr|]. split.
  - intros i m fp. rewrite (has_result_iff _ _ _ _ _ _ _ F2). split.
    + intros (f & If & El & -> & -> & ->). apply finding_iff in If as [(v & Iv & ->)|(k & q & Iq & ->)]; [|discriminate]. apply VI in Iv as (I1 & I2 & I3 & I4 & I5).
      exists (v_advisory v), (v_package v). cbn [rule_of message_of fingerprint_of full_vuln jv_advisory jv_package package_of].
      rewrite (Id _ I1). unfold fingerprint_of. cbn [rule_of package_of full_vuln jv_advisory jv_package]. rewrite (Id _ I1). repeat (split; [assumption|]). auto.
    + intros (a & p & I1 & I2 & I3 & I4 & I5 & -> & -> & ->). exists (Vulnerable (full_vuln full (mkVuln a p))). split.
      * apply finding_iff. left. exists (mkVuln a p). split; [|reflexivity]. apply VI. cbn [v_advisory v_package]. auto.
      * unfold fingerprint_of. cbn [level_of rule_of message_of package_of full_vuln jv_advisory jv_package v_advisory v_package]. rewrite (Id a I1). auto.
  - intros i m fp. rewrite (has_result_iff _ _ _ _ _ _ _ F2). split.
    + intros (f & If & El & -> & -> & ->). apply finding_iff in If as [(v & Iv & ->)|(k & q & Iq & ->)]; [discriminate|].
      unfold fingerprint_of. cbn [rule_of message_of package_of]. rewrite advisory_kept, package_kept, kind_kept. destruct (C k q Iq) as [Ek _].
      apply WI in Iq as [Iq|[-> Iq]].
      * left. apply (report_warning_in checks t db _ _ r0 k q Hd E0) in Iq as (a' & f & Eq & I1 & I2 & I3 & I4 & I5 & I6 & I7). rewrite Eq. cbn [w_advisory option_map w_kind w_package] in *.
        exists a', (w_package q), f, k. rewrite (Id _ I1). repeat (split; [assumption|]). split; [destruct f; cbn in I6; try discriminate; injection I6 as <-; reflexivity|].
        split; [exact I5|]. split; [exact I7|]. split; [reflexivity|]. split; [reflexivity|reflexivity].
      * right. split; [apply Y3; intros K; rewrite K in Iq; destruct Iq|]. destruct (Y1 q Iq) as (p & -> & I1 & I2 & I3). cbn [w_advisory option_map w_kind w_package]. exists p.
        repeat (split; [solve [assumption|reflexivity]|]). reflexivity.
    + intros [(a & p & f & k & I1 & I2 & I3 & I4 & I5 & I6 & I7 & -> & -> & ->)|(K & p & I1 & I2 & I3 & -> & -> & ->)].
      * exists (Warned (full_warning full (mkWarning k p (Some a)))). split.
        -- apply finding_iff. right. exists k, (mkWarning k p (Some a)). split; [|reflexivity]. rewrite Er, with_yanked_get. apply in_or_app. left.
           apply (report_warning_in checks t db _ _ r0 k _ Hd E0). cbn [w_package]. exists a, f. repeat (split; [solve [reflexivity|assumption]|]). split; [|exact I7].
           destruct k; cbn in I5; try subst f; try reflexivity. destruct I5.
        -- unfold fingerprint_of. cbn [level_of rule_of message_of package_of]. rewrite advisory_kept, package_kept, kind_kept. cbn [w_advisory w_package w_kind option_map].
           rewrite (Id a I1). repeat (split; [reflexivity|]). reflexivity.
      * destruct (Y2 K p I1 I2 I3) as (q & Iq & En & Ev). exists (Warned (full_warning full (mkWarning WYanked q None))). split.
        -- apply finding_iff. right. exists WYanked, (mkWarning WYanked q None). split; [|reflexivity]. rewrite Er, with_yanked_get. apply in_or_app. right. exact Iq.
        -- unfold fingerprint_of. cbn [level_of rule_of message_of package_of]. rewrite advisory_kept, package_kept, kind_kept. cbn [w_advisory w_package w_kind option_map].
           unfold named, print_of. rewrite En, Ev. repeat (split; [reflexivity|]). reflexivity.
Qed.
Print Assumptions C84_audit.
(** The document of any report an audit makes from a database read from files, of a lockfile or of an executable. *)
Theorem C84_any_report : forall pow path pkg full d r advs x sev text, accurate pow -> coherent r -> in_full x sev text full advs ->
  (forall v, In v (vi_list (r_vulns r)) -> In (v_advisory v) advs) -> (forall k w a, In w (winfo_get k (r_warnings r)) -> w_advisory w = Some a -> In a advs) ->
  exists j rules results, sarif_log pow path pkg (full_report_of full d r) = Ok j /\ says_run j pkg rules results /\
    Forall2 (says_result path) (all_findings (full_report_of full d r)) results /\ Forall2 says_rule (firsts (all_findings (full_report_of full d r))) rules.
Proof. intros pow path pkg full d r advs x sev text A C F Hv Hw. apply C84_document; [exact A|apply filed; exact C|exact (scores full d r x sev text advs F Hv Hw)]. Qed.
Print Assumptions C84_any_report.

(** ** An audit with a scored advisory and a yanked package *)
Definition sarif_config : config := mkConfig [] None None None None true false [] FSarif false true None None true true.
Definition sarif_world : world := mkWorld true (fun _ => Some (scored_tree v3_medium)) (Ok (lock_of main_branch)) (fun _ => Some (mkIndex false one_truth (fun _ => None))).
Definition sarif_document : option json :=
  match run_audit false sarif_config sarif_world with
  | (OutSarif r :: _, _) =>
      match print_sarif pow15 "0.22.0" None (full_report_of (scored_all v3_medium) (database_info_new (scored_db v3_medium) one_commit) r) with Ok j => Some j | _ => None end
  | _ => None
  end.
Example C84_nonvacuous :
  accurate pow15 /\ wd_located sarif_world = true /\ wd_checkout sarif_world sarif_config = Some (scored_tree v3_medium) /\
  db_open (scored_tree v3_medium) = Ok (scored_db v3_medium) /\ wd_lockfile sarif_world = Ok (lock_of main_branch) /\ index_answers sarif_config sarif_world one_truth /\
  cf_format sarif_config = FSarif /\ in_full extn (sev_of pow15) no_text (scored_all v3_medium) (db_iter (scored_db v3_medium)) /\
  exists j rules results ru, sarif_document = Some j /\ says_run j "0.22.0" rules results /\ List.length rules = 2%nat /\ List.length results = 2%nat /\
    In ru rules /\ reach ru ["id"] (JStr "RUSTSEC-2024-0001") /\ reach ru ["properties"; "security-severity"] (JStr "6.1") /\
    (exists m, has_result results "error" "RUSTSEC-2024-0001" m "RUSTSEC-2024-0001:my-crate:1.0.0") /\
    has_result results "warning" "yanked" "old 0.3.0 has a yanked warning" "yanked:old:0.3.0".
Proof.
  split; [intros y; left; reflexivity|]. split; [reflexivity|]. split; [reflexivity|]. split; [vm_compute; reflexivity|]. split; [reflexivity|].
  split; [intros ix [= <-]; intros n; reflexivity|]. split; [reflexivity|]. split; [apply scored_in_full; vm_compute; reflexivity|].
  do 4 eexists. split; [vm_compute; reflexivity|].
  split. { split; [at1|]. split; [at1|]. eexists. split; [at1|]. repeat (split; [eapply reach_three; reflexivity|]). at1. }
  split; [reflexivity|]. split; [reflexivity|]. split; [left; reflexivity|]. split; [at1|]. split; [at2|]. split.
  - eexists. eexists. split; [left; reflexivity|]. split; [at1|]. split; [at1|]. split; at2.
  - eexists. split; [right; left; reflexivity|]. split; [at1|]. split; [at1|]. split; at2.
Qed.
