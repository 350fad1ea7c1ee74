(** C82: a severity threshold is a threshold on the CVSS score. *)
From Coq Require Import List NArith ZArith Ascii String Bool Arith Lia QArith.
From Verif Require Import Base StrLib SemverModel OsvModel IdModel PkgModel DbModel DbSpec DbProofs DbProofs2 PropsDb UrlModel ScanModel PartsModel AdvModel MtimeModel
  OsvAdvModel LockModel IndexModel IndexSpec AuditModel AuditSpec AuditProofs PropsAudit JsonSpec PropsOsvAdv PropsOsvAdv2 PropsOsvAdv3 DecodeSpec PropsDecode PropsDecode2 ReportJsonModel ReportJsonSpec
  PropsReportJson PropsReportJson2 PropsReportJson3 PropsReportJson4 PropsReportJson5
  CvssSpec CvssScoreSpec CvssText CvssFloat Cvss2 Cvss3 Cvss4 Cvss4Spec PropsCvssText PropsCvss2 PropsCvss3 PropsCvss4 PropsMtime Calendar VerText SarifModel SeverityModel.
Import ListNotations.
Local Open Scope string_scope.

(** ** Specification: the score of a vector in tenths, as its standard defines it, and the least score of a severity *)
Definition published_score (c : cvss) (n : Z) : Prop :=
  match c with
  | CvssV20 v => n = base_score_v2 (metric2 v)
  | CvssV30 b | CvssV31 b => n = score_v3 (metric3 b)
  | CvssV40 v => score_v4 (metric4 v) = Some n
  end.
Definition band_in (c : cvss) (n : Z) : band := match c with CvssV20 _ => band_v2 n | _ => band_of n end.
Definition severity_band (s : severity) : band :=
  match s with SevNone => BNone | SevLow => BLow | SevMedium => BMedium | SevHigh => BHigh | SevCritical => BCritical end.
Definition least_score (t : severity) : Z :=
  match t with SevNone => 0 | SevLow => 1 | SevMedium => 40 | SevHigh => 70 | SevCritical => 90 end%Z.
(** The score of [c] reaches the threshold [t]. CVSS v2 has the bands low, medium and high only, and low begins at 0. *)
Definition score_reaches (t : severity) (c : cvss) (n : Z) : Prop :=
  match c, t with
  | CvssV20 _, SevCritical => False
  | CvssV20 _, SevLow => True
  | _, _ => (least_score t <= n)%Z
  end.

Lemma rated_band r : severity_band (rated r) = rating_band r.
Proof. destruct r; reflexivity. Qed.
Lemma band_rated s r : rating_band r = severity_band s -> rated r = s.
Proof. destruct s, r; cbn; congruence. Qed.
Lemma vector_scored pow s c : accurate pow -> cvss_parse s = Ok c ->
  exists n x v, published_score c n /\ (0 <= n <= 100)%Z /\ cvss_score pow c = Ok x /\ tenths n x /\ cvss_severity pow c = Ok v /\ severity_band v = band_in c n.
Proof.
  intros A H. apply C46_dispatch in H. destruct c as [v|b|b|v].
  - apply C42_stable in H as (V & _). destruct (all_scores v V) as ((R & T & B) & _).
    exists (base_score_v2 (metric2 v)), (score2 v), (rated (rating2 (score2 v))). rewrite rated_band. repeat split; try apply R; try exact T; exact B.
  - destruct H as (P & _). apply C38_stable in P as [V _]. destruct (checked pow b A V) as (R & _ & T & B).
    exists (score_v3 (metric3 b)), (score3 pow (slots3 b)), (rated (rating3 (score3 pow (slots3 b)))). rewrite rated_band. repeat split; try apply R; try exact T; exact B.
  - destruct H as (P & _). apply C38_stable in P as [V _]. destruct (checked pow b A V) as (R & _ & T & B).
    exists (score_v3 (metric3 b)), (score3 pow (slots3 b)), (rated (rating3 (score3 pow (slots3 b)))). rewrite rated_band. repeat split; try apply R; try exact T; exact B.
  - destruct (C44_parsed s v H) as (n & x & E & Sn & R & T). apply C43_stable in H as (V & _).
    exists n, x, (rated (rating4 x)). cbn [cvss_score cvss_severity published_score band_in]. rewrite E. cbn [obind]. rewrite rated_band.
    split; [exact Sn|]. split; [exact R|]. split; [reflexivity|]. split; [exact T|]. split; [reflexivity|]. exact (C45_severity v x n V E R T).
Qed.

(** Every vector read from a text has a score and a severity: the score of its standard, between 0.0 and 10.0 in tenths,
    and the severity of the band the score is in. *)
Theorem C82_score_and_severity : forall pow s c, accurate pow -> cvss_parse s = Ok c ->
  exists n x v, published_score c n /\ (0 <= n <= 100)%Z /\ cvss_score pow c = Ok x /\ tenths n x /\ cvss_severity pow c = Ok v /\ severity_band v = band_in c n.
Proof. exact vector_scored. Qed.
Print Assumptions C82_score_and_severity.

(** ** Thresholds *)
Lemma published_unique c n m : published_score c n -> published_score c m -> n = m.
Proof. destruct c; cbn [published_score]; congruence. Qed.
Lemma rank_reaches t v c n : (0 <= n <= 100)%Z -> severity_band v = band_in c n -> (severity_rank t <= severity_rank v)%nat <-> score_reaches t c n.
Proof.
  intros R B. destruct c as [w|w|w|w]; cbn [band_in] in B; unfold band_v2, band_of in B;
    repeat match type of B with context [(?a <=? ?b)%Z] => destruct (Z.leb_spec a b) end;
    repeat match type of B with context [(?a <? ?b)%Z] => destruct (Z.ltb_spec a b) end;
    repeat match type of B with context [(?a =? ?b)%Z] => destruct (Z.eqb_spec a b) end;
    destruct v; try discriminate B; destruct t; cbn [severity_rank score_reaches least_score]; split; intros; try lia; try exact Logic.I; try contradiction.
Qed.
(** The advisory's score, if its file has one, reaches the threshold. *)
Definition advisory_reaches (t : severity) (a : full_advisory) : Prop :=
  forall c n, m_cvss (f_meta a) = Some c -> published_score c n -> score_reaches t c n.
Lemma loaded_cvss x a c : loaded_advisory x a -> m_cvss (f_meta a) = Some c -> exists s, cvss_parse s = Ok c.
Proof.
  intros (toml & data & b & col & D & F & ->) E. cbn [in_collection f_meta m_cvss] in E.
  apply (C78_file x toml data b D) in F as (? & ? & ? & ? & ? & ? & ? & ? & t & _ & _ & _ & _ & _ & _ & _ & (mt & _ & Sf & _) & _).
  destruct Sf as [_ _ _ _ _ _ _ _ Fv _ _ _ _ _ _ _]. exact (from_optional _ _ _ _ Fv c E).
Qed.
Lemma severity_reaches pow x text full advs a t : accurate pow -> in_full x (sev_of pow) text full advs -> In a advs ->
  (forall v, a_severity a = Some v -> (severity_rank t <= severity_rank v)%nat) <-> advisory_reaches t (full a).
Proof.
  intros A F I. destruct (F a I) as [L E]. pose proof (eq_sym (f_equal a_severity E)) as Ea. cbn [to_db a_severity] in Ea. rewrite Ea. unfold advisory_reaches.
  destruct (m_cvss (f_meta (full a))) as [c|] eqn:C; cbn [option_map].
  - destruct (loaded_cvss x (full a) c L C) as [s P]. destruct (vector_scored pow s c A P) as (n & y & v & Pn & R & _ & _ & Ev & B).
    assert (Es : sev_of pow c = v) by (unfold sev_of; rewrite Ev; reflexivity). rewrite Es. split.
    + intros H c' m [= <-] Pm. rewrite <- (published_unique c n m Pn Pm). apply (rank_reaches t v c n R B). exact (H v eq_refl).
    + intros H w [= <-]. apply (rank_reaches t v c n R B). exact (H c n eq_refl Pn).
  - split; [intros _ c' m E'; discriminate|intros _ w E'; discriminate].
Qed.
(** An advisory concerns a package under a threshold iff it does without one and its score reaches the threshold. *)
Lemma concerns_threshold pow x text full advs checks s a p t : accurate pow -> in_full x (sev_of pow) text full advs -> In a advs ->
  concerns checks (with_severity s (Some t)) a p <-> concerns checks (with_severity s None) a p /\ advisory_reaches t (full a).
Proof.
  intros A F I. rewrite <- (severity_reaches pow x text full advs a t A F I). unfold concerns, with_severity. cbn [st_severity st_arch st_os]. split.
  - intros (H1 & H2 & H3 & H4 & H5 & H6 & H7 & H8). split; [|intros v Ev; exact (H6 t v eq_refl Ev)].
    repeat (split; [assumption|]). split; [intros t' v [=]|]. split; assumption.
  - intros ((H1 & H2 & H3 & H4 & H5 & _ & H7 & H8) & H6). repeat (split; [assumption|]). split; [intros t' v [= <-] Ev; exact (H6 v Ev)|]. split; assumption.
Qed.

(** With a threshold, a report lists the findings it lists without one whose advisory has no score or a score that reaches the
    threshold: none 0.0, low 0.1, medium 4.0, high 7.0 and critical 9.0 for CVSS 3.x and 4.0. *)
Theorem C82_threshold : forall pow x text full checks t db pkgs s th r r', accurate pow -> db_open t = Ok db -> in_full x (sev_of pow) text full (db_iter db) ->
  report_generate checks db pkgs (with_severity s None) = Ok r -> report_generate checks db pkgs (with_severity s (Some th)) = Ok r' ->
  (forall v, In v (vi_list (r_vulns r')) <-> In v (vi_list (r_vulns r)) /\ advisory_reaches th (full (v_advisory v))) /\
  (forall k w a, w_advisory w = Some a -> (In w (winfo_get k (r_warnings r')) <-> In w (winfo_get k (r_warnings r)) /\ advisory_reaches th (full a))).
Proof.
  intros pow x text full checks t db pkgs s th r r' A H F Hr Hr'.
  destruct (report_severity checks t db pkgs s None th r r' H Logic.I Hr Hr') as [EV EW].
  assert (RR : forall a, In a (db_iter db) -> reaches th a = true <-> advisory_reaches th (full a)).
  { intros a I. rewrite <- (severity_reaches pow x text full _ a th A F I). unfold reaches. destruct (a_severity a) as [v|].
    - rewrite Nat.leb_le. split; [intros L v' [= <-]; exact L|intros K; exact (K v eq_refl)].
    - split; [discriminate|reflexivity]. }
  split.
  - intros v. rewrite EV, filter_In. split; intros [I Q]; (split; [exact I|]); apply (report_vuln_in checks t db pkgs _ r v H Hr) in I as (Ia & _); apply (RR _ Ia); exact Q.
  - intros k w a Ea. rewrite EW, filter_In, Ea. split; intros [I Q]; (split; [exact I|]).
    + apply (report_warning_in checks t db pkgs _ r k w H Hr) in I as (a' & i & E & Ia & _). assert (a' = a) as -> by (rewrite E in Ea; cbn [w_advisory] in Ea; congruence).
      apply (RR _ Ia). exact Q.
    + apply (report_warning_in checks t db pkgs _ r k w H Hr) in I as (a' & i & E & Ia & _). assert (a' = a) as -> by (rewrite E in Ea; cbn [w_advisory] in Ea; congruence).
      apply (RR _ Ia). exact Q.
Qed.
Print Assumptions C82_threshold.

(** The whole audit: with `severity_threshold` set, the JSON report lists an advisory for a package iff the audit without the
    setting does and the advisory's score reaches the threshold. *)
Definition without_threshold (c : config) : config :=
  mkConfig (cf_ignore c) (cf_info c) None (cf_db_path c) (cf_db_url c) (cf_fetch c) (cf_stale c) (cf_deny c) (cf_format c) (cf_quiet c)
    (cf_show_tree c) (cf_arch c) (cf_os c) (cf_yanked c) (cf_update_index c).
Theorem C82_audit : forall pow x print_req text full checks c w truth t db l latest th,
  accurate pow -> wd_located w = true -> wd_checkout w c = Some t -> db_open t = Ok db -> wd_lockfile w = Ok l ->
  index_answers c w truth -> cf_format c = FJson -> in_full x (sev_of pow) text full (db_iter db) -> cf_severity c = Some th ->
  exists r rest code, run_audit checks c w = (OutJson r :: rest, Exit code) /\
  forall j, print_json print_req gregorian (full_report_of full (database_info_new db latest) r) = Ok j ->
   (forall i n v, lists_vulnerability j i n v <->
      exists a p, In a (db_iter db) /\ In p (lk_packages l) /\ concerns checks (report_settings (without_threshold c)) a p /\ a_informational a = None /\ ~ In (a_id a) (cf_ignore c) /\
        advisory_reaches th (full a) /\ i = id_string (a_id a) /\ n = p_name p /\ v = print_version (p_version p)) /\
   (forall k i n v, lists_warning j (warning_kind_str k) i n v <->
      exists a p f, In a (db_iter db) /\ In p (lk_packages l) /\ concerns checks (report_settings (without_threshold c)) a p /\ a_informational a = Some f /\ kind_of_info k f /\
        In f (st_info (report_settings c)) /\ ~ In (a_id a) (cf_ignore c) /\ advisory_reaches th (full a) /\ i = id_string (a_id a) /\ n = p_name p /\ v = print_version (p_version p)).
Proof.
  intros pow x pr text full checks c w truth t db l latest th A H1 H2 H3 H4 H5 H6 F Th.
  destruct (C81_lists_exactly x pr (sev_of pow) text full checks c w truth t db l latest H1 H2 H3 H4 H5 H6 F) as (r & rest & code & E & _ & K).
  exists r, rest, code. split; [exact E|]. intros j Hj. destruct (K j Hj) as (LV & LW & _).
  assert (CT : forall a p, In a (db_iter db) -> concerns checks (report_settings c) a p <-> concerns checks (report_settings (without_threshold c)) a p /\ advisory_reaches th (full a)).
  { intros a p I. pose proof (concerns_threshold pow x text full (db_iter db) checks (report_settings c) a p th A F I) as Q.
    assert (E1 : with_severity (report_settings c) (Some th) = report_settings c) by (unfold with_severity, report_settings; cbn [st_arch st_os st_ignore st_info]; rewrite Th; reflexivity).
    assert (E2 : with_severity (report_settings c) None = report_settings (without_threshold c)) by reflexivity. rewrite E1, E2 in Q. exact Q. }
  split.
  - intros i n v. rewrite LV. split; intros (a & p & I & Ip & Q).
    + destruct Q as (Q & Qi & Qg & Q'). apply (CT a p I) in Q as [Q R]. exists a, p. tauto.
    + destruct Q as (Q & Qi & Qg & R & Q'). exists a, p. pose proof (proj2 (CT a p I) (conj Q R)). tauto.
  - intros k i n v. rewrite LW. split; intros (a & p & f & I & Ip & Q).
    + destruct Q as (Q & Qi & Qk & Qf & Qg & Q'). apply (CT a p I) in Q as [Q R]. exists a, p, f. tauto.
    + destruct Q as (Q & Qi & Qk & Qf & Qg & R & Q'). exists a, p, f. pose proof (proj2 (CT a p I) (conj Q R)). tauto.
Qed.
Print Assumptions C82_audit.

(** ** Instances *)
Definition scored (v : string) (s : string) : option ttable :=
  Some (match doc "2024-03-09" [">= 1.2.3, < 2.0.0"; "> 2.1.0"] with
        | (k, TTab t) :: r => (k, TTab (map (fun e => if String.eqb (fst e) "cvss" then ("cvss", TStr v) else e) t)) :: r
        | t => t
        end).
Definition scored_full (v : string) : full_advisory := match full_from_str extn (scored v) (data_of "x") with Ok a => a | _ => one_full end.
Definition scored_tree (v : string) : fs_tree :=
  mkTree (Some [mkEntry "my-crate" (Some [mkFile "RUSTSEC-2024-0001.md" (Ok (to_db (sev_of pow15) no_text (scored_full v)))])]) (Some []).
Definition scored_db (v : string) : database := match db_open (scored_tree v) with Ok db => db | _ => PropsDb.ex_db end.
Definition scored_all (v : string) (a : advisory) : full_advisory := in_collection (scored_full v) (Some Crates).
Definition plain : settings := mkSettings [] [] None [] [].
(** The number of vulnerabilities with a threshold. *)
Definition found (v : string) (t : option severity) : option nat :=
  match report_generate false (scored_db v) (lk_packages (lock_of main_branch)) (with_severity plain t) with
  | Ok r => Some (List.length (vi_list (r_vulns r)))
  | _ => None
  end.
Definition v2_worst : string := "AV:N/AC:L/Au:N/C:C/I:C/A:C".
Definition v3_medium : string := "CVSS:3.1/AV:N/AC:L/PR:N/UI:R/S:C/C:L/I:L/A:N".
Definition v3_worst : string := "CVSS:3.1/AV:N/AC:L/PR:N/UI:N/S:C/C:H/I:H/A:H".
Definition v4_worst : string := "CVSS:4.0/AV:N/AC:L/AT:N/PR:N/UI:N/VC:H/VI:H/VA:H/SC:H/SI:H/SA:H".
Lemma scored_doc v s t : scored v s = Some t -> one_each (TTab t).
Proof. unfold scored. intros [= <-]. cbn [doc map]. one_each_tac. Qed.
Lemma scored_in_full v : full_from_str extn (scored v) (data_of "x") = Ok (scored_full v) -> db_iter (scored_db v) = [to_db (sev_of pow15) no_text (scored_all v adv1)] ->
  in_full extn (sev_of pow15) no_text (scored_all v) (db_iter (scored_db v)).
Proof.
  intros L E a I. split; [exists (scored v), (data_of "x"), (scored_full v), (Some Crates); split; [exact (scored_doc v)|split; [exact L|reflexivity]]|].
  rewrite E in I. destruct I as [I|[]]. exact I.
Qed.
Definition v2_nothing : string := "AV:N/AC:L/Au:N/C:N/I:N/A:N".
Definition v3_nothing : string := "CVSS:3.1/AV:N/AC:L/PR:N/UI:N/S:U/C:N/I:N/A:N".
Definition a_db_with (v : string) (c : cvss) : Prop :=
  db_open (scored_tree v) = Ok (scored_db v) /\ in_full extn (sev_of pow15) no_text (scored_all v) (db_iter (scored_db v)) /\
  forall a, m_cvss (f_meta (scored_all v a)) = Some c.
Lemma with_db v c : full_from_str extn (scored v) (data_of "x") = Ok (scored_full v) -> db_open (scored_tree v) = Ok (scored_db v) ->
  db_iter (scored_db v) = [to_db (sev_of pow15) no_text (scored_all v adv1)] -> m_cvss (f_meta (scored_full v)) = Some c -> a_db_with v c.
Proof. intros H1 H2 H3 H4. split; [exact H2|]. split; [exact (scored_in_full v H1 H3)|]. intros a. exact H4. Qed.
Ltac a_db := apply with_db; [vm_compute; reflexivity|vm_compute; reflexivity|vm_compute; reflexivity|vm_compute; reflexivity].

(** CVSS v2 has no critical band, so a threshold of critical drops an advisory with a CVSS v2 score of 10.0; and its low band
    begins at 0.0, so a threshold of low keeps one with a score of 0.0. *)
Theorem C82_v2_refuted :
  (exists c, cvss_parse v2_worst = Ok c /\ published_score c 100 /\ a_db_with v2_worst c /\
     found v2_worst None = Some 1%nat /\ found v2_worst (Some SevHigh) = Some 1%nat /\ found v2_worst (Some SevCritical) = Some 0%nat) /\
  (exists c, cvss_parse v2_nothing = Ok c /\ published_score c 0 /\ a_db_with v2_nothing c /\ found v2_nothing (Some SevLow) = Some 1%nat).
Proof.
  split; eexists; (split; [vm_compute; reflexivity|]); (split; [vm_compute; reflexivity|]); (split; [a_db|]); repeat split; vm_compute; reflexivity.
Qed.
Example C82_nonvacuous : accurate pow15 /\
  (exists c, cvss_parse v3_worst = Ok c /\ published_score c 100 /\ a_db_with v3_worst c /\ found v3_worst (Some SevCritical) = Some 1%nat) /\
  (exists c, cvss_parse v3_medium = Ok c /\ published_score c 61 /\ a_db_with v3_medium c /\ found v3_medium (Some SevMedium) = Some 1%nat /\ found v3_medium (Some SevHigh) = Some 0%nat) /\
  (exists c, cvss_parse v3_nothing = Ok c /\ published_score c 0 /\ a_db_with v3_nothing c /\ found v3_nothing (Some SevNone) = Some 1%nat /\ found v3_nothing (Some SevLow) = Some 0%nat) /\
  (exists c, cvss_parse v4_worst = Ok c /\ published_score c 100 /\ a_db_with v4_worst c /\ found v4_worst (Some SevCritical) = Some 1%nat).
Proof.
  split; [exact accurate_possible|]. repeat split.
  all: eexists; (split; [vm_compute; reflexivity|]); (split; [vm_compute; reflexivity|]); (split; [a_db|]); repeat split; vm_compute; reflexivity.
Qed.
