(** C81: what `cargo audit --json` prints. *)
From Coq Require Import List NArith ZArith Ascii String Bool Arith Lia Sorting.Sorted.
From Verif Require Import Base StrLib SemverModel OsvModel IdModel IdSpec PkgModel DbModel DbSpec DbProofs DbProofs2 PropsDb VerText UrlModel UrlSpec ScanModel PartsModel
  AdvModel MtimeModel OsvAdvModel LockModel IndexModel IndexSpec AuditModel AuditSpec AuditProofs PropsAudit SarifModel JsonSpec PropsMtime PropsOsvAdv PropsOsvAdv3
  DecodeSpec ReportJsonModel ReportJsonSpec PropsReportJson PropsReportJson2 PropsReportJson3.
Import ListNotations.
Local Open Scope string_scope.

(** ** Paths of names *)
Lemma reach_fun ks : forall j v v', reach j ks v -> reach j ks v' -> v = v'.
Proof.
  induction ks as [|k ks IH]; intros j v v'; cbn [reach]; [congruence|].
  intros (t & w & -> & O & R) (t' & w' & E & O' & R'). injection E as <-. rewrite (only_unique t k w' w O' O) in R'. exact (IH w v v' R R').
Qed.
Lemma reach_one t k v : jentries k t = [v] -> reach (JObj t) [k] v.
Proof. intros E. exists t, v. split; [reflexivity|]. split; [apply only_here; exact E|reflexivity]. Qed.
Lemma reach_two t k k' u v : jentries k t = [JObj u] -> jentries k' u = [v] -> reach (JObj t) [k; k'] v.
Proof. intros E E'. exists t, (JObj u). split; [reflexivity|]. split; [apply only_here; exact E|]. exact (reach_one u k' v E'). Qed.
Lemma pkg_names p : exists u, j_pkg p = JObj u /\ jentries "name" u = [JStr (p_name p)] /\ jentries "version" u = [JStr (print_version (p_version p))].
Proof. eexists. split; [reflexivity|]. destruct (p_deps p); split; reflexivity. Qed.
Lemma reach_pkg t p : jentries "package" t = [j_pkg p] -> forall n v, of_package (JObj t) n v <-> n = p_name p /\ v = print_version (p_version p).
Proof.
  intros E n v. destruct (pkg_names p) as (u & Eu & N & V). rewrite Eu in E.
  pose proof (reach_two t "package" "name" u _ E N) as RN. pose proof (reach_two t "package" "version" u _ E V) as RV.
  unfold of_package. split.
  - intros [H1 H2]. pose proof (reach_fun _ _ _ _ H1 RN) as E1. pose proof (reach_fun _ _ _ _ H2 RV) as E2. split; congruence.
  - intros [-> ->]. split; assumption.
Qed.

Section Audit.
  Context (print_req : version_req -> string) (full : advisory -> full_advisory) (d : database_info).
  Lemma vuln_entry v i n w : (reach (j_vuln print_req v) ["advisory"; "id"] (JStr i) /\ of_package (j_vuln print_req v) n w) <->
    i = id_string (m_id (jv_advisory v)) /\ n = p_name (jv_package v) /\ w = print_version (p_version (jv_package v)).
  Proof.
    unfold j_vuln. match goal with |- context [of_package (JObj ?t) _ _] => rewrite (reach_pkg t (jv_package v) eq_refl) end.
    match goal with |- context [reach ?j ["advisory"; "id"] _] => assert (R : reach j ["advisory"; "id"] (JStr (id_string (m_id (jv_advisory v))))) end.
    { eapply reach_two; reflexivity. }
    split; [intros [H [-> ->]]; pose proof (reach_fun _ _ _ _ H R); split; [congruence|split; reflexivity]|]. intros (-> & -> & ->). split; [exact R|split; reflexivity].
  Qed.
  Lemma warning_entry w k i n v : (reach (j_warning print_req w) ["kind"] (JStr k) /\ reach (j_warning print_req w) ["advisory"; "id"] (JStr i) /\ of_package (j_warning print_req w) n v) <->
    k = warning_kind_str (jw_kind w) /\ (exists m, jw_advisory w = Some m /\ i = id_string (m_id m)) /\ n = p_name (jw_package w) /\ v = print_version (p_version (jw_package w)).
  Proof.
    unfold j_warning. match goal with |- context [of_package (JObj ?t) _ _] => rewrite (reach_pkg t (jw_package w) eq_refl) end.
    match goal with |- context [reach ?j ["kind"] _] => assert (R : reach j ["kind"] (JStr (warning_kind_str (jw_kind w)))) by (apply reach_one; reflexivity) end.
    split.
    - intros (H & Ha & -> & ->). pose proof (reach_fun _ _ _ _ H R) as E. split; [congruence|]. split; [|split; reflexivity].
      destruct (jw_advisory w) as [m|].
      + exists m. split; [reflexivity|]. match type of Ha with reach ?j _ _ => assert (R2 : reach j ["advisory"; "id"] (JStr (id_string (m_id m)))) by (eapply reach_two; reflexivity) end.
        pose proof (reach_fun _ _ _ _ Ha R2). congruence.
      + exfalso. destruct Ha as (t & u & Et & O & t' & u' & Eu & _). injection Et as <-.
        match type of O with only ?t _ _ => assert (O' : only t "advisory" JNull) by (apply only_here; reflexivity) end.
        rewrite (only_unique _ _ _ _ O O') in Eu. discriminate.
    - intros (-> & (m & Em & ->) & -> & ->). rewrite Em in *. split; [exact R|]. split; [eapply reach_two; reflexivity|split; reflexivity].
  Qed.
  Lemma yanked_entry w n v : (reach (j_warning print_req w) ["kind"] (JStr "yanked") /\ reach (j_warning print_req w) ["advisory"] JNull /\ of_package (j_warning print_req w) n v) <->
    jw_kind w = WYanked /\ jw_advisory w = None /\ n = p_name (jw_package w) /\ v = print_version (p_version (jw_package w)).
  Proof.
    unfold j_warning. match goal with |- context [of_package (JObj ?t) _ _] => rewrite (reach_pkg t (jw_package w) eq_refl) end.
    match goal with |- context [reach ?j ["kind"] _] => assert (R : reach j ["kind"] (JStr (warning_kind_str (jw_kind w)))) by (apply reach_one; reflexivity);
      assert (R2 : reach j ["advisory"] (j_opt j_metadata (jw_advisory w))) by (apply reach_one; reflexivity) end.
    split.
    - intros (H & Ha & -> & ->). pose proof (reach_fun _ _ _ _ H R) as E. pose proof (reach_fun _ _ _ _ Ha R2) as E2.
      split; [destruct (jw_kind w); cbn in E; congruence|]. split; [destruct (jw_advisory w); [discriminate|reflexivity]|split; reflexivity].
    - intros (Ek & Ea & -> & ->). rewrite Ek in *. rewrite Ea in *. split; [exact R|]. split; [exact R2|split; reflexivity].
  Qed.

  (** ** The parts of a report *)
  Lemma find_get k m : winfo_get k m = match winfo_find k m with Some ws => ws | None => [] end.
  Proof. induction m as [|[k' ws] m IH]; cbn [winfo_get winfo_find]; [reflexivity|]. destruct (warning_kind_eqb k' k); [reflexivity|exact IH]. Qed.
  Lemma full_warnings_in k ws m : In (k, ws) (full_warnings full m) -> ws = map (full_warning full) (winfo_get k m).
  Proof.
    unfold full_warnings. intros I. apply in_flat_map in I as (k' & _ & I). destruct (winfo_find k' m) as [l|] eqn:E; [|destruct I].
    destruct I as [I|[]]. injection I as -> <-. rewrite find_get, E. reflexivity.
  Qed.
  Lemma full_warnings_sorted m : StronglySorted kind_before (map fst (full_warnings full m)).
  Proof.
    unfold full_warnings, kinds_in_order. cbn [flat_map].
    destruct (winfo_find WNotice m), (winfo_find WUnmaintained m), (winfo_find WUnsound m), (winfo_find WYanked m); cbn [app map fst]; repeat constructor.
  Qed.
  Lemma listed_vulns r j : print_json print_req gregorian (full_report_of full d r) = Ok j ->
    reach j ["vulnerabilities"; "list"] (JArr (map (j_vuln print_req) (map (full_vuln full) (vi_list (r_vulns r))))).
  Proof.
    unfold print_json, report_to_json. destruct (j_database gregorian _) as [db| |]; cbn [obind]; try discriminate. intros [= <-]. eapply reach_two; reflexivity.
  Qed.
  Lemma listed_warnings r j k js : print_json print_req gregorian (full_report_of full d r) = Ok j ->
    (reach j ["warnings"; warning_kind_str k] (JArr js) -> js = map (j_warning print_req) (map (full_warning full) (winfo_get k (r_warnings r)))) /\
    (winfo_get k (r_warnings r) <> [] -> reach j ["warnings"; warning_kind_str k] (JArr (map (j_warning print_req) (map (full_warning full) (winfo_get k (r_warnings r)))))).
  Proof.
    unfold print_json, report_to_json. destruct (j_database gregorian _) as [db| |]; cbn [obind]; try discriminate. intros H. injection H as <-.
    cbn [full_report_of fr_warnings].
    assert (E : jentries (warning_kind_str k) (map (fun e => (warning_kind_str (fst e), j_list (j_warning print_req) (snd e))) (full_warnings full (r_warnings r))) =
       match winfo_find k (r_warnings r) with Some ws => [JArr (map (j_warning print_req) (map (full_warning full) ws))] | None => [] end).
    { unfold full_warnings, kinds_in_order, jentries. cbn [flat_map].
      destruct (winfo_find WNotice (r_warnings r)) eqn:E1, (winfo_find WUnmaintained (r_warnings r)) eqn:E2, (winfo_find WUnsound (r_warnings r)) eqn:E3,
        (winfo_find WYanked (r_warnings r)) eqn:E4; destruct k; rewrite ?E1, ?E2, ?E3, ?E4; reflexivity. }
    split.
    - intros (t & w & Et & O & t' & w' & Ew & O' & Er). injection Et as <-. cbn [reach] in Er. subst w'.
      match type of O with only ?t _ _ => assert (O2 : only t "warnings" (JObj (map (fun e => (warning_kind_str (fst e), j_list (j_warning print_req) (snd e))) (full_warnings full (r_warnings r))))) by (apply only_here; reflexivity) end.
      rewrite (only_unique _ _ _ _ O O2) in Ew. injection Ew as <-. apply jentries_one in O'. rewrite E in O'. rewrite find_get.
      destruct (winfo_find k (r_warnings r)); [congruence|discriminate].
    - rewrite find_get. destruct (winfo_find k (r_warnings r)) as [ws|] eqn:F; [|congruence]. intros _. eapply reach_two; [reflexivity|]. rewrite E. reflexivity.
  Qed.
End Audit.

(** ** The report of [cargo audit --json] *)
Section Listing.
  Context (print_req : version_req -> string) (full : advisory -> full_advisory) (d : database_info).
  Lemma lists_vulns r j i n v : print_json print_req gregorian (full_report_of full d r) = Ok j ->
    (lists_vulnerability j i n v <->
     exists w, In w (vi_list (r_vulns r)) /\ i = id_string (m_id (f_meta (full (v_advisory w)))) /\ n = p_name (v_package w) /\ v = print_version (p_version (v_package w))).
  Proof.
    intros P. pose proof (listed_vulns print_req full d r j P) as R. unfold lists_vulnerability. split.
    - intros (js & e & Rj & I & He). pose proof (reach_fun _ _ _ _ Rj R) as E. injection E as ->. rewrite map_map in I. apply in_map_iff in I as (w & <- & Iw).
      apply vuln_entry in He. exists w. split; [exact Iw|exact He].
    - intros (w & Iw & H). eexists _, (j_vuln print_req (full_vuln full w)). split; [exact R|]. split; [apply in_map, in_map, Iw|]. apply vuln_entry. exact H.
  Qed.
  Lemma lists_warns r j k i n v : print_json print_req gregorian (full_report_of full d r) = Ok j ->
    (lists_warning j (warning_kind_str k) i n v <->
     exists w a, In w (winfo_get k (r_warnings r)) /\ w_kind w = k /\ w_advisory w = Some a /\
       i = id_string (m_id (f_meta (full a))) /\ n = p_name (w_package w) /\ v = print_version (p_version (w_package w))).
  Proof.
    intros P. unfold lists_warning. split.
    - intros (js & e & Rj & I & Hk & Ha & He). apply (listed_warnings print_req full d r j k js P) in Rj. subst js. rewrite map_map in I. apply in_map_iff in I as (w & <- & Iw).
      destruct (proj1 (warning_entry print_req (full_warning full w) (warning_kind_str k) i n v) (conj Hk (conj Ha He))) as (Ek & (m & Em & ->) & -> & ->).
      unfold full_warning in *. destruct (w_advisory w) as [a|] eqn:Ea; cbn [jw_advisory jw_kind jw_package] in *; [|discriminate]. injection Em as <-.
      exists w, a. split; [exact Iw|]. split; [destruct (w_kind w), k; cbn in Ek; congruence|]. repeat split. exact Ea.
    - intros (w & a & Iw & Ek & Ea & H). eexists _, (j_warning print_req (full_warning full w)).
      split; [apply (listed_warnings print_req full d r j k [] P); intros E; rewrite E in Iw; destruct Iw|]. split; [apply in_map, in_map, Iw|].
      apply warning_entry. unfold full_warning. rewrite Ea. cbn [jw_kind jw_advisory jw_package]. rewrite Ek. destruct H as (-> & -> & ->). eauto 10.
  Qed.
  Lemma lists_yanks r j n v : print_json print_req gregorian (full_report_of full d r) = Ok j ->
    (lists_yanked j n v <->
     exists w, In w (winfo_get WYanked (r_warnings r)) /\ w_kind w = WYanked /\ w_advisory w = None /\ n = p_name (w_package w) /\ v = print_version (p_version (w_package w))).
  Proof.
    intros P. unfold lists_yanked. split.
    - intros (js & e & Rj & I & He). apply (listed_warnings print_req full d r j WYanked js P) in Rj. subst js. rewrite map_map in I. apply in_map_iff in I as (w & <- & Iw).
      apply yanked_entry in He. destruct He as (Ek & Ea & -> & ->). exists w. split; [exact Iw|].
      unfold full_warning in *. destruct (w_advisory w); cbn [jw_advisory jw_kind jw_package] in *; [discriminate|]. repeat split. exact Ek.
    - intros (w & Iw & Ek & Ea & H). eexists _, (j_warning print_req (full_warning full w)).
      split; [apply (listed_warnings print_req full d r j WYanked [] P); intros E; rewrite E in Iw; destruct Iw|]. split; [apply in_map, in_map, Iw|].
      apply yanked_entry. unfold full_warning. rewrite Ea. cbn [jw_kind jw_advisory jw_package]. destruct H as (-> & ->). auto.
  Qed.
End Listing.

(** With `--json`, a lockfile that can be loaded and a database that can be opened, one report goes to the output, and with it
    (if the database's last commit has a time that can be written, C81_written_iff) a JSON value that lists:
    as vulnerabilities exactly the advisories without informational kind that concern a package and are not ignored; as warnings
    of a kind exactly those of that kind the settings ask for; as yanked exactly the crates.io packages the index, if it is
    consulted, says are yanked; and its counts are right. *)
Theorem C81_lists_exactly : forall x print_req sev text full checks c w truth t db l latest,
  wd_located w = true -> wd_checkout w c = Some t -> db_open t = Ok db -> wd_lockfile w = Ok l ->
  index_answers c w truth -> cf_format c = FJson -> in_full x sev text full (db_iter db) ->
  exists r rest code, run_audit checks c w = (OutJson r :: rest, Exit code) /\ (forall it, In it rest -> exists s, it = OutSelf s) /\
  forall j, print_json print_req gregorian (full_report_of full (database_info_new db latest) r) = Ok j ->
   (forall i n v, lists_vulnerability j i n v <->
      exists a p, In a (db_iter db) /\ In p (lk_packages l) /\ concerns checks (report_settings c) a p /\ a_informational a = None /\ ~ In (a_id a) (cf_ignore c) /\
        i = id_string (a_id a) /\ n = p_name p /\ v = print_version (p_version p)) /\
   (forall k i n v, lists_warning j (warning_kind_str k) i n v <->
      exists a p f, In a (db_iter db) /\ In p (lk_packages l) /\ concerns checks (report_settings c) a p /\ a_informational a = Some f /\ kind_of_info k f /\
        In f (st_info (report_settings c)) /\ ~ In (a_id a) (cf_ignore c) /\ i = id_string (a_id a) /\ n = p_name p /\ v = print_version (p_version p)) /\
   (forall n v, lists_yanked j n v <->
      index_consulted c w /\ exists p, In p (lk_packages l) /\ from_crates_io p /\ IndexSpec.says (truth (p_name p)) (p_version p) true /\
        n = p_name p /\ v = print_version (p_version p)) /\
   (exists js, reach j ["vulnerabilities"; "list"] (JArr js) /\ reach j ["vulnerabilities"; "count"] (JNum (print_dec (N.of_nat (List.length js)))) /\
      exists b, reach j ["vulnerabilities"; "found"] (JBool b) /\ (b = true <-> js <> [])) /\
   reach j ["lockfile"; "dependency-count"] (JNum (print_dec (N.of_nat (List.length (lk_packages l))))) /\
   reach j ["database"; "advisory-count"] (JNum (print_dec (N.of_nat (List.length (db_iter db))))).
Proof.
  intros x pr sev text full checks c w truth t db l latest Hl Hc Hd Hf I Fj F.
  assert (Pr : printable checks c (db_iter db) l) by (intros K; rewrite Fj in K; discriminate).
  destruct (run_audit_spec checks c w truth t db l Hl Hc Hd Hf I Pr) as (r0 & ws & r & out & d & s & b & E0 & Er & EP & _ & ER & _ & Y1 & Y2 & Y3).
  unfold print_report in EP. rewrite Fj in EP. injection EP as <- _.
  exists r, (match s with [] => [] | _ => [OutSelf s] end), (if b then 1%N else 0%N). split; [exact ER|].
  split. { intros it Hi. destruct s as [|q s]; [destruct Hi|]. destruct Hi as [<-|[]]. eexists. reflexivity. }
  intros j P. set (di := database_info_new db latest) in *.
  assert (Id : forall a, In a (db_iter db) -> id_string (m_id (f_meta (full a))) = id_string (a_id a)).
  { intros a Ia. destruct (F a Ia) as [_ Ea]. rewrite <- Ea at 2. reflexivity. }
  split.
  { intros i n v. rewrite (lists_vulns pr full di r j i n v P), Er, with_yanked_vulns. split.
    - intros (q & Iq & -> & -> & ->). apply (report_vuln_in checks t db _ _ r0 q Hd E0) in Iq. destruct Iq as (I1 & I2 & I3 & I4 & I5).
      exists (v_advisory q), (v_package q). rewrite (Id _ I1). auto 10.
    - intros (a & p & I1 & I2 & I3 & I4 & I5 & -> & -> & ->). exists (mkVuln a p). cbn [v_advisory v_package]. rewrite (Id a I1). split; [|auto].
      apply (report_vuln_in checks t db _ _ r0 _ Hd E0). auto. }
  split.
  { intros k i n v. rewrite (lists_warns pr full di r j k i n v P), Er, with_yanked_get. split.
    - intros (q & a & Iq & Ek & Ea & -> & -> & ->). apply in_app_or in Iq as [Iq|Iq].
      + apply (report_warning_in checks t db _ _ r0 k q Hd E0) in Iq as (a' & f & Eq & I1 & I2 & I3 & I4 & I5 & I6 & I7). rewrite Eq in Ea. cbn [w_advisory] in Ea. injection Ea as <-.
        exists a', (w_package q), f. rewrite (Id _ I1). repeat (split; [assumption|]). split; [|split; [exact I5|split; [exact I7|auto]]].
        destruct f; cbn in I6; try discriminate; injection I6 as <-; reflexivity.
      + exfalso. destruct (warning_kind_eqb WYanked k); [|destruct Iq]. destruct (Y1 q Iq) as (p & -> & _). discriminate.
    - intros (a & p & f & I1 & I2 & I3 & I4 & I5 & I6 & I7 & -> & -> & ->). exists (mkWarning k p (Some a)), a. cbn [w_package w_kind w_advisory]. rewrite (Id a I1).
      split; [|auto]. apply in_or_app. left. apply (report_warning_in checks t db _ _ r0 k _ Hd E0). cbn [w_package]. exists a, f. repeat (split; [solve [reflexivity|assumption]|]). split; [|exact I7].
      destruct k; cbn in I5; try subst f; try reflexivity. destruct I5. }
  split.
  { intros n v. rewrite (lists_yanks pr full di r j n v P), Er, with_yanked_get. split.
    - intros (q & Iq & Ek & Ea & -> & ->). apply in_app_or in Iq as [Iq|Iq].
      + exfalso. apply (report_warning_in checks t db _ _ r0 _ q Hd E0) in Iq as (a' & f & Eq & _). rewrite Eq in Ea. discriminate.
      + cbn [warning_kind_eqb] in Iq. split; [apply Y3; intros K; rewrite K in Iq; destruct Iq|]. destruct (Y1 q Iq) as (p & -> & I1 & I2 & I3). exists p. auto.
    - intros (K & p & I1 & I2 & I3 & -> & ->). destruct (Y2 K p I1 I2 I3) as (q & Iq & En & Ev). exists (mkWarning WYanked q None). cbn [w_package w_kind w_advisory].
      split; [apply in_or_app; right; exact Iq|]. rewrite En, Ev. auto. }
  destruct (C81_header pr _ j P) as ((s1 & R1 & ->) & (s2 & R2 & ->) & (s3 & R3 & ->) & R4 & _).
  cbn [full_report_of fr_database fr_dependencies fr_count fr_found] in *.
  destruct (C22_report_total_and_counts checks t db (lk_packages l) (report_settings c) Hd) as (r1 & E1 & Cn & Cf & Cd). rewrite E0 in E1. injection E1 as <-.
  pose proof (with_yanked_vulns r0 ws) as EV. rewrite <- Er in EV. rewrite EV in *.
  split; [|split].
  - eexists. split; [exact (listed_vulns pr full di r j P)|]. rewrite EV, !map_length, <- Cn. split; [exact R3|].
    exists (vi_found (r_vulns r0)). split; [exact R4|]. rewrite Cf. destruct (vi_list (r_vulns r0)); cbn [map]; split; congruence.
  - assert (Ed : r_dependency_count r = List.length (lk_packages l)) by (rewrite Er, <- Cd; destruct ws; reflexivity). rewrite <- Ed. exact R2.
  - exact R1.
Qed.
Print Assumptions C81_lists_exactly.

(** A program that reads that JSON with this library's types gets the report itself back, if no package or advisory in it has a
    path as source or a branch, tag or revision with special characters. *)
Theorem C81_audit_reads_back : forall x print_req read_time sev text full checks c w truth t db raw l latest,
  norm_laws (x_norm x) -> reads_stamps read_time -> reads_printed (x_req x) print_req ->
  wd_located w = true -> wd_checkout w c = Some t -> db_open t = Ok db -> load (x_norm x) raw = Ok l -> wd_lockfile w = Ok l ->
  index_answers c w truth -> cf_format c = FJson -> in_full x sev text full (db_iter db) -> made_config c ->
  (forall p, In p (lk_packages l) -> kept_package p) -> (forall a, In a (db_iter db) -> kept (DbModel.a_source a)) ->
  (N.of_nat (List.length (db_iter db)) <= u64_max)%N -> (N.of_nat (List.length (lk_packages l)) <= u64_max)%N ->
  exists r rest code, run_audit checks c w = (OutJson r :: rest, Exit code) /\
  ((N.of_nat (List.length (vi_list (r_vulns r))) <= u64_max)%N ->
   forall j, print_json print_req gregorian (full_report_of full (database_info_new db latest) r) = Ok j ->
     report_of_json x read_time j = Ok (full_report_of full (database_info_new db latest) r)).
Proof.
  intros x pr rt sev text full checks c w truth t db raw l latest L RS RP Hl Hc Hd Hld Hf I Fj F [MC1 MC2] Kp Ka S1 S2.
  assert (Pr : printable checks c (db_iter db) l) by (intros K; rewrite Fj in K; discriminate).
  destruct (run_audit_spec checks c w truth t db l Hl Hc Hd Hf I Pr) as (r0 & ws & r & out & d & s & b & E0 & Er & EP & _ & ER & _ & Y1 & _ & _).
  unfold print_report in EP. rewrite Fj in EP. injection EP as <- _.
  exists r, (match s with [] => [] | _ => [OutSelf s] end), (if b then 1%N else 0%N). split; [exact ER|].
  intros S3 j P.
  destruct (report_spec checks t db (lk_packages l) (report_settings c) Hd) as (r1 & E1 & _ & Rs & _). rewrite E0 in E1. injection E1 as <-.
  destruct (C22_report_total_and_counts checks t db (lk_packages l) (report_settings c) Hd) as (r1 & E1 & Cn & Cf & Cd). rewrite E0 in E1. injection E1 as <-.
  pose proof (with_yanked_vulns r0 ws) as EV. rewrite <- Er in EV.
  assert (Lp : forall p, In p (lk_packages l) -> loaded_package x p) by (intros p Ip; exists raw, l; auto).
  assert (Src : forall a, In a (db_iter db) -> kept (m_source (f_meta (full a)))).
  { intros a Ia. destruct (F a Ia) as [_ Ea]. pose proof (Ka a Ia) as K. rewrite <- Ea in K. exact K. }
  assert (V : forall v, In v (vi_list (r_vulns r)) -> In (v_advisory v) (db_iter db) /\ In (v_package v) (lk_packages l)).
  { intros v Iv. rewrite EV in Iv. apply (report_vuln_in checks t db _ _ r0 v Hd E0) in Iv. tauto. }
  assert (W : forall k q, In q (winfo_get k (r_warnings r)) -> In (w_package q) (lk_packages l) /\ forall a, w_advisory q = Some a -> In a (db_iter db)).
  { intros k q Iq. rewrite Er, with_yanked_get in Iq. apply in_app_or in Iq as [Iq|Iq].
    - apply (report_warning_in checks t db _ _ r0 k q Hd E0) in Iq as (a' & f & Eq & I1 & I2 & _). split; [exact I2|]. intros a Ea. rewrite Eq in Ea. cbn [w_advisory] in Ea. congruence.
    - destruct (warning_kind_eqb WYanked k); [|destruct Iq]. destruct (Y1 q Iq) as (p & -> & I1 & _). split; [exact I1|]. discriminate. }
  apply (C81_reads_back x pr rt _ j L RS RP); [constructor| |exact P]; cbn [full_report_of fr_list fr_warnings fr_settings fr_database fr_dependencies fr_count].
  - intros v Iv. apply in_map_iff in Iv as (q & <- & Iq). destruct (V q Iq) as [I1 I2]. split; [apply Lp, I2|]. exists (full (v_advisory q)). split; [apply F, I1|reflexivity].
  - intros k qs q Ik Iq. apply full_warnings_in in Ik. subst qs. apply in_map_iff in Iq as (q' & <- & Iq). destruct (W k q' Iq) as [I1 I2].
    unfold full_warning. destruct (w_advisory q') as [a|]; cbn; (split; [apply Lp, I1|]); [right|left; reflexivity]. exists (full a). split; [apply F, I2; reflexivity|reflexivity].
  - apply full_warnings_sorted.
  - assert (Es : r_settings r = report_settings c) by (rewrite Er, <- Rs; destruct ws; reflexivity).
    rewrite Es. split; cbn [report_settings st_ignore st_info]; [exact MC1|]. intros i Ii.
    apply deny_loop_only in Ii. assert (N : forall f, f = INotice \/ f = IUnmaintained \/ f = IUnsound -> exists t, informational_named t f)
      by (intros f [->|[->| ->]]; eexists; reflexivity).
    destruct Ii as [Ii|[[-> _]|[[-> _]|[-> _]]]]; try (apply N; auto; fail). destruct (cf_info c) as [k|] eqn:Ei; [exact (MC2 k i eq_refl Ii)|].
    apply N. cbn in Ii. destruct Ii as [<-|[<-|[<-|[]]]]; auto.
  - assert (Ed : r_dependency_count r = List.length (lk_packages l)) by (rewrite Er, <- Cd; destruct ws; reflexivity). rewrite Ed, EV, Cn. rewrite EV in S3. auto.
  - split.
    + intros v Iv. apply in_map_iff in Iv as (q & <- & Iq). destruct (V q Iq) as [I1 I2]. split; [apply Kp, I2|apply Src, I1].
    + intros k qs q Ik Iq. apply full_warnings_in in Ik. subst qs. apply in_map_iff in Iq as (q' & <- & Iq). destruct (W k q' Iq) as [I1 I2].
      unfold full_warning. destruct (w_advisory q') as [a|]; cbn; (split; [apply Kp, I1|]); [|discriminate]. intros m [= <-]. apply Src, I2. reflexivity.
Qed.
Print Assumptions C81_audit_reads_back.
