(** C86: what `cargo audit` prints to the terminal: a whole run, the symbols of an executable, the report about itself. *)
From Coq Require Import List NArith ZArith Ascii String Bool Arith Lia Sorted.
From Verif Require Import Base StrLib SemverModel OsvModel OsvSpec IdModel IdSpec PkgModel DbModel DbSpec DbProofs DbProofs2 PropsDb VerText UrlModel UrlSpec CvssText CvssFloat CvssScoreSpec Cvss3 PropsCvss3 ScanModel PropsScan PartsModel
  AdvModel MtimeModel OsvAdvModel SortProofs LockModel LockSpec TreeModel TreeSpec TreeProofs PropsTree LockCliModel IndexModel IndexSpec AuditModel AuditSpec AuditProofs PropsAudit SarifModel PropsSarif
  JsonSpec PropsOsvAdv PropsOsvAdv2 PropsOsvAdv3 DecodeSpec PropsDecode PropsDecode2
  ReportJsonModel ReportJsonSpec PropsReportJson PropsReportJson2 PropsReportJson3 PropsReportJson4 PropsReportJson5 SeverityModel PropsSeverity SarifJsonModel SarifJsonSpec PropsSarifJson PropsSarifJson2
  TermModel TermSpec PropsTerm PropsTerm2.
Import ListNotations.
Local Open Scope string_scope.

(** ** The functions of an advisory read from a file *)
Lemma loaded_paths x a : loaded_advisory x a -> paths_named (f_affected a).
Proof.
  intros (toml & data & b & col & D & F & ->) af p reqs E I. cbn [in_collection f_affected] in E.
  apply (C78_file x toml data b D) in F as (? & ? & ? & ? & ? & ? & ? & ? & t & _ & _ & _ & _ & _ & _ & _ & _ & _ & _ & Ra & _).
  rewrite E in Ra. destruct Ra as (v & _ & u & -> & _ & _ & Df). destruct Df as [(v' & _ & ft & -> & _ & Hin & _)|[_ Ee]].
  - apply Hin in I as (k & v' & _ & Pk & _). apply C53_parse_iff in Pk as (_ & Ln & _). intros ->. cbn in Ln. lia.
  - rewrite Ee in I. destruct I.
Qed.

(** With the terminal format, a lockfile that can be loaded and a database that can be opened, everything found is printed: the
    vulnerabilities, the informational advisories and the yanked packages, and nothing else. *)
Theorem C86_audit : forall pow print_req x text full checks c w truth t db l latest read_symbol,
  accurate pow -> wd_located w = true -> wd_checkout w c = Some t -> db_open t = Ok db -> wd_lockfile w = Ok l ->
  index_answers c w truth -> cf_format c = FTerminal -> printable checks c (db_iter db) l -> in_full x (sev_of pow) text full (db_iter db) ->
  exists r items d rest code, print_report checks c r l [] = Ok (items, d) /\ run_audit checks c w = ((items ++ rest)%list, Exit code) /\ (forall it, In it rest -> exists s, it = OutSelf s) /\
   let fr := full_report_of full (database_info_new db latest) r in
   exists out last tail, print_terminal checks pow print_req read_symbol None c fr l None [] = Ok ((out ++ tail)%list, map dep_of_package last) /\
    reported checks print_req c None l [] (all_findings fr) out last /\ summary c fr None tail /\
    (forall a p, In a (db_iter db) /\ In p (lk_packages l) /\ concerns checks (report_settings c) a p /\ a_informational a = None /\ ~ In (a_id a) (cf_ignore c) ->
      In (Vulnerable (full_vuln full (mkVuln a p))) (all_findings fr)) /\
    (forall v, In (Vulnerable v) (all_findings fr) -> exists a p, v = full_vuln full (mkVuln a p) /\
      In a (db_iter db) /\ In p (lk_packages l) /\ concerns checks (report_settings c) a p /\ a_informational a = None /\ ~ In (a_id a) (cf_ignore c)) /\
    (forall a p f k, In a (db_iter db) -> In p (lk_packages l) -> concerns checks (report_settings c) a p -> a_informational a = Some f -> kind_of_info k f ->
        In f (st_info (report_settings c)) -> ~ In (a_id a) (cf_ignore c) -> In (Warned (full_warning full (mkWarning k p (Some a)))) (all_findings fr)) /\
    (index_consulted c w -> forall p, In p (lk_packages l) -> from_crates_io p -> IndexSpec.says (truth (p_name p)) (p_version p) true ->
        exists q, same_release p q /\ In (Warned (full_warning full (mkWarning WYanked q None))) (all_findings fr)) /\
    (forall v, In (Warned v) (all_findings fr) ->
      (exists a p f k, v = full_warning full (mkWarning k p (Some a)) /\ In a (db_iter db) /\ In p (lk_packages l) /\ concerns checks (report_settings c) a p /\ a_informational a = Some f /\ kind_of_info k f /\
        In f (st_info (report_settings c)) /\ ~ In (a_id a) (cf_ignore c)) \/
      (index_consulted c w /\ exists p, v = full_warning full (mkWarning WYanked p None) /\ In p (lk_packages l) /\ from_crates_io p /\ IndexSpec.says (truth (p_name p)) (p_version p) true)).
Proof.
  intros pow print_req x text full checks c w truth t db l latest rs A Hl Hc Hd Hf I Fj Pr F.
  destruct (run_audit_spec checks c w truth t db l Hl Hc Hd Hf I Pr) as (r0 & ws & r & out & d & s & b & E0 & Er & EP & _ & ER & _ & Y1 & Y2 & Y3).
  set (di := database_info_new db latest) in *. 
  assert (VI : forall v, In v (vi_list (r_vulns r)) <-> In (v_advisory v) (db_iter db) /\ In (v_package v) (lk_packages l) /\ concerns checks (report_settings c) (v_advisory v) (v_package v) /\
     a_informational (v_advisory v) = None /\ ~ In (a_id (v_advisory v)) (cf_ignore c)).
  { intros v. rewrite Er, with_yanked_vulns. exact (report_vuln_in checks t db _ _ r0 v Hd E0). }
  assert (WI : forall k q, In q (winfo_get k (r_warnings r)) -> (In q (winfo_get k (r_warnings r0)) \/ (k = WYanked /\ In q ws))).
  { intros k q. rewrite Er, with_yanked_get. intros Iq. apply in_app_or in Iq as [Iq|Iq]; [left; exact Iq|right].
    destruct k; cbn [warning_kind_eqb] in Iq; try destruct Iq; auto. }
  assert (WS : forall k q, In q (winfo_get k (r_warnings r)) -> w_kind q = k /\
      ((exists a f, w_advisory q = Some a /\ In a (db_iter db) /\ In (w_package q) (lk_packages l) /\ concerns checks (report_settings c) a (w_package q) /\ a_informational a = Some f /\ kind_of_info k f /\
        In f (st_info (report_settings c)) /\ ~ In (a_id a) (cf_ignore c)) \/
       (k = WYanked /\ w_advisory q = None /\ index_consulted c w /\ In (w_package q) (lk_packages l) /\ from_crates_io (w_package q) /\ IndexSpec.says (truth (p_name (w_package q))) (p_version (w_package q)) true))).
  { intros k q Iq. apply WI in Iq as [Iq|[-> Iq]].
    - apply (report_warning_in checks t db _ _ r0 k q Hd E0) in Iq as (a' & f & Eq & I1 & I2 & I3 & I4 & I5 & I6 & I7). rewrite Eq. cbn [w_kind w_advisory w_package]. split; [reflexivity|]. left.
      exists a', f. rewrite Eq in I2, I3. cbn [w_package] in I2, I3. repeat (split; [solve [assumption|reflexivity]|]). split; [destruct f; cbn in I6; try discriminate; injection I6 as <-; reflexivity|]. split; assumption.
    - destruct (Y1 q Iq) as (p & -> & I1 & I2 & I3). cbn [w_kind w_advisory w_package]. split; [reflexivity|]. right. repeat (split; [solve [assumption|reflexivity|apply Y3; intros K; rewrite K in Iq; destruct Iq]|]). assumption. }
  assert (C : coherent r).
  { intros k q Iq. destruct (WS k q Iq) as [Ek [(a & f & Ea & _)|(-> & Ea & _)]]; (split; [exact Ek|]); intros N; [congruence|reflexivity]. }
  destruct (Pr Fj) as (Lk & Dp & Cl & Sm).
  assert (W : well_filed (full_report_of full di r)) by (apply filed; exact C).
  assert (Wc : well_counted (full_report_of full di r)).
  { destruct (report_spec checks t db (lk_packages l) (report_settings c) Hd) as (r1 & E1 & _ & _ & _ & Cn & Fo & _). rewrite E0 in E1. injection E1 as <-.
    unfold well_counted, full_report_of. cbn [fr_count fr_list fr_found]. rewrite Er, with_yanked_vulns, map_length. split; [exact Cn|]. rewrite Fo. split; intros K N; apply K; [destruct (vi_list (r_vulns r0)); [reflexivity|discriminate]|rewrite N; reflexivity]. }
  assert (P : presentable checks l (full_report_of full di r)).
  { split.
    - intros f If. apply finding_iff in If as [(v & Iv & ->)|(k & q & Iq & ->)]; cbn [package_of].
      + apply VI in Iv. cbn [full_vuln jv_package]. tauto.
      + rewrite package_kept. destruct (WS k q Iq) as [_ [(a & f & H)|H]]; tauto.
    - apply (scores full di r x (sev_of pow) text (db_iter db) F).
      + intros v Iv. apply VI in Iv. tauto.
      + intros k q a Iq Ea. destruct (WS k q Iq) as [_ [(a' & f & Ea' & H)|(_ & Ea' & _)]]; [|congruence]. replace a with a' by congruence. tauto.
    - intros f If. apply finding_iff in If as [(v & Iv & ->)|(k & q & Iq & ->)]; cbn [affected_of].
      + apply VI in Iv as [Iv _]. cbn [full_vuln jv_affected]. exact (loaded_paths x _ (proj1 (F _ Iv))).
      + unfold full_warning. destruct (WS k q Iq) as [_ [(a & f & Ea & Ia & _)|(_ & Ea & _)]]; rewrite Ea; cbn [jw_affected]; [exact (loaded_paths x _ (proj1 (F _ Ia)))|]. intros af p reqs K. discriminate.
    - intros v Iv. cbn [full_report_of fr_list] in Iv. apply in_map_iff in Iv as (u & <- & Iu). apply VI in Iu as (I1 & I2 & _). intros K. destruct (Sm K) as [S1 S2]. cbn [full_vuln jv_package jv_versions].
      split; [apply S1; exact I2|]. pose proof (S2 _ I1) as B. destruct (F _ I1) as [_ Ea]. pose proof (f_equal a_versions Ea) as Ev. cbn [to_db a_versions] in Ev. rewrite <- Ev in B. exact B. }
  exists r, out, d, (match s with [] => [] | _ => [OutSelf s] end), (if b then 1%N else 0%N). split; [exact EP|]. split; [exact ER|].
  split. { intros it Hi. destruct s as [|q s]; [destruct Hi|]. destruct Hi as [<-|[]]. eexists. reflexivity. }
  intros fr. destruct (C86_report checks pow print_req c l fr None [] A Lk Dp Cl P W Wc rs None) as (notice & symbols & o & last & tail & Es & E & R & S).
  cbn [symbols_of] in Es. injection Es as <- <-. exists o, last, tail. split; [exact E|]. split; [exact R|]. split; [exact S|].
  split; [|split; [|split; [|split]]].
  - intros a p H. apply finding_iff. left. exists (mkVuln a p). split; [apply VI; exact H|reflexivity].
  - intros v Iv. apply finding_iff in Iv as [([a p] & Iv & Ef)|(k & q & _ & Ef)]; [|discriminate]. exists a, p. split; [congruence|]. apply VI in Iv. exact Iv.
  - intros a p f k I1 I2 I3 I4 I5 I6 I7. apply finding_iff. right. exists k, (mkWarning k p (Some a)). split; [|reflexivity]. rewrite Er, with_yanked_get. apply in_or_app. left.
    apply (report_warning_in checks t db _ _ r0 k _ Hd E0). cbn [w_package]. exists a, f. repeat (split; [solve [reflexivity|assumption]|]). split; [|exact I7].
    destruct k; cbn in I5; try subst f; try reflexivity. destruct I5.
  - intros K p I1 I2 I3. destruct (Y2 K p I1 I2 I3) as (q & Iq & En). exists q. split; [exact En|]. apply finding_iff. right. exists WYanked, (mkWarning WYanked q None). split; [|reflexivity].
    rewrite Er, with_yanked_get. apply in_or_app. right. exact Iq.
  - intros v Iv. apply finding_iff in Iv as [(u & _ & Ef)|(k & q & Iq & Ef)]; [discriminate|]. injection Ef as ->.
    destruct (WS k q Iq) as [Ek [(a & f & Ea & H)|(-> & Ea & H1 & H2)]].
    + left. exists a, (w_package q), f, k. split; [unfold full_warning; rewrite Ea, Ek; reflexivity|exact H].
    + right. split; [exact H1|]. exists (w_package q). split; [unfold full_warning; rewrite Ea, Ek; reflexivity|exact H2].
Qed.
Print Assumptions C86_audit.

(** ** The symbols of an executable *)
(** A symbol counts if its name contains the name of one of the packages, with underscores for hyphens, and it can be read as a path.
    The paths are in order, without repetition.  Nothing else decides. *)
Theorem C86_symbols : forall read_symbol names ps, exists ss, from_file read_symbol (Symbols names) ps = inl ss /\
  StronglySorted path_before ss /\
  forall s, In s ss <-> exists name p t before after, In (Some name) names /\ In p ps /\ name = before ++ underscores (p_name p) ++ after /\ read_symbol name = Some t /\ s = all_segments t.
Proof.
  intros rs names ps. eexists. split; [reflexivity|]. pose proof (list_cmp_laws _ str_cmp_laws) as Lw. split; [exact (dedup_sorted _ Lw _ (sort_sorted _ Lw _))|].
  intros s. rewrite (dedup_in _ Lw), (sort_in _). rewrite in_flat_map. split.
  - intros ([name|] & I & H); [|destruct H]. destruct (existsb _ _) eqn:E; [|destruct H]. destruct (rs name) as [t|] eqn:Et; [|destruct H]. destruct H as [<-|[]].
    apply existsb_exists in E as (cn & Ic & Hc). apply in_map_iff in Ic as (p & <- & Ip). apply contains_spec in Hc as (a & b & Hn). exists name, p, t, a, b. rewrite C54_flatten. auto.
  - intros (name & p & t & a & b & I & Ip & Hn & Et & ->). exists (Some name). split; [exact I|]. rewrite Et, C54_flatten.
    replace (existsb _ _) with true; [left; reflexivity|]. symmetry. apply existsb_exists. exists (underscores (p_name p)). split; [apply (in_map (fun p => underscores (p_name p))); exact Ip|]. apply contains_spec. exists a, b. exact Hn.
Qed.
Print Assumptions C86_symbols.
(** The name with underscores: the same length, every hyphen replaced, everything else kept. *)
Theorem C86_underscores : forall s, String.length (underscores s) = String.length s /\
  forall n, String.get n (underscores s) = option_map (fun a => if Ascii.eqb a "-" then "_"%char else a) (String.get n s).
Proof. intros s. induction s as [|a s [L G]]; [split; reflexivity|]. split; [cbn; congruence|]. intros [|n]; [reflexivity|apply G]. Qed.
(** An executable that cannot be parsed: a notice comes first, and no functions are mentioned; otherwise the symbols are those of the
    packages of the findings. *)
Theorem C86_executable : forall read_symbol r f,
  (forall why, f = Unreadable why ->
     symbols_of read_symbol (Some f) r = ([StatusWarn ("Failed to extract symbols from binary for affected-function analysis: " ++ why)], None)) /\
  (forall names, f = Symbols names -> exists ss ps, symbols_of read_symbol (Some f) r = ([], Some ss) /\ from_file read_symbol f ps = inl ss /\
     forall p, In p ps <-> exists g, In g (all_findings r) /\ package_of g = p).
Proof.
  intros rs r f. split; [intros why ->; reflexivity|]. intros names ->. eexists _, (map jv_package (fr_list r) ++ map jw_package (flat_map snd (fr_warnings r)))%list. split; [reflexivity|]. split; [reflexivity|].
  intros p. rewrite in_app_iff. unfold all_findings. split.
  - intros [I|I].
    + apply in_map_iff in I as (v & <- & I). exists (Vulnerable v). split; [|reflexivity]. apply in_or_app. left. apply in_map. exact I.
    + apply in_map_iff in I as (w & <- & I). exists (Warned w). split; [|reflexivity]. apply in_or_app. right. apply in_flat_map in I as (e & I1 & I2). apply in_flat_map. exists e. split; [exact I1|]. apply in_map. exact I2.
  - intros (g & I & <-). apply in_app_or in I as [I|I].
    + left. apply in_map_iff in I as (v & <- & I). apply (in_map jv_package). exact I.
    + right. apply in_flat_map in I as (e & I1 & I2). apply in_map_iff in I2 as (w & <- & I2). apply (in_map jw_package). apply in_flat_map. exists e. auto.
Qed.

(** ** The report about `cargo audit` itself *)
Definition own_message := "This copy of cargo-audit has known advisories! Upgrade cargo-audit to the latest version: cargo install --force cargo-audit".
Theorem C86_self : forall pow cf advs, accurate pow -> (forall m c, In m advs -> m_cvss m = Some c -> exists s, cvss_parse s = Ok c) ->
  (advs = [] -> self_text pow cf advs = Ok []) /\
  (advs <> [] -> exists head blocks, self_text pow cf advs = Ok ([head] ++ List.concat blocks ++ [Plain ""])%list /\
     (In DWarnings (cf_deny cf) -> head = StatusErr own_message) /\ (~ In DWarnings (cf_deny cf) -> head = StatusWarn own_message) /\
     Forall2 (fun m ls => states_advisory ls m /\ exists c, (c = Red <-> In DWarnings (cf_deny cf)) /\ Forall (fun x => exists label s, x = Attr c label s) ls) advs blocks).
Proof.
  intros pow cf advs A H. split; [intros ->; reflexivity|]. intros N. unfold self_text. destruct advs as [|m0 advs0] eqn:Ea; [destruct (N eq_refl)|]. rewrite <- Ea in *. clear N. cbv zeta.
  set (denied := existsb (deny_eqb DWarnings) (cf_deny cf)).
  assert (Hd : denied = true <-> In DWarnings (cf_deny cf)).
  { unfold denied. rewrite existsb_exists. split; [intros (d & I & E); destruct d; try discriminate; exact I|intros I; exists DWarnings; split; [exact I|reflexivity]]. }
  assert (B : forall ms, (forall m, In m ms -> In m advs) -> exists blocks, omap (metadata_lines pow (warning_color denied)) ms = Ok blocks /\
     Forall2 (fun m ls => states_advisory ls m /\ exists c, (c = Red <-> In DWarnings (cf_deny cf)) /\ Forall (fun x => exists label s, x = Attr c label s) ls) ms blocks).
  { induction ms as [|m ms IH]; intros Sub; [exists []; split; [reflexivity|constructor]|]. destruct (IH (fun n In_ => Sub n (or_intror In_))) as (bs & Eb & Fb).
    destruct (metadata_ok pow (warning_color denied) m A (fun v => H m v (Sub m (or_introl eq_refl)))) as (sv & Sv & Em). cbn [omap]. rewrite Em, Eb. cbn [obind]. eexists. split; [reflexivity|].
    constructor; [|exact Fb]. match goal with |- states_advisory ?x _ /\ _ => assert (E : x = shape (warning_color denied) None None None (Some (m_title m)) (Some (m_date m)) (Some (id_string (m_id m))) (shown_url m) sv None None) end.
    { unfold shape. cbn [opt app]. rewrite app_nil_r. reflexivity. }
    rewrite E. split; [apply states_advisory_shape; exact Sv|]. exists (warning_color denied). split; [|apply shape_attrs]. unfold warning_color. rewrite <- Hd. destruct denied; split; congruence. }
  destruct (B advs (fun m I => I)) as (bs & Eb & Fb). rewrite Eb. cbn [obind]. rewrite Ea. eexists _, bs. split; [reflexivity|]. rewrite <- Ea. split; [|split; [|exact Fb]]; intros K.
  - apply Hd in K. rewrite K. reflexivity.
  - destruct denied; [destruct (K (proj1 Hd eq_refl))|reflexivity].
Qed.
Print Assumptions C86_self.
(** Before the report: one line with the file and the number of packages, unless asked to be quiet or writing another format. *)
Theorem C86_scanning : forall cf path l,
  (cf_quiet cf = false /\ cf_format cf = FTerminal ->
     before_report cf path l = [StatusOk "Scanning" (path ++ " for vulnerabilities (" ++ number_text (List.length (lk_packages l)) ++ " crate dependencies)")]) /\
  (cf_quiet cf = true \/ cf_format cf <> FTerminal -> before_report cf path l = []).
Proof.
  intros cf path l. unfold before_report, is_quiet. split.
  - intros [-> ->]. reflexivity.
  - intros [->|N]; [reflexivity|]. destruct (cf_quiet cf); [reflexivity|]. destruct (cf_format cf); try reflexivity; destruct (N eq_refl).
Qed.

(** ** A run with a scored advisory, a yanked package and trees *)
Definition term_config : config := mkConfig [] None None None None true false [] FTerminal false true None None true true.
Definition show_any : version_req -> string := fun _ => ">=1.1.0".
Definition term_text : option (list printed) :=
  match report_generate false (scored_db v3_medium) (lk_packages (lock_of main_branch)) (report_settings term_config) with
  | Ok r => match print_terminal false pow15 show_any (fun _ => None) None term_config (full_report_of (scored_all v3_medium) (database_info_new (scored_db v3_medium) one_commit) r) (lock_of main_branch) None [] with
            | Ok o => Some (fst o) | _ => None end
  | _ => None
  end.
Definition term_world : world := mkWorld true (fun _ => Some (scored_tree v3_medium)) (Ok (lock_of main_branch)) (fun _ => Some (mkIndex false one_truth (fun _ => None))).
Example C86_nonvacuous :
  accurate pow15 /\ wd_located term_world = true /\ wd_checkout term_world term_config = Some (scored_tree v3_medium) /\
  db_open (scored_tree v3_medium) = Ok (scored_db v3_medium) /\ wd_lockfile term_world = Ok (lock_of main_branch) /\ index_answers term_config term_world one_truth /\
  cf_format term_config = FTerminal /\ printable false term_config (db_iter (scored_db v3_medium)) (lock_of main_branch) /\
  in_full extn (sev_of pow15) no_text (scored_all v3_medium) (db_iter (scored_db v3_medium)) /\
  term_text = Some [Attr Red "Crate:    " "my-crate"; Attr Red "Version:  " "1.0.0"; Attr Red "Title:    " "Reads too far"; Attr Red "Date:     " "2024-03-09"; Attr Red "ID:       " "RUSTSEC-2024-0001";
    Attr Red "URL:      " "https://rustsec.org/advisories/RUSTSEC-2024-0001"; Attr Red "Severity: " "6.1 (medium)"; Attr Red "Solution: " "Upgrade to >=1.1.0 OR >=1.1.0 (patched)";
    TreeHead Red; Plain "my-crate 1.0.0"; Plain "└── app 0.1.0"; Plain ""; StatusErr "1 vulnerability found!"] /\
  from_file (fun n => if String.eqb n "_ZN3my_crate3run" then Some (TPath None ["my_crate"; "run"]) else None) (Symbols [Some "_ZN3my_crate3run"; None; Some "_ZN3std3run"; Some "_ZN3my_crate3run"])
    (lk_packages (lock_of main_branch)) = inl [["my_crate"; "run"]].
Proof.
  split; [intros y; left; reflexivity|]. split; [reflexivity|]. split; [reflexivity|]. split; [vm_compute; reflexivity|]. split; [reflexivity|].
  split; [intros ix [= <-]; intros n; reflexivity|]. split; [reflexivity|]. split.
  - intros _. let ps := eval vm_compute in (lk_packages (lock_of main_branch)) in assert (E : lk_packages (lock_of main_branch) = ps) by (vm_compute; reflexivity).
    split; [|split; [|split; [|discriminate]]].
    + intros p Hp. rewrite E in Hp. cbn [In] in Hp. split.
      * destruct Hp as [<-|[<-|[<-|[<-|[]]]]]; cbn [p_source locked_source s_precise]; auto; intros _; discriminate.
      * intros d Hd. destruct Hp as [<-|[<-|[<-|[<-|[]]]]]; cbn [p_deps In] in Hd; repeat (destruct Hd as [<-|Hd]; [cbn [d_source locked_source s_precise]; intros _; discriminate|]); destruct Hd.
    + intros i j p q Hi Hj (N1 & N2 & _). rewrite E in Hi, Hj.
      destruct i as [|[|[|[|i]]]]; cbn [nth_error] in Hi; try (injection Hi as <-); try (destruct i; discriminate);
      destruct j as [|[|[|[|j]]]]; cbn [nth_error] in Hj; try (injection Hj as <-); try (destruct j; discriminate); cbn [d_name p_name dep_of_package] in N1; try discriminate; reflexivity.
    + intros p d Hp Hd. rewrite E in *. cbn [In] in Hp. destruct Hp as [<-|[<-|[<-|[<-|[]]]]]; cbn [p_deps In] in Hd;
      repeat (destruct Hd as [<-|Hd]; [first [eexists; split; [left; reflexivity|split; [reflexivity|split; reflexivity]]|eexists; split; [right; left; reflexivity|split; [reflexivity|split; reflexivity]]|
        eexists; split; [right; right; left; reflexivity|split; [reflexivity|split; reflexivity]]|eexists; split; [right; right; right; left; reflexivity|split; [reflexivity|split; reflexivity]]]|]); destruct Hd.
  - split; [apply scored_in_full; vm_compute; reflexivity|]. split; [vm_compute; reflexivity|vm_compute; reflexivity].
Qed.
