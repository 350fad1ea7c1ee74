(** Property theorems C17-C25 (advisory database, queries, reports). *)
From Coq Require Import List NArith Ascii String Bool Arith.
From Verif Require Import Base SemverModel OsvModel StrLib IdModel IdSpec PkgModel DbModel DbSpec DbProofs DbProofs2.
Import ListNotations.
Local Open Scope string_scope.

(** ** Example data *)
Definition v100 : version := mkVersion 1 0 0 [] [].
Definition v200 : version := mkVersion 2 0 0 [] [].
Definition patched_2 : versions := mkVersions [[mkComparator OpGreaterEq 2 (Some 0%N) (Some 0%N) []]] [].
Definition ex_id (y : N) (s : string) : adv_id := mkId KRustSec (Some y) s.
Definition ex_adv (i : adv_id) (n : string) (sev : option severity) (info : option informational) (w : option string) : advisory :=
  mkAdvisory i n "2020-01-01" None sev info None w "" None patched_2.
Definition adv1 := ex_adv (ex_id 2020 "RUSTSEC-2020-0001") "base" (Some SevHigh) None None.
Definition adv2 := ex_adv (ex_id 2021 "RUSTSEC-2021-0007") "base" None None None.
Definition adv3 := ex_adv (ex_id 2021 "RUSTSEC-2021-0008") "base" None (Some IUnmaintained) None.
Definition adv4 := ex_adv (ex_id 2022 "RUSTSEC-2022-0001") "other" None None (Some "2022-02-02").
Definition draft := ex_adv id_default "base" None None None.
Definition ex_tree : fs_tree :=
  mkTree (Some [mkEntry "base" (Some [mkFile "RUSTSEC-2020-0001.md" (Ok adv1); mkFile ".DS_Store" Err;
                                      mkFile "RUSTSEC-2021-0007.md" (Ok adv2); mkFile "RUSTSEC-0000-0000.md" (Ok draft)]);
                mkEntry "README" None;
                mkEntry "other" (Some [mkFile "RUSTSEC-2022-0001.md" (Ok adv4)]);
                mkEntry "base" (Some [mkFile "RUSTSEC-2021-0008.md" (Ok adv3)])]) None.
Definition ex_db : database := match db_open ex_tree with Ok db => db | _ => mkDb entries_new [] [] end.
Definition git_index : source_id := mkSource "https://github.com/rust-lang/crates.io-index" SRegistry (Some "locked") None.
Definition sparse_index : source_id := mkSource "https://index.crates.io/" SSparseRegistry (Some "locked") None.
Definition pkg (n : string) (v : version) (s : option source_id) : package := mkPkg n v s None [] None.
Definition ex_pkgs : list package :=
  [pkg "app" v100 None; pkg "base" v100 (Some git_index); pkg "other" v100 (Some git_index); pkg "base" v200 (Some git_index)].
Definition ex_settings : settings := mkSettings [] [] None [] [IUnmaintained; IUnsound].
Definition ex_report : outcome report := report_generate false ex_db ex_pkgs ex_settings.
Definition crates (a : advisory) : advisory := with_collection a Crates.

(** ** C17 *)
Theorem C17_files_considered : forall t ps p, advisory_paths t = Ok ps -> (In p ps <-> tree_file t p).
Proof. exact advisory_paths_in. Qed.
Print Assumptions C17_files_considered.

Theorem C17_open_loads_exactly_the_files : forall t db, db_open t = Ok db ->
  exists ps advs, advisory_paths t = Ok ps /\ Forall2 file_gives ps advs /\
    db_iter db = filter (fun a => negb (is_placeholder_adv a)) advs /\ NoDup (map a_id (db_iter db)).
Proof.
  intros t db. unfold db_open. destruct (advisory_paths t) as [ps| |] eqn:Ep; cbn [obind]; try discriminate. intros H.
  destruct (open_loop_inv ps _ db db_inv_new H) as (advs & F & I & E).
  exists ps, advs. repeat split; auto. apply I.
Qed.
Print Assumptions C17_open_loads_exactly_the_files.

Theorem C17_open_succeeds_iff : forall t ps, advisory_paths t = Ok ps ->
  ((exists db, db_open t = Ok db) <->
   exists advs, Forall2 file_gives ps advs /\ NoDup (map a_id (filter (fun a => negb (is_placeholder_adv a)) advs))).
Proof.
  intros t ps Ep. unfold db_open. rewrite Ep. cbn [obind]. split.
  - intros (db & H). destruct (open_loop_inv ps _ db db_inv_new H) as (advs & F & I & E).
    exists advs. split; [exact F|]. pose proof (inv_nodup db I) as N. rewrite E in N. exact N.
  - intros (advs & F & N). apply (open_loop_complete ps _ advs db_inv_new F). exact N.
Qed.
Print Assumptions C17_open_succeeds_iff.

Theorem C17_get_by_id : forall t db i a, db_open t = Ok db ->
  (db_get db i = Some a <-> exists p, tree_file t p /\ file_gives p a /\ a_id a = i /\ id_string i <> "RUSTSEC-0000-0000").
Proof.
  intros t db i a H. rewrite (db_get_spec t db i a H).
  destruct (db_open_spec t db H) as (ps & advs & Hp & F & E & _ & _). rewrite E, filter_In.
  assert (K : In a advs <-> exists p, In p ps /\ file_gives p a).
  { clear E Hp. induction F as [|p b ps advs Hg F IH]; [split; [intros []|intros (? & [] & _)]|]. split.
    - intros [<-|Ha]; [exists p; split; [left; reflexivity|exact Hg]|]. apply IH in Ha as (q & Hq & G). exists q. split; [right|]; assumption.
    - intros (q & [<-|Hq] & G); [left|right; apply IH; exists q; auto].
      destruct Hg as (r1 & c1 & t1 & P1 & _ & _ & _ & _ & C1 & _ & ->).
      destruct G as (r2 & c2 & t2 & P2 & _ & _ & _ & _ & C2 & _ & ->).
      rewrite P1 in P2. injection P2 as ->. rewrite C1 in C2. destruct c1, c2; try discriminate; reflexivity. }
  rewrite K. unfold is_placeholder_adv. split.
  - intros ((( p & Hq & G) & Hn) & Ei). exists p. split; [apply Hp; exact Hq|]. split; [exact G|]. split; [exact Ei|].
    rewrite <- Ei. intros C. rewrite C in Hn. discriminate Hn.
  - intros (p & Hq & G & Ei & Hn). split; [|exact Ei]. split; [exists p; split; [apply Hp; exact Hq|exact G]|].
    rewrite Ei. destruct (String.eqb_spec (id_string i) "RUSTSEC-0000-0000"); [contradiction|reflexivity].
Qed.
Print Assumptions C17_get_by_id.

Theorem C17_drafts_are_never_listed : forall t db a, db_open t = Ok db -> In a (db_iter db) ->
  id_string (a_id a) <> "RUSTSEC-0000-0000".
Proof.
  intros t db a H Ha E. destruct (db_open_spec t db H) as (_ & _ & _ & _ & _ & _ & I).
  pose proof (inv_nonph db I a Ha) as N. unfold is_placeholder in N. rewrite E in N. discriminate N.
Qed.
Print Assumptions C17_drafts_are_never_listed.

Theorem C17_open_never_panics : forall t, (forall p, tree_file t p -> f_parsed (pl_file p) <> Panic) -> db_open t <> Panic.
Proof.
  intros t H. unfold db_open. destruct (advisory_paths t) as [ps| |] eqn:Ep; cbn [obind]; try discriminate.
  - apply open_loop_nopanic. intros p Hp. apply H. apply (advisory_paths_in t ps p Ep). exact Hp.
  - unfold advisory_paths in Ep. destruct (t_crates t); discriminate.
Qed.
Print Assumptions C17_open_never_panics.

(** The draft exemption is by file name only: a file named like a draft with a real id inside is loaded
    under that id although its name does not match. *)
Theorem C17_file_name_names_the_id_refuted :
  exists t db a, db_open t = Ok db /\ db_get db (a_id adv1) = Some a /\
    (forall p, tree_file t p -> f_name (pl_file p) = "RUSTSEC-0000-0000.md").
Proof.
  exists (mkTree (Some [mkEntry "base" (Some [mkFile "RUSTSEC-0000-0000.md" (Ok adv1)])]) None).
  eexists. eexists. split; [vm_compute; reflexivity|]. split; [vm_compute; reflexivity|].
  intros p (es & e & fs & [[_ Et]|[_ Et]] & He & _ & Ef & Hf & _); [|discriminate Et].
  injection Et as <-. destruct He as [<-|[]]. injection Ef as <-. destruct Hf as [<-|[]]. reflexivity.
Qed.
Print Assumptions C17_file_name_names_the_id_refuted.

Example C17_nonvacuous :
  db_open ex_tree = Ok ex_db /\
  db_iter ex_db = [crates adv1; crates adv2; crates adv4; crates adv3] /\
  db_get ex_db (a_id adv2) = Some (crates adv2) /\ db_get ex_db id_default = None /\
  db_open (mkTree (Some [mkEntry "base" (Some [mkFile "RUSTSEC-2020-0001.md" (Ok adv1)]);
                         mkEntry "base" (Some [mkFile "RUSTSEC-2020-0001.md" (Ok adv1)])]) None) = Err /\
  db_open (mkTree (Some [mkEntry "basis" (Some [mkFile "RUSTSEC-2020-0001.md" (Ok adv1)])]) None) = Err.
Proof. vm_compute. repeat split. Qed.

(** ** C18 *)
Theorem C18_query_returns_the_matching_advisories : forall checks t db q, db_open t = Ok db ->
  exists l, db_query checks db q = Ok l /\ NoDup l /\
    (forall a, In a l <-> In a (db_iter db) /\ selects checks q a) /\
    (forall sel, (forall a, sel a = true <-> selects checks q a) -> l = filter sel (db_iter db)).
Proof.
  intros checks t db q H. eexists. split; [exact (db_query_spec checks t db q H)|]. split; [|split].
  - apply NoDup_filter. destruct (db_open_spec t db H) as (_ & _ & _ & _ & _ & ND & _).
    eapply NoDup_map_inv. exact ND.
  - intros a. rewrite filter_In, matches_iff. tauto.
  - intros sel Hs. apply filter_ext. intros a. apply bool_eq_iff. rewrite matches_iff, Hs. tauto.
Qed.
Print Assumptions C18_query_returns_the_matching_advisories.
(** Indexed (name and collection given) and linear (neither given) search. *)
Example C18_nonvacuous :
  db_query false ex_db (query_package crate_scope (pkg "base" v100 (Some git_index))) = Ok [crates adv1; crates adv2] /\
  db_query false ex_db query_new = Ok (db_iter ex_db).
Proof. vm_compute. split; reflexivity. Qed.

(** ** C19 *)
Theorem C19_vulnerabilities_are_the_matching_pairs : forall checks t db pkgs q, db_open t = Ok db ->
  exists l, query_vulnerabilities checks db pkgs q = Ok l /\
    (forall v, In v l <-> In (v_advisory v) (db_iter db) /\ In (v_package v) pkgs /\ from_crates_io (v_package v) /\
        selects checks (query_package q (v_package v)) (v_advisory v)) /\
    (forall sel, (forall p a, sel p a = true <-> selects checks (query_package q p) a) ->
       l = flat_map (fun p => map (fun a => mkVuln a p) (filter (sel p) (db_iter db))) (filter crates_io_package pkgs)).
Proof.
  intros checks t db pkgs q H. eexists. split; [exact (query_vulnerabilities_spec checks t db pkgs q H)|]. split.
  - intros v. apply findings_in.
  - intros sel Hs. unfold findings. apply flat_map_ext'. intros p. f_equal. apply filter_ext. intros a.
    apply bool_eq_iff. rewrite matches_iff, Hs. tauto.
Qed.
Print Assumptions C19_vulnerabilities_are_the_matching_pairs.
Theorem C19_crates_io_packages : forall p, crates_io_package p = true <-> from_crates_io p.
Proof. exact crates_io_package_iff. Qed.
Print Assumptions C19_crates_io_packages.
Example C19_nonvacuous :
  query_vulnerabilities false ex_db ex_pkgs crate_scope =
    Ok [mkVuln (crates adv1) (pkg "base" v100 (Some git_index)); mkVuln (crates adv2) (pkg "base" v100 (Some git_index))] /\
  query_vulnerabilities false ex_db [pkg "base" v100 None] crate_scope = Ok [].
Proof. vm_compute. split; reflexivity. Qed.

(** ** C20 *)
Theorem C20_query_filters : forall checks q a, matches checks q a = true <-> selects checks q a.
Proof. exact matches_iff. Qed.
Print Assumptions C20_query_filters.
Example C20_nonvacuous :
  selects false (mkQuery (Some Crates) (Some "base") (Some v100) (Some git_index) (Some SevHigh) ["x86_64"] [] (Some 2020%N) (Some false) (Some false)) (crates adv1) /\
  ~ selects false (mkQuery None None None None (Some SevCritical) [] [] None None None) adv1 /\
  selects false (mkQuery None None None None (Some SevCritical) [] [] None None None) adv2.
Proof.
  split; [|split]; [apply matches_iff; reflexivity|rewrite <- matches_iff; discriminate|apply matches_iff; reflexivity].
Qed.

(** ** C21: refuted.  Packages recorded with the sparse crates.io index are never matched, unless an
    advisory itself names that index as its source. *)
Theorem C21_sparse_packages_are_audited_refuted : forall checks t db pkgs q l p,
  db_open t = Ok db -> query_vulnerabilities checks db pkgs q = Ok l ->
  p_source p = Some sparse_index ->
  (forall a s, In a (db_iter db) -> a_source a = Some s -> s_kind s <> SSparseRegistry) ->
  forall a, ~ In (mkVuln a p) l.
Proof.
  intros checks t db pkgs q l p H Hq Hs Hno a Hin.
  rewrite (query_vulnerabilities_spec checks t db pkgs q H) in Hq. injection Hq as <-.
  apply findings_in in Hin as (Ha & _ & _ & Hsel). cbn in *.
  destruct Hsel as (_ & _ & _ & Hloc & _). cbn in Hloc. specialize (Hloc _ Hs). unfold advisory_location in Hloc.
  destruct (a_source a) as [s|] eqn:Es; [|discriminate Hloc]. injection Hloc as E _. exact (Hno a s Ha Es E).
Qed.
Print Assumptions C21_sparse_packages_are_audited_refuted.
Example C21_nonvacuous :
  query_vulnerabilities false ex_db [pkg "base" v100 (Some sparse_index)] crate_scope = Ok [] /\
  query_vulnerabilities false ex_db [pkg "base" v100 (Some git_index)] crate_scope =
    Ok [mkVuln (crates adv1) (pkg "base" v100 (Some git_index)); mkVuln (crates adv2) (pkg "base" v100 (Some git_index))] /\
  crates_io_package (pkg "base" v100 (Some sparse_index)) = true.
Proof. vm_compute. repeat split. Qed.

(** ** C22 *)
Theorem C22_report_lists_the_unignored_findings : forall checks t db pkgs s r v,
  db_open t = Ok db -> report_generate checks db pkgs s = Ok r ->
  (In v (vi_list (r_vulns r)) <->
   In (v_advisory v) (db_iter db) /\ In (v_package v) pkgs /\ concerns checks s (v_advisory v) (v_package v) /\
   a_informational (v_advisory v) = None /\ ~ In (a_id (v_advisory v)) (st_ignore s)).
Proof. exact report_vuln_in. Qed.
Print Assumptions C22_report_lists_the_unignored_findings.
Theorem C22_report_total_and_counts : forall checks t db pkgs s, db_open t = Ok db ->
  exists r, report_generate checks db pkgs s = Ok r /\
    vi_count (r_vulns r) = List.length (vi_list (r_vulns r)) /\
    (vi_found (r_vulns r) = true <-> vi_list (r_vulns r) <> []) /\
    r_dependency_count r = List.length pkgs.
Proof.
  intros checks t db pkgs s H. destruct (report_spec checks t db pkgs s H) as (r & E & A & _ & _ & B & C & _).
  exists r. auto.
Qed.
Print Assumptions C22_report_total_and_counts.
Theorem C22_ignoring_removes_exactly_that_id : forall checks t db pkgs s i r r', db_open t = Ok db ->
  report_generate checks db pkgs s = Ok r -> report_generate checks db pkgs (with_ignored s i) = Ok r' ->
  vi_list (r_vulns r') = filter (fun v => negb (id_eqb (a_id (v_advisory v)) i)) (vi_list (r_vulns r)) /\
  forall k, winfo_get k (r_warnings r') =
    filter (fun w => match w_advisory w with Some a => negb (id_eqb (a_id a) i) | None => true end) (winfo_get k (r_warnings r)).
Proof. exact report_ignore. Qed.
Print Assumptions C22_ignoring_removes_exactly_that_id.
Example C22_nonvacuous :
  exists r, ex_report = Ok r /\
    vi_list (r_vulns r) = [mkVuln (crates adv1) (pkg "base" v100 (Some git_index)); mkVuln (crates adv2) (pkg "base" v100 (Some git_index))] /\
    r_warnings r = [(WUnmaintained, [mkWarning WUnmaintained (pkg "base" v100 (Some git_index)) (Some (crates adv3))])].
Proof. eexists. vm_compute. repeat split. Qed.

(** ** C23 *)
Theorem C23_warnings_are_the_enabled_informational_findings : forall checks t db pkgs s r k w,
  db_open t = Ok db -> report_generate checks db pkgs s = Ok r ->
  (In w (winfo_get k (r_warnings r)) <->
   exists a i, w = mkWarning k (w_package w) (Some a) /\ In a (db_iter db) /\ In (w_package w) pkgs /\
     concerns checks s a (w_package w) /\ a_informational a = Some i /\ In i (st_info s) /\
     warning_kind_of i = Some k /\ ~ In (a_id a) (st_ignore s)).
Proof. exact report_warning_in. Qed.
Print Assumptions C23_warnings_are_the_enabled_informational_findings.
Theorem C23_informational_never_in_vulnerabilities : forall checks t db pkgs s r v,
  db_open t = Ok db -> report_generate checks db pkgs s = Ok r -> In v (vi_list (r_vulns r)) ->
  a_informational (v_advisory v) = None.
Proof. intros checks t db pkgs s r v H Hr Hv. apply (report_vuln_in checks t db pkgs s r v H Hr) in Hv. tauto. Qed.
Print Assumptions C23_informational_never_in_vulnerabilities.
Theorem C23_warning_map_is_well_formed : forall checks t db pkgs s r,
  db_open t = Ok db -> report_generate checks db pkgs s = Ok r ->
  NoDup (map fst (r_warnings r)) /\ (forall k ws, In (k, ws) (r_warnings r) -> ws <> []).
Proof.
  intros checks t db pkgs s r H Hr. destruct (report_spec checks t db pkgs s H) as (r' & E & _ & _ & _ & _ & _ & W & _).
  rewrite Hr in E. injection E as <-. exact W.
Qed.
Print Assumptions C23_warning_map_is_well_formed.
Example C23_nonvacuous : In INotice [INotice] /\ warning_kind_of INotice = Some WNotice /\
  winfo_get WUnmaintained (match ex_report with Ok r => r_warnings r | _ => [] end)
    = [mkWarning WUnmaintained (pkg "base" v100 (Some git_index)) (Some (crates adv3))].
Proof. vm_compute. repeat split. left; reflexivity. Qed.

(** ** C24 *)
Theorem C24_withdrawn_never_reported : forall checks t db pkgs s r, db_open t = Ok db ->
  report_generate checks db pkgs s = Ok r ->
  (forall v, In v (vi_list (r_vulns r)) -> a_withdrawn (v_advisory v) = None) /\
  (forall k w a, In w (winfo_get k (r_warnings r)) -> w_advisory w = Some a -> a_withdrawn a = None).
Proof.
  intros checks t db pkgs s r H Hr. split.
  - intros v Hv. apply (report_vuln_in checks t db pkgs s r v H Hr) in Hv as (_ & _ & C & _). apply C.
  - intros k w a Hw Ea. apply (report_warning_in checks t db pkgs s r k w H Hr) in Hw as (b & i & Ew & _ & _ & C & _).
    rewrite Ew in Ea. injection Ea as <-. apply C.
Qed.
Print Assumptions C24_withdrawn_never_reported.
(** [adv4] is withdrawn, names an installed vulnerable package, and is absent from [C22_nonvacuous]. *)
Example C24_nonvacuous : In (crates adv4) (db_iter ex_db) /\ vulnerable_at false adv4 v100 = true.
Proof. vm_compute. split; [|reflexivity]. right. right. left. reflexivity. Qed.

(** ** C25 *)
Theorem C25_raising_the_threshold_filters : forall checks t db pkgs s lower th r r', db_open t = Ok db -> at_least lower th ->
  report_generate checks db pkgs (with_severity s lower) = Ok r ->
  report_generate checks db pkgs (with_severity s (Some th)) = Ok r' ->
  vi_list (r_vulns r') = filter (fun v => reaches th (v_advisory v)) (vi_list (r_vulns r)) /\
  forall k, winfo_get k (r_warnings r') =
    filter (fun w => match w_advisory w with Some a => reaches th a | None => true end) (winfo_get k (r_warnings r)).
Proof. exact report_severity. Qed.
Print Assumptions C25_raising_the_threshold_filters.
Example C25_nonvacuous :
  at_least (Some SevLow) SevCritical /\ reaches SevCritical adv1 = false /\ reaches SevCritical adv2 = true /\
  exists r', report_generate false ex_db ex_pkgs (with_severity ex_settings (Some SevCritical)) = Ok r' /\
    vi_list (r_vulns r') = [mkVuln (crates adv2) (pkg "base" v100 (Some git_index))].
Proof. split; [cbn; auto with arith|]. split; [reflexivity|]. split; [reflexivity|]. eexists. vm_compute. split; reflexivity. Qed.
