(** Property theorem C64: the exit status of `cargo audit bin`. *)
From Coq Require Import List NArith Ascii String Bool Arith Lia.
From Verif Require Import Base SemverModel OsvModel OsvSpec OsvProofs4 StrLib VerText IdModel PkgModel DbModel DbSpec DbProofs DbProofs2
  PropsDb UrlModel UrlSpec UrlProofs LockModel LockSpec TreeModel TreeSpec TreeProofs PropsTree PlatData PlatModel PropsPlat IndexModel IndexSpec PropsIndex
  AuditModel AuditSpec AuditProofs PropsAudit PropsAudit3.
Import ListNotations.
Local Open Scope string_scope.

(** The file exists, is within the size limit, and holds the dependency list [l] in an executable of format [f]. *)
Definition holds_deps (load : deps_loader) (max_binary audit_data : option N) (file : option string) (f : binary_format) (l : lockfile) : Prop :=
  exists bytes, file = Some bytes /\
    (N.of_nat (String.length bytes) <= match max_binary with Some n => n | None => 100 * 1024 * 1024 end)%N /\
    load bytes (Some (match audit_data with Some n => n | None => 8 * 1024 * 1024 end)%N) = Ok (f, Some l).
(** Something in a dependency list that makes the audit fail, counting only advisories that are not about other
    platforms than the executable's. *)
Definition binary_finding (checks : bool) (c : config) (w : world) (truth : string -> entry) (advs : list advisory)
  (f : binary_format) (pkgs : list package) : Prop :=
  (exists a p, In a advs /\ In p pkgs /\ concerns checks (report_settings c) a p /\ a_informational a = None /\
     ~ In (a_id a) (cf_ignore c) /\ ~ other_platforms_only f (a_affected a)) \/
  (exists k a p i, k <> WNotice /\ denies c k /\ In a advs /\ In p pkgs /\ concerns checks (report_settings c) a p /\
     a_informational a = Some i /\ kind_of_info k i /\ ~ In (a_id a) (cf_ignore c) /\ ~ other_platforms_only f (a_affected a)) \/
  (denies c WYanked /\ index_consulted c w /\ yanked_finding truth pkgs).

Definition keeps (f : binary_format) (a : option affected) : bool := applicable f a.
Lemma keeps_iff f a : applicable f a = true <-> ~ other_platforms_only f a.
Proof. rewrite <- applicable_false_iff. destruct (applicable f a); split; congruence. Qed.

Lemma audit_bin_spec checks t a l truth f : db_open t = Ok (au_db a) -> index_ok truth (au_index a) ->
  printable checks (au_config a) (db_iter (au_db a)) l ->
  exists r out a', audit checks a l (Some f) = Ok (r, out, a') /\
    au_config a' = au_config a /\ au_db a' = au_db a /\ index_ok truth (au_index a') /\ (au_index a' = None <-> au_index a = None) /\
    au_binary_limit a' = au_binary_limit a /\ au_data_limit a' = au_data_limit a /\
    forall w, (au_index a <> None <-> index_consulted (au_config a) w) ->
      (should_exit_with_failure (au_config a) r = true <-> binary_finding checks (au_config a) w truth (db_iter (au_db a)) f (lk_packages l)).
Proof.
  intros H I P. destruct (report_spec checks t (au_db a) (lk_packages l) (report_settings (au_config a)) H)
    as (r0 & E & _ & _ & El & Ec & Ef & [N _] & G).
  assert (Y : exists ws ix', check_for_yanked (au_index a) (lk_packages l) = Ok (ws, ix') /\ index_ok truth ix' /\ (ix' = None <-> au_index a = None) /\
    (forall w, In w ws -> exists p, w = mkWarning WYanked p None /\ In p (lk_packages l) /\ from_crates_io p /\ says (truth (p_name p)) (p_version p) true) /\
    (au_index a <> None -> forall p, In p (lk_packages l) -> from_crates_io p -> says (truth (p_name p)) (p_version p) true ->
       exists q, In (mkWarning WYanked q None) ws /\ same_release p q) /\ (au_index a = None -> ws = [])).
  { destruct (au_index a) as [[ix c]|].
    - destruct I as [A Hh]. destruct (check_yanked_spec truth ix c (lk_packages l) A Hh) as (ws & c' & E' & H' & S1 & S2).
      exists ws, (Some (ix, c')). split; [exact E'|]. split; [split; [exact A|exact H']|]. split; [split; discriminate|].
      split; [exact S1|]. split; [intros _; exact S2|discriminate].
    - exists [], None. split; [reflexivity|]. split; [exact Logic.I|]. split; [tauto|]. split; [intros w []|]. split; [congruence|reflexivity]. }
  destruct Y as (ws & ix' & EY & IY & In' & Y1 & Y2 & Y3).
  destruct (C28_filter_removes_exactly_other_platforms checks t (au_db a) (lk_packages l) _ r0 f H E)
    as (r1 & keep & EF & HK & FV & FW & FC & FF & _).
  assert (FN : map fst (r_warnings r1) = map fst (r_warnings r0)).
  { unfold filter_report in EF. destruct (negb _); [discriminate|]. injection EF as <-. cbn [r_warnings]. rewrite map_map. reflexivity. }
  assert (N1 : NoDup (map fst (r_warnings r1))) by (rewrite FN; exact N).
  destruct (print_report_ok checks (au_config a) (db_iter (au_db a)) (with_yanked r1 ws) l (au_shown a) P) as ((out & d') & EP).
  { intros v Hv. rewrite with_yanked_vulns, FV in Hv. apply filter_In in Hv as [Hv _].
    apply (report_vuln_in checks t _ _ _ _ _ H E) in Hv. tauto. }
  { intros k w Hw. rewrite with_yanked_get in Hw. apply in_app_or in Hw as [Hw|Hw].
    - rewrite FW in Hw. apply filter_In in Hw as [Hw _]. apply (report_warning_in checks t _ _ _ _ _ _ H E) in Hw as (x & i & _ & _ & Hp & _). exact Hp.
    - destruct (warning_kind_eqb WYanked k); [|destruct Hw]. destruct (Y1 w Hw) as (p & -> & Hp & _). exact Hp. }
  exists (with_yanked r1 ws), out, (mkAuditor (au_config a) (au_db a) ix' d' (au_binary_limit a) (au_data_limit a)).
  split.
  { unfold audit. rewrite E. cbn [obind]. rewrite EF. cbn [obind]. rewrite EY. cbn [obind fst snd].
    destruct ws as [|w0 ws0]; cbn [with_yanked] in EP |- *; rewrite EP; cbn [obind fst snd]; reflexivity. }
  cbn [au_config au_db au_index au_binary_limit au_data_limit].
  split; [reflexivity|]. split; [reflexivity|]. split; [exact IY|]. split; [exact In'|]. split; [reflexivity|]. split; [reflexivity|].
  intros w Cn. rewrite (should_fail_iff _ _ (with_yanked_nodup r1 ws N1)), with_yanked_vulns, FF. unfold binary_finding.
  assert (KT : forall x, keep x = true <-> ~ other_platforms_only f x).
  { intros x. rewrite <- HK. destruct (keep x); split; congruence. }
  split.
  - intros [F|(k & Nk & Dk & K)].
    + left. destruct (vi_list (r_vulns r1)) as [|v vs] eqn:L; [contradiction|].
      assert (Hv : In v (v :: vs)) by (left; reflexivity). rewrite FV in Hv. apply filter_In in Hv as [Hv Kv]. apply KT in Kv.
      apply (report_vuln_in checks t _ _ _ _ _ H E) in Hv. exists (v_advisory v), (v_package v). cbn [report_settings st_ignore] in Hv. tauto.
    + right. rewrite with_yanked_get in K. destruct (winfo_get k (r_warnings r1)) as [|x l0] eqn:L.
      * right. cbn [app] in K. destruct (warning_kind_eqb_spec WYanked k) as [<-|]; [|contradiction].
        split; [exact Dk|]. split; [apply Cn; intros K'; apply K, Y3, K'|]. destruct ws as [|x ws]; [contradiction|].
        destruct (Y1 x (or_introl eq_refl)) as (p & _ & Pp). exists p. exact Pp.
      * left. exists k. assert (Hw : In x (winfo_get k (r_warnings r1))) by (rewrite L; left; reflexivity).
        rewrite FW in Hw. apply filter_In in Hw as [Hw Kw]. apply KT in Kw.
        apply (report_warning_in checks t _ _ _ _ _ _ H E) in Hw as (b & i & Ex & H1 & H2 & H3 & H4 & _ & H6 & H7).
        exists b, (w_package x), i. apply kind_of_info_iff in H6. rewrite Ex in Kw. cbn [warning_affected w_advisory] in Kw. cbn [report_settings st_ignore] in H7. tauto.
  - intros [(b & p & H1 & H2 & H3 & H4 & H5 & H6)|[(k & b & p & i & Nk & Dk & H1 & H2 & H3 & H4 & H5 & H6 & H7)|(Dk & Cs & (p & P1 & P2 & P3))]].
    + left. assert (Hv : In (mkVuln b p) (vi_list (r_vulns r1))).
      { rewrite FV. apply filter_In. split; [|apply KT; exact H6]. apply (report_vuln_in checks t _ _ _ _ _ H E). cbn [v_advisory v_package]. auto 10. }
      destruct (vi_list (r_vulns r1)); [destruct Hv|discriminate].
    + right. exists k. split; [exact Nk|]. split; [exact Dk|]. rewrite with_yanked_get.
      assert (Hw : In (mkWarning k p (Some b)) (winfo_get k (r_warnings r1))).
      { rewrite FW. apply filter_In. split; [|apply KT; exact H7].
        apply (report_warning_in checks t _ _ _ _ _ _ H E). exists b, i. cbn [w_package]. split; [reflexivity|].
        split; [exact H1|]. split; [exact H2|]. split; [exact H3|]. split; [exact H4|].
        split; [exact (denied_reported _ k i Nk Dk H5)|]. split; [apply kind_of_info_iff; exact H5|exact H6]. }
      destruct (winfo_get k (r_warnings r1)); [destruct Hw|discriminate].
    + right. exists WYanked. split; [discriminate|]. split; [exact Dk|]. rewrite with_yanked_get. cbn [warning_kind_eqb].
      destruct (Y2 (proj2 Cn Cs) p P1 P2 P3) as (q & Hq & _). destruct ws; [destruct Hq|]. intros K. apply app_eq_nil in K as [_ K]. discriminate.
Qed.

Lemma read_limit_ext a b f : au_binary_limit a = au_binary_limit b -> read_with_limit a f = read_with_limit b f.
Proof. intros H. unfold read_with_limit. rewrite H. reflexivity. Qed.
Section Loop.
Context (checks : bool) (load : deps_loader) (c : config) (w : world) (truth : string -> entry) (t : fs_tree) (db : database)
  (max_binary audit_data : option N).
Definition st_inv (a : auditor) : Prop :=
  au_config a = c /\ au_db a = db /\ index_ok truth (au_index a) /\ (au_index a <> None <-> index_consulted c w) /\
  au_binary_limit a = au_binary_limit (set_limits a max_binary audit_data) /\ au_data_limit a = au_data_limit (set_limits a max_binary audit_data).
Context (Hdb : db_open t = Ok db) (Hload : forall bytes lim, load bytes lim <> Panic)
  (Hlim : forall n, max_binary = Some n -> (n <= u64_max)%N).
Let loads := holds_deps load max_binary audit_data.
Lemma loop_spec : forall files, (forall bytes, In (Some bytes) files -> (N.of_nat (String.length bytes) <= u64_max)%N) ->
  (forall file f l, In file files -> loads file f l -> printable checks c (db_iter db) l) ->
  forall a, st_inv a -> exists v e out a', audit_binaries_loop checks load a files = Ok (v, e, out, a') /\ st_inv a' /\
    (v = true <-> exists file f l, In file files /\ loads file f l /\ binary_finding checks c w truth (db_iter db) f (lk_packages l)) /\
    (e = true <-> exists file, In file files /\ ~ exists f l, loads file f l).
Proof.
  induction files as [|file files IH]; intros HB HP a Iv.
  - exists false, false, [], a. split; [reflexivity|]. split; [exact Iv|]. split; (split; [discriminate|]); [intros (x & f & l & [] & _)|intros (x & [] & _)].
  - cbn [audit_binaries_loop].
    assert (IH' : forall a, st_inv a -> exists v e out a', audit_binaries_loop checks load a files = Ok (v, e, out, a') /\ st_inv a' /\
      (v = true <-> exists file f l, In file files /\ loads file f l /\ binary_finding checks c w truth (db_iter db) f (lk_packages l)) /\
      (e = true <-> exists file, In file files /\ ~ exists f l, loads file f l)).
    { apply IH; [intros b Hb; apply HB; right; exact Hb|intros x f l Hx; apply HP; right; exact Hx]. }
    clear IH. destruct Iv as (Ic & Id & Ii & Ix & Il & Idl).
    assert (X : (audit_binary checks load a file = Ok (inr a) /\ ~ exists f l, loads file f l) \/
                (exists f l, loads file f l /\ audit_binary checks load a file = (let? x := audit checks a l (Some f) in Ok (inl x)) /\
                   forall f' l', loads file f' l' -> f' = f /\ l' = l)).
    { unfold audit_binary. destruct file as [bytes|].
      - pose proof (C29_limit_is_exact a max_binary audit_data bytes (HB bytes (or_introl eq_refl)) Hlim) as [L1 L2].
        assert (RL : read_with_limit a (Some bytes) = read_with_limit (set_limits a max_binary audit_data) (Some bytes))
          by (apply read_limit_ext; exact Il).
        rewrite RL. destruct (N.le_gt_cases (N.of_nat (String.length bytes)) (match max_binary with Some n => n | None => (100 * 1024 * 1024)%N end)) as [Hle|Hgt].
        + rewrite (L1 Hle).
          assert (LE : load bytes (au_data_limit a) = load bytes (Some (match audit_data with Some n => n | None => 8 * 1024 * 1024 end)%N))
            by (rewrite Idl; unfold set_limits; cbn [au_data_limit]; destruct audit_data; reflexivity).
          rewrite LE. clear LE. destruct (load bytes (Some _)) as [[f [l|]]| |] eqn:EL.
          * right. exists f, l. split; [exists bytes; auto|]. split; [reflexivity|].
            intros f' l' (b' & Eb & _ & E'). injection Eb as <-. rewrite EL in E'. injection E' as <- <-. auto.
          * left. split; [reflexivity|]. intros (f' & l' & b' & Eb & _ & E'). injection Eb as <-. congruence.
          * left. split; [reflexivity|]. intros (f' & l' & b' & Eb & _ & E'). injection Eb as <-. congruence.
          * exfalso. exact (Hload _ _ EL).
        + rewrite (L2 Hgt). left. split; [reflexivity|]. intros (f' & l' & b' & Eb & Hle & _). injection Eb as <-. lia.
      - left. split; [reflexivity|]. intros (f' & l' & b' & Eb & _). discriminate. }
    destruct X as [[-> NL]|(f & l & L & -> & U)].
    + cbn [obind]. destruct (IH' a) as (v & e & out & a' & -> & Iv' & V & _).
      { split; [exact Ic|]. split; [exact Id|]. split; [exact Ii|]. split; [exact Ix|]. split; [exact Il|exact Idl]. }
      cbn [obind]. exists v, true, out, a'. split; [reflexivity|]. split; [exact Iv'|]. split.
      * rewrite V. split; intros (x & f & l & Hx & K); [exists x, f, l; split; [right; exact Hx|exact K]|].
        destruct Hx as [<-|Hx]; [exfalso; apply NL; exists f, l; apply K|]. exists x, f, l. auto.
      * split; [|reflexivity]. intros _. exists file. split; [left; reflexivity|exact NL].
    + destruct (audit_bin_spec checks t a l truth f) as (r & out1 & a1 & -> & Ac & Ad & Ai & An & Al & Adl & F).
      { rewrite Id. exact Hdb. } { exact Ii. } { rewrite Ic, Id. exact (HP file f l (or_introl eq_refl) L). }
      cbn [obind]. destruct (IH' a1) as (v & e & out & a' & -> & Iv' & V & E).
      { split; [congruence|]. split; [congruence|]. split; [exact Ai|]. split; [rewrite An; exact Ix|]. split; [rewrite Al; exact Il|rewrite Adl; exact Idl]. }
      cbn [obind]. exists (should_exit_with_failure (au_config a) r || v)%bool, e, (out1 ++ out)%list, a'.
      split; [reflexivity|]. split; [exact Iv'|]. rewrite Ic in *. rewrite Id in *. specialize (F w Ix). split.
      * rewrite orb_true_iff, F, V. split.
        -- intros [K|(x & f' & l' & Hx & K)]; [exists file, f, l; split; [left; reflexivity|auto]|exists x, f', l'; split; [right; exact Hx|exact K]].
        -- intros (x & f' & l' & [<-|Hx] & L' & K); [left; destruct (U _ _ L') as [-> ->]; exact K|right; exists x, f', l'; auto].
      * rewrite E. split; intros (x & Hx & K); [exists x; split; [right; exact Hx|exact K]|].
        destruct Hx as [<-|Hx]; [exfalso; apply K; eauto|eauto].
Qed.
End Loop.

(** ** C64: `cargo audit bin` exits with 1 iff some file's dependencies have a finding for its platform, otherwise with 2
    iff some file could not be examined (or, with all warnings denied, cargo-audit itself is vulnerable), otherwise 0.
    All files are examined, whatever happens to the others.  ([load] is the executable parser, taken not to panic.) *)
Theorem C64_bin_exit_status : forall checks load c w truth t db max_binary audit_data files,
  wd_checkout w c = Some t -> db_open t = Ok db -> index_answers c w truth ->
  (forall bytes lim, load bytes lim <> Panic) ->
  (forall n, max_binary = Some n -> (n <= u64_max)%N) ->
  (forall bytes, In (Some bytes) files -> (N.of_nat (String.length bytes) <= u64_max)%N) ->
  (forall file f l, In file files -> holds_deps load max_binary audit_data file f l -> printable checks c (db_iter db) l) ->
  let found := exists file f l, In file files /\ holds_deps load max_binary audit_data file f l /\
                 binary_finding checks c w truth (db_iter db) f (lk_packages l) in
  let trouble := (exists file, In file files /\ ~ exists f l, holds_deps load max_binary audit_data file f l) \/
                 (In DWarnings (cf_deny c) /\ self_finding checks (db_iter db)) in
  let status := snd (run_bin checks load c w max_binary audit_data files) in
  (found -> status = Exit 1) /\ (~ found -> trouble -> status = Exit 2) /\ (~ found -> ~ trouble -> status = Exit 0).
Proof.
  intros checks load c w truth t db mb ad files Hc Hd I HL HM HB HP found trouble status.
  destruct (auditor_new_ok c w t db Hc Hd) as (a & EA & Ac & Ad & As & Ai).
  destruct (new_index_ok c w truth a I Ai) as (Io & Ic).
  destruct (loop_spec checks load c w truth t db mb ad Hd HL HM files HB HP (set_limits a mb ad)) as (v & e & out & a' & EL & (_ & Ad' & _) & V & E).
  { unfold st_inv, set_limits. cbn [au_config au_db au_index au_binary_limit au_data_limit]. auto 10. }
  destruct (self_spec checks t db Hd) as (s & ES & Sn).
  assert (Fs : fail_due_to_self c s = true <-> In DWarnings (cf_deny c) /\ self_finding checks (db_iter db)).
  { unfold fail_due_to_self. rewrite andb_true_iff, <- Sn. rewrite existsb_exists. split.
    - intros [K (d & Hd1 & Hd2)]. split; [destruct d; try discriminate; exact Hd1|]. destruct s; [discriminate K|discriminate].
    - intros [K1 K2]. split; [destruct s; [contradiction|reflexivity]|]. exists DWarnings. split; [exact K1|reflexivity]. }
  assert (R : status = if v then Exit 1 else if (e || fail_due_to_self c s)%bool then Exit 2 else Exit 0).
  { unfold status, run_bin. rewrite EA, EL, Ad', ES. cbn [snd]. reflexivity. }
  rewrite R. fold found in V. split; [|split].
  - intros K. rewrite (proj2 V K). reflexivity.
  - intros K T. destruct v; [exfalso; apply K, V; reflexivity|].
    assert ((e || fail_due_to_self c s)%bool = true) as ->; [|reflexivity]. apply orb_true_iff. rewrite E, Fs. exact T.
  - intros K T. destruct v; [exfalso; apply K, V; reflexivity|].
    assert ((e || fail_due_to_self c s)%bool = false) as ->; [|reflexivity]. apply not_true_iff_false. rewrite orb_true_iff, E, Fs. exact T.
Qed.
Print Assumptions C64_bin_exit_status.
Definition ex_load : deps_loader := fun bytes _ =>
  if String.eqb bytes "elf" then Ok (Elf64, Some ex_lock) else if String.eqb bytes "plain" then Ok (Elf64, None) else
  if String.eqb bytes "empty" then Ok (Elf64, Some (mkLock V3 [] None [] [])) else Err.
Example C64_nonvacuous :
  (forall bytes lim, ex_load bytes lim <> Panic) /\ holds_deps ex_load None None (Some "elf") Elf64 ex_lock /\
  snd (run_bin false ex_load ex_config ex_world None None [Some "plain"; Some "elf"; None]) = Exit 1 /\
  snd (run_bin false ex_load ex_config ex_world None None [Some "empty"; Some "plain"]) = Exit 2 /\
  snd (run_bin false ex_load ex_config ex_world None None [Some "empty"]) = Exit 0.
Proof.
  split; [intros b lim; unfold ex_load; repeat (destruct (String.eqb _ _)); discriminate|].
  split; [exists "elf"; split; [reflexivity|]; split; [vm_compute; discriminate|reflexivity]|]. split; [|split]; vm_compute; reflexivity.
Qed.
