(** C60: SARIF output. *)
From Coq Require Import List NArith Ascii String Bool Arith Lia.
From Verif Require Import Base StrLib SemverModel VerText IdModel PkgModel DbModel DbSpec DbProofs DbProofs2 PropsDb
  LockModel IndexModel AuditModel AuditSpec AuditProofs PropsAudit PropsAudit3 SarifModel.
Import ListNotations.
Local Open Scope string_scope.
Local Infix "++" := String.append (right associativity, at level 60).

(** ** Specification *)
(** The findings of a report: vulnerabilities first, then warnings in kind order. *)
Inductive finding := FVuln (v : vulnerability) | FWarn (w : warning).
Definition findings_of (r : report) : list finding :=
  (map FVuln (vi_list (r_vulns r)) ++ map FWarn (ordered_warnings (r_warnings r)))%list.
Definition kind_name (k : warning_kind) : string :=
  match k with WNotice => "notice" | WUnmaintained => "unmaintained" | WUnsound => "unsound" | WYanked => "yanked" end.
(** The rule a finding belongs to: its advisory's id, or the kind of warning if there is no advisory. *)
Definition rule_name (f : finding) : string :=
  match f with
  | FVuln v => id_string (a_id (v_advisory v))
  | FWarn w => match w_advisory w with Some a => id_string (a_id a) | None => kind_name (w_kind w) end
  end.
Definition finding_package (f : finding) : package := match f with FVuln v => v_package v | FWarn w => w_package w end.
Definition finding_level (f : finding) : sarif_level := match f with FVuln _ => LError | FWarn _ => LWarning end.
(** [res] describes finding [f] of the lockfile at [path]. *)
Definition describes (path : string) (f : finding) (res : sarif_result) : Prop :=
  rs_rule res = rule_name f /\ rs_level res = finding_level f /\ rs_uri res = path /\
  rs_fingerprint res = rule_name f ++ ":" ++ p_name (finding_package f) ++ ":" ++ print_version (p_version (finding_package f)).
(** A report as the auditor builds them: warnings are filed under their kind, and only yanked ones lack an advisory. *)
Definition coherent (r : report) : Prop :=
  forall k w, In w (winfo_get k (r_warnings r)) -> w_kind w = k /\ (w_advisory w = None -> k = WYanked).

(** ** Proofs *)
Lemma kind_name_eq k : warning_kind_str k = kind_name k. Proof. reflexivity. Qed.
Definition step_of (path : string) (st : run_state) (f : finding) : run_state :=
  match f with FVuln v => vuln_step path st v | FWarn w => warning_step path (w_kind w) st w end.
Lemma fold_warn path k ws : forall st, (forall w, In w ws -> w_kind w = k) ->
  fold_left (warning_step path k) ws st = fold_left (step_of path) (map FWarn ws) st.
Proof.
  induction ws as [|w ws IH]; intros st H; [reflexivity|]. cbn [fold_left map]. cbn [step_of].
  rewrite (H w (or_introl eq_refl)). apply IH. intros x Hx. apply H. right. exact Hx.
Qed.
Lemma fold_vuln path vs : forall st, fold_left (vuln_step path) vs st = fold_left (step_of path) (map FVuln vs) st.
Proof. induction vs as [|v vs IH]; intros st; [reflexivity|]. cbn. apply IH. Qed.
Lemma sarif_run_fold r path : coherent r -> sarif_run r path = fold_left (step_of path) (findings_of r) (mkRun [] [] []).
Proof.
  intros C. unfold sarif_run, findings_of. rewrite fold_left_app, <- fold_vuln.
  generalize (fold_left (vuln_step path) (vi_list (r_vulns r)) (mkRun [] [] [])). intros st. unfold ordered_warnings.
  revert st. induction kinds_in_order as [|k ks IH]; intros st; [reflexivity|]. cbn [fold_left flat_map].
  rewrite map_app, fold_left_app, IH, (fold_warn path k) by (intros w Hw; apply (C k w Hw)). reflexivity.
Qed.
Lemma results_fold path fs : forall st,
  Forall2 (describes path) fs (skipn (List.length (rn_results st)) (rn_results (fold_left (step_of path) fs st))) /\
  firstn (List.length (rn_results st)) (rn_results (fold_left (step_of path) fs st)) = rn_results st.
Proof.
  induction fs as [|f fs IH]; intros st.
  - cbn. rewrite skipn_all, firstn_all. split; [constructor|reflexivity].
  - cbn [fold_left]. destruct (IH (step_of path st f)) as [I1 I2].
    set (R := rn_results (fold_left (step_of path) fs (step_of path st f))) in *.
    assert (E : exists res, rn_results (step_of path st f) = (rn_results st ++ [res])%list /\ describes path f res).
    { destruct f as [v|w]; cbn; eexists; (split; [reflexivity|]); repeat split. }
    destruct E as (res & E & D). rewrite E in I1, I2. rewrite app_length in I1, I2. cbn [List.length] in I1, I2.
    rewrite <- (firstn_skipn (List.length (rn_results st) + 1) R), I2.
    split.
    + rewrite <- app_assoc, skipn_app, skipn_all, Nat.sub_diag. cbn. constructor; assumption.
    + rewrite <- app_assoc, firstn_app, firstn_all, Nat.sub_diag. cbn. apply app_nil_r.
Qed.
Definition state_ok (names : list string) (st : run_state) : Prop :=
  map ru_id (rn_rules st) = rev (rn_seen st) /\ NoDup (rn_seen st) /\ (forall s, In s (rn_seen st) <-> In s names).
Lemma push_ok names st id rule res : ru_id rule = id -> state_ok names st ->
  state_ok (id :: names) (run_push st id rule res).
Proof.
  intros E (H1 & H2 & H3). unfold state_ok, run_push; cbn [rn_rules rn_seen]. destruct (existsb (String.eqb id) (rn_seen st)) eqn:X; cbn [negb].
  - apply existsb_exists in X as (y & Y1 & Y2). apply String.eqb_eq in Y2. subst y.
    split; [exact H1|]. split; [exact H2|]. intros s. rewrite H3. cbn. split; [tauto|]. intros [<-|K]; [apply H3; exact Y1|exact K].
  - split; [rewrite map_app, H1; cbn; congruence|]. split.
    + constructor; [|exact H2]. intros K. assert (existsb (String.eqb id) (rn_seen st) = true); [|congruence].
      apply existsb_exists. exists id. split; [exact K|apply String.eqb_refl].
    + intros s. cbn. rewrite H3. tauto.
Qed.
Definition good_finding (f : finding) : Prop :=
  match f with FVuln _ => True | FWarn w => w_advisory w = None -> w_kind w = WYanked end.
Lemma rules_fold path fs : forall names st, (forall f, In f fs -> good_finding f) -> state_ok names st ->
  state_ok (rev (map rule_name fs) ++ names)%list (fold_left (step_of path) fs st).
Proof.
  induction fs as [|f fs IH]; intros names st G H; [exact H|]. cbn [fold_left map rev]. rewrite <- app_assoc. apply IH.
  - intros g Hg. apply G. right. exact Hg.
  - specialize (G f (or_introl eq_refl)). destruct f as [v|w]; cbn [step_of rule_name app].
    + apply push_ok; [reflexivity|exact H].
    + unfold warning_step. cbn [good_finding] in G. destruct (w_advisory w) eqn:A.
      * apply push_ok; [reflexivity|exact H].
      * rewrite (G eq_refl). apply push_ok; [reflexivity|exact H].
Qed.
Lemma coherent_good r f : coherent r -> In f (findings_of r) -> good_finding f.
Proof.
  intros C H. unfold findings_of in H. apply in_app_or in H as [H|H]; apply in_map_iff in H as (x & <- & H); cbn; [exact I|].
  apply ordered_in in H as [k H]. destruct (C k x H) as [H1 H2]. intros E. rewrite H1. exact (H2 E).
Qed.
Lemma run_ok r path : coherent r -> state_ok (rev (map rule_name (findings_of r))) (sarif_run r path).
Proof.
  intros C. rewrite sarif_run_fold by exact C. rewrite <- (app_nil_r (rev _)). apply rules_fold.
  - intros f. apply coherent_good. exact C.
  - split; [reflexivity|]. split; [constructor|]. intros s. reflexivity.
Qed.

(** Every report the auditor produces is coherent. *)
Lemma generate_coherent checks db pkgs s r : report_generate checks db pkgs s = Ok r -> coherent r.
Proof.
  unfold report_generate. destruct (query_vulnerabilities checks db pkgs (settings_query s)) as [vs| |]; cbn [obind]; try discriminate.
  unfold find_warnings. destruct (query_vulnerabilities checks db pkgs _) as [ws| |]; cbn [obind]; try discriminate.
  assert (L : forall ws m m', (forall k w, In w (winfo_get k m) -> w_kind w = k /\ w_advisory w <> None) ->
            warning_loop s ws m = Ok m' -> forall k w, In w (winfo_get k m') -> w_kind w = k /\ w_advisory w <> None).
  { clear. induction ws as [|v ws IH]; intros m m' H E; cbn [warning_loop] in E; [injection E as <-; exact H|].
    destruct (ignored s (v_advisory v)); [eapply IH; eassumption|].
    destruct (negb (existsb _ (st_info s))); [eapply IH; eassumption|].
    destruct (a_informational (v_advisory v)) as [i|]; [|discriminate].
    destruct (warning_kind_of i) as [k0|]; [|eapply IH; eassumption].
    eapply IH; [|exact E]. intros k w. rewrite winfo_get_push. cbn [w_kind].
    destruct (warning_kind_eqb k0 k) eqn:K; [|apply H].
    intros X. apply in_app_or in X as [X|[<-|[]]]; [apply H; exact X|]. cbn. split; [|discriminate].
    destruct k0, k; try discriminate; reflexivity. }
  destruct (warning_loop s ws []) as [m| |] eqn:E; cbn [obind]; try discriminate. intros X.
  assert (r_warnings r = m) by (injection X; intros; subst; reflexivity).
  intros k w Hw. rewrite H in Hw. destruct (L ws [] m) with (k := k) (w := w) as [A B]; [intros ? ? []|exact E|exact Hw|].
  split; [exact A|]. intros N. contradiction.
Qed.
Lemma filter_coherent f r r' : coherent r -> filter_report f r = Ok r' -> coherent r'.
Proof.
  intros C. unfold filter_report. destruct (negb _); [discriminate|]. intros X.
  assert (E : r_warnings r' = map (fun kw => (fst kw, filter (fun w => applicable f (warning_affected w)) (snd kw))) (r_warnings r))
    by (injection X; intros; subst; reflexivity).
  intros k w Hw. rewrite E, winfo_get_map in Hw. apply filter_In in Hw as [Hw _]. apply C. exact Hw.
Qed.
Lemma audit_coherent checks a l f r out a' : audit checks a l f = Ok (r, out, a') -> coherent r.
Proof.
  unfold audit. destruct (report_generate checks (au_db a) (lk_packages l) (report_settings (au_config a))) as [r0| |] eqn:E0;
    cbn [obind]; try discriminate.
  apply generate_coherent in E0.
  destruct (match f with Some f0 => filter_report f0 r0 | None => Ok r0 end) as [r1| |] eqn:E1; cbn [obind]; try discriminate.
  assert (C1 : coherent r1) by (destruct f; [eapply filter_coherent; eassumption|injection E1 as <-; exact E0]). clear E0 E1.
  destruct (check_for_yanked (au_index a) (lk_packages l)) as [[ws ix]| |] eqn:E2; cbn [obind]; try discriminate. cbn [fst snd].
  assert (Y : forall w, In w ws -> w_kind w = WYanked).
  { unfold check_for_yanked in E2. destruct (au_index a) as [[i c]|]; [|injection E2 as <- _; intros ? []].
    destruct (find_yanked i c _) as [c' y]. destruct y as [y| |]; cbn [obind] in E2; try discriminate.
    injection E2 as E2 _. intros w Hw. rewrite <- E2 in Hw. apply in_flat_map in Hw as (x & _ & Hx).
    destruct x; [destruct Hx as [<-|[]]; reflexivity|destruct Hx]. }
  destruct (print_report checks (au_config a) _ l (au_shown a)) as [p| |]; cbn [obind]; try discriminate. intros X.
  assert (E : r = match ws with [] => r1 | _ => mkReport (r_dependency_count r1) (r_settings r1) (r_vulns r1) (winfo_append WYanked ws (r_warnings r1)) end)
    by (injection X; intros; subst; destruct ws; reflexivity).
  destruct ws as [|w0 ws']; [rewrite E; exact C1|]. intros k w Hw. rewrite E in Hw. cbn [r_warnings] in Hw.
  rewrite winfo_append_get in Hw. destruct (warning_kind_eqb WYanked k) eqn:K; [|apply C1; exact Hw].
  assert (k = WYanked) by (destruct k; try discriminate; reflexivity). subst k.
  apply in_app_or in Hw as [Hw|Hw]; [apply C1; exact Hw|]. split; [apply Y; exact Hw|reflexivity].
Qed.

(** *** C60: one result per finding, in order, describing it; *)
Theorem C60_one_result_per_finding r path : coherent r ->
  Forall2 (describes path) (findings_of r) (rn_results (sarif_run r path)).
Proof. intros C. rewrite sarif_run_fold by exact C. apply (results_fold path (findings_of r) (mkRun [] [] [])). Qed.
(** rule ids are declared once, and exactly the ids that results refer to are declared. *)
Theorem C60_rules_unique r path : coherent r -> NoDup (map ru_id (rn_rules (sarif_run r path))).
Proof. intros C. destruct (run_ok r path C) as (H1 & H2 & _). rewrite H1. apply NoDup_rev. exact H2. Qed.
Theorem C60_rules_are_those_used r path id : coherent r ->
  In id (map ru_id (rn_rules (sarif_run r path))) <-> exists res, In res (rn_results (sarif_run r path)) /\ rs_rule res = id.
Proof.
  intros C. destruct (run_ok r path C) as (H1 & _ & H3). rewrite H1, <- in_rev, H3, <- in_rev.
  pose proof (C60_one_result_per_finding r path C) as F. revert F. generalize (rn_results (sarif_run r path)), (findings_of r).
  clear. intros rs fs F. induction F as [|f x fs rs (D & _) F IH]; cbn.
  - split; [intros []|intros (x & [] & _)].
  - rewrite IH. split.
    + intros [<-|(y & Y1 & Y2)]; [exists x; auto|exists y; auto].
    + intros (y & [<-|Y1] & Y2); [left; congruence|right; exists y; auto].
Qed.
(** Every SARIF log `cargo audit` writes is for a coherent report, so the three theorems above apply to it. *)
(** A declared rule describes the first finding that refers to it: an error for a vulnerability and a warning otherwise,
    with the severity of the finding's advisory. *)
Definition finding_severity (f : finding) : option severity :=
  match f with
  | FVuln v => a_severity (v_advisory v)
  | FWarn w => match w_advisory w with Some a => a_severity a | None => None end
  end.
Theorem C60_rule_describes_first_finding r path ru : coherent r -> In ru (rn_rules (sarif_run r path)) ->
  exists before f after, findings_of r = (before ++ f :: after)%list /\ (forall g, In g before -> rule_name g <> rule_name f) /\
    ru_id ru = rule_name f /\ ru_level ru = finding_level f /\ ru_severity ru = finding_severity f.
Proof.
  intros C. rewrite sarif_run_fold by exact C.
  assert (G : forall f, In f (findings_of r) -> good_finding f) by (intros f; apply coherent_good; exact C).
  assert (L : forall fs done st, (forall f, In f fs -> good_finding f) -> (forall s, In s (rn_seen st) <-> In s (map rule_name done)) ->
     forall ru, In ru (rn_rules (fold_left (step_of path) fs st)) -> In ru (rn_rules st) \/
       exists before f after, fs = (before ++ f :: after)%list /\ (forall g, In g (done ++ before)%list -> rule_name g <> rule_name f) /\
         ru_id ru = rule_name f /\ ru_level ru = finding_level f /\ ru_severity ru = finding_severity f).
  { clear. induction fs as [|f fs IH]; intros done st G Hs ru H; [left; exact H|]. cbn [fold_left] in H.
    assert (Gf : good_finding f) by (apply G; left; reflexivity).
    assert (St : exists rule res, step_of path st f = run_push st (rule_name f) rule res /\
              ru_id rule = rule_name f /\ ru_level rule = finding_level f /\ ru_severity rule = finding_severity f).
    { destruct f as [v|w]; cbn [step_of].
      - unfold vuln_step. eexists. eexists. split; [reflexivity|]. repeat split.
      - unfold warning_step. cbn [rule_name finding_level finding_severity]. cbn [good_finding] in Gf. destruct (w_advisory w) as [a|].
        + eexists. eexists. split; [reflexivity|]. repeat split.
        + rewrite (Gf eq_refl). eexists. eexists. split; [reflexivity|]. repeat split. }
    destruct St as (rule & res & Es & E1 & E2 & E3). rewrite Es in H.
    destruct (existsb (String.eqb (rule_name f)) (rn_seen st)) eqn:X.
    - destruct (IH (done ++ [f])%list (run_push st (rule_name f) rule res) ltac:(intros g Hg; apply G; right; exact Hg)) with (2 := H) as [K|(b & f' & af & Ef & Hb & R)].
      + intros s. unfold run_push. cbn [rn_seen]. rewrite X. cbn [negb]. rewrite map_app, in_app_iff, <- Hs. cbn.
        split; [tauto|]. intros [K|[<-|[]]]; [exact K|]. apply existsb_exists in X as (y & Y1 & Y2). apply String.eqb_eq in Y2. subst y. exact Y1.
      + left. unfold run_push in K. cbn [rn_rules] in K. rewrite X in K. exact K.
      + right. exists (f :: b), f', af. split; [rewrite Ef; reflexivity|]. split; [|exact R]. intros g Hg. apply Hb. rewrite <- app_assoc. exact Hg.
    - destruct (IH (done ++ [f])%list (run_push st (rule_name f) rule res) ltac:(intros g Hg; apply G; right; exact Hg)) with (2 := H) as [K|(b & f' & af & Ef & Hb & R)].
      + intros s. unfold run_push. cbn [rn_seen]. rewrite X. cbn [negb]. rewrite map_app, in_app_iff, <- Hs. cbn. tauto.
      + unfold run_push in K. cbn [rn_rules] in K. rewrite X in K. cbn [negb] in K. apply in_app_or in K as [K|[<-|[]]]; [left; exact K|].
        right. exists [], f, fs. split; [reflexivity|]. split; [|auto]. rewrite app_nil_r. intros g Hg E.
        assert (In (rule_name f) (rn_seen st)) by (apply Hs; rewrite <- E; apply in_map; exact Hg).
        assert (existsb (String.eqb (rule_name f)) (rn_seen st) = true); [|congruence].
        apply existsb_exists. exists (rule_name f). split; [assumption|apply String.eqb_refl].
      + right. exists (f :: b), f', af. split; [rewrite Ef; reflexivity|]. split; [|exact R]. intros g Hg. apply Hb. rewrite <- app_assoc. exact Hg. }
  intros H. destruct (L (findings_of r) [] (mkRun [] [] []) G) with (2 := H) as [[]|K]; [intros s; reflexivity|exact K].
Qed.
Print Assumptions C60_rule_describes_first_finding.
Theorem C60_audit_reports_coherent checks a l f r out a' :
  audit checks a l f = Ok (r, out, a') -> coherent r.
Proof. apply audit_coherent. Qed.
Theorem C60_written_by_audit checks c w out e r : run_audit checks c w = (out, e) -> In (OutSarif r) out -> coherent r.
Proof.
  unfold run_audit. destruct (negb (wd_located w)); [intros [= <- _] []|]. destruct (auditor_new c w) as [a|x]; [|intros [= <- _] []].
  unfold audit_lockfile. destruct (wd_lockfile w) as [l| |]; [|intros [= <- _] []|intros [= <- _] []].
  destruct (audit checks a l None) as [[[r0 o] a']| |] eqn:E; cbn [obind]; [|intros [= <- _] []|intros [= <- _] []].
  destruct (self_advisories checks (au_db a)) as [s| |]; cbn [obind]; [|intros [= <- _] []|intros [= <- _] []]. cbn [fst snd].
  intros H K. assert (K1 : In (OutSarif r) (o ++ match s with [] => [] | _ => [OutSelf s] end)%list).
  { destruct (auditor_fails checks a' r0) as [[|]| |]; injection H as <- _; exact K. }
  apply in_app_or in K1 as [K1|K1]; [|destruct s; [destruct K1|destruct K1 as [K1|[]]; discriminate]].
  assert (R : r = r0); [|subst r; eapply audit_coherent; exact E].
  revert E K1. unfold audit. destruct (report_generate _ _ _ _) as [r1| |]; cbn [obind]; try discriminate.
  destruct (check_for_yanked _ _) as [y| |]; cbn [obind]; try discriminate.
  set (r2 := match fst y with [] => r1 | _ => _ end).
  destruct (print_report checks (au_config a) r2 l (au_shown a)) as [p| |] eqn:P; cbn [obind]; try discriminate.
  intros [= E1 E2 _] K1. rewrite <- E2 in K1. rewrite <- E1. clear -P K1. unfold print_report in P.
  destruct (cf_format (au_config a)).
  - injection P as <-. destruct K1 as [K1|[]]; discriminate.
  - injection P as <-. destruct K1 as [K1|[]]. injection K1 as <-. reflexivity.
  - exfalso. destruct (TreeModel.tree_new l) as [t| |]; try discriminate.
    assert (NV : forall vs d x, print_vulns checks (au_config a) t vs d = Ok x -> ~ In (OutSarif r) (fst x)).
    { induction vs as [|v vs IH]; intros d x X; cbn [print_vulns] in X; [injection X as <-; intros []|].
      destruct (solution_of checks v) as [sl| |]; cbn [obind] in X; try discriminate.
      destruct (print_tree (au_config a) t (v_package v) d) as [z| |] eqn:Z; cbn [obind] in X; try discriminate.
      destruct (print_vulns checks (au_config a) t vs (snd z)) as [yy| |] eqn:Y; cbn [obind] in X; try discriminate.
      injection X as <-. cbn [fst]. intros [K|K]; [discriminate|]. apply in_app_or in K as [K|K]; [|exact (IH _ _ Y K)].
      unfold print_tree in Z. destruct (dep_mem _ d); [injection Z as <-; destruct K|]. destruct (negb _); [injection Z as <-; destruct K|].
      destruct (TreeModel.node_get _ _); [|discriminate]. destruct (TreeModel.render _ _ _); [|discriminate].
      injection Z as <-. destruct K as [K|[]]; discriminate. }
    assert (NW : forall ws d x, print_warnings (au_config a) t ws d = Ok x -> ~ In (OutSarif r) (fst x)).
    { induction ws as [|v vs IH]; intros d x X; cbn [print_warnings] in X; [injection X as <-; intros []|].
      destruct (print_tree (au_config a) t (w_package v) d) as [z| |] eqn:Z; cbn [obind] in X; try discriminate.
      destruct (print_warnings (au_config a) t vs (snd z)) as [yy| |] eqn:Y; cbn [obind] in X; try discriminate.
      injection X as <-. cbn [fst]. intros [K|K]; [discriminate|]. apply in_app_or in K as [K|K]; [|exact (IH _ _ Y K)].
      unfold print_tree in Z. destruct (dep_mem _ d); [injection Z as <-; destruct K|]. destruct (negb _); [injection Z as <-; destruct K|].
      destruct (TreeModel.node_get _ _); [|discriminate]. destruct (TreeModel.render _ _ _); [|discriminate].
      injection Z as <-. destruct K as [K|[]]; discriminate. }
    destruct (print_vulns _ _ _ _ _) as [x| |] eqn:X; cbn [obind] in P; try discriminate.
    destruct (print_warnings _ _ _ _) as [z| |] eqn:Z; cbn [obind] in P; try discriminate.
    injection P as <-. cbn [fst] in K1.
    apply in_app_or in K1 as [K1|K1]; [exact (NV _ _ _ X K1)|].
    apply in_app_or in K1 as [K1|K1]; [exact (NW _ _ _ Z K1)|].
    apply in_app_or in K1 as [K1|K1]; [destruct (vi_found _); [destruct K1 as [K1|[]]; discriminate|destruct K1]|].
    apply in_app_or in K1 as [K1|K1];
      match type of K1 with In _ (if ?b then _ else _) => destruct b; [destruct K1 as [K1|[]]; discriminate|destruct K1] end.
Qed.
(** For reports in general the property is false: a notice without advisory is declared as rule "unknown" but its result
    refers to "notice". *)
Definition odd_report : report :=
  mkReport 1 ex_settings (vuln_info_new []) [(WNotice, [mkWarning WNotice (pkg "foo" v100 (Some default_source)) None])].
Theorem C60_any_report_refuted : exists r path res, In res (rn_results (sarif_run r path)) /\
  ~ In (rs_rule res) (map ru_id (rn_rules (sarif_run r path))).
Proof.
  exists odd_report, "Cargo.lock". eexists. split; [left; reflexivity|]. cbn. intros [H|[]]. discriminate.
Qed.
(** Fingerprints tell findings of different advisories, packages or versions apart (names and ids have no colon). *)
Theorem C60_fingerprint_identifies path f g x y :
  describes path f x -> describes path g y ->
  has_char ":" (rule_name f) = false -> has_char ":" (rule_name g) = false ->
  has_char ":" (p_name (finding_package f)) = false -> has_char ":" (p_name (finding_package g)) = false ->
  version_wf (p_version (finding_package f)) = true -> version_wf (p_version (finding_package g)) = true ->
  rs_fingerprint x = rs_fingerprint y ->
  rule_name f = rule_name g /\ p_name (finding_package f) = p_name (finding_package g) /\
  p_version (finding_package f) = p_version (finding_package g).
Proof.
  intros (_ & _ & _ & Hx) (_ & _ & _ & Hy) A1 A2 B1 B2 W1 W2. rewrite Hx, Hy. cbn [String.append]. intros E.
  assert (E2 : split_once ":" (rule_name f ++ String ":" (p_name (finding_package f) ++ String ":" (print_version (p_version (finding_package f))))) =
               split_once ":" (rule_name g ++ String ":" (p_name (finding_package g) ++ String ":" (print_version (p_version (finding_package g)))))) by (rewrite E; reflexivity).
  rewrite !split_once_app in E2 by assumption. injection E2 as E2 E3.
  assert (E4 : split_once ":" (p_name (finding_package f) ++ String ":" (print_version (p_version (finding_package f)))) =
               split_once ":" (p_name (finding_package g) ++ String ":" (print_version (p_version (finding_package g))))) by (rewrite E3; reflexivity).
  rewrite !split_once_app in E4 by assumption. injection E4 as E4 E5.
  split; [exact E2|]. split; [exact E4|]. apply print_version_inj; assumption.
Qed.

(** Non-vacuity: a report with two vulnerabilities of one advisory, an unmaintained and a yanked warning. *)
Definition ex_sarif_report : report :=
  mkReport 2 ex_settings
    (vuln_info_new [mkVuln adv1 (pkg "foo" v100 (Some default_source)); mkVuln adv1 (pkg "foo" v200 (Some default_source))])
    [(WYanked, [mkWarning WYanked (pkg "bar" v100 (Some default_source)) None]); (WUnmaintained, [mkWarning WUnmaintained (pkg "foo" v100 (Some default_source)) (Some adv2)])].
Example ex_sarif_coherent : coherent ex_sarif_report.
Proof. intros k w. destruct k; cbn; intros H; repeat (destruct H as [<-|H]); try destruct H; split; try reflexivity; discriminate. Qed.
Example ex_sarif : List.length (rn_results (sarif_run ex_sarif_report "Cargo.lock")) = 4 /\
  map ru_id (rn_rules (sarif_run ex_sarif_report "Cargo.lock")) = [id_string (a_id adv1); id_string (a_id adv2); "yanked"].
Proof. split; reflexivity. Qed.

Print Assumptions C60_one_result_per_finding.
Print Assumptions C60_rules_unique.
Print Assumptions C60_rules_are_those_used.
Print Assumptions C60_written_by_audit.
Print Assumptions C60_any_report_refuted.
Print Assumptions C60_fingerprint_identifies.
