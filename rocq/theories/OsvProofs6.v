(** Build-profile independence and the OSV export as a complement of the safe ranges. *)
From Coq Require Import List NArith Ascii String Bool Lia Permutation Sorted Arith.
From Verif Require Import Base SemverModel SemverFacts OsvModel OsvSpec OsvProofs OsvProofs2 OsvProofs3 OsvProofs4 OsvProofs5.
Import ListNotations.
Local Open Scope N_scope.

Lemma caret_end_indep c1 c2 c : comp_below c -> caret_end c1 c = caret_end c2 c.
Proof.
  intros (H1 & H2 & H3). unfold caret_end. rewrite !u64_succ_small by exact H1.
  destruct (c_major c =? 0); [|reflexivity].
  destruct (c_minor c) as [m|] eqn:Em; destruct (c_patch c) as [p|] eqn:Ep; try reflexivity; destruct m as [|m];
    rewrite !u64_succ_small by (first [apply H3; reflexivity|apply H2; reflexivity|lia]); reflexivity.
Qed.
Lemma tilde_end_indep c1 c2 c : comp_below c -> tilde_end c1 c = tilde_end c2 c.
Proof.
  intros (H1 & H2 & H3). unfold tilde_end. rewrite !u64_succ_small by exact H1.
  destruct (c_minor c) as [m|] eqn:Em; destruct (c_patch c) as [p|] eqn:Ep; try reflexivity;
    rewrite !u64_succ_small by (apply H2; reflexivity); reflexivity.
Qed.
Lemma urange_indep c1 c2 r : (forall c, In c r -> comp_below c) -> urange_of_req c1 r = urange_of_req c2 r.
Proof.
  intros Hb. unfold urange_of_req. destruct (Nat.ltb 2 (List.length r)); [reflexivity|].
  enough (H : forall cs n st, (forall c, In c cs -> comp_below c) -> comp_loop c1 n st cs = comp_loop c2 n st cs)
    by (rewrite (H r _ _ Hb); reflexivity).
  induction cs as [|c cs IH]; intros n st Hc; cbn [comp_loop]; [reflexivity|].
  assert (E : comp_step c1 n st c = comp_step c2 n st c).
  { unfold comp_step. rewrite (caret_end_indep c1 c2), (tilde_end_indep c1 c2) by (apply Hc; left; reflexivity). reflexivity. }
  rewrite E. destruct (comp_step c2 n st c); cbn [obind]; auto. apply IH. intros; apply Hc; right; auto.
Qed.
Lemma increment_indep c1 c2 v : patch v < u64_max \/ pre v <> [] -> increment c1 v = increment c2 v.
Proof.
  intros H. unfold increment. destruct (pre v); [|reflexivity]. destruct H as [H|H]; [|congruence].
  rewrite !u64_succ_small by exact H. reflexivity.
Qed.
Lemma gaps_indep c1 c2 : forall l r, u_below r -> (forall u, In u l -> u_below u) -> gaps c1 r l = gaps c2 r l.
Proof.
  induction l as [|r1 l IH]; intros r Hr Hl; cbn [gaps].
  - unfold last_range. destruct Hr as [_ Hr]. destruct (u_end r); try reflexivity. rewrite (increment_indep c1 c2); auto.
  - assert (H1 : u_below r1) by (apply Hl; left; reflexivity).
    rewrite (IH r1 H1) by (intros; apply Hl; right; assumption).
    assert (E : gap_range c1 r r1 = gap_range c2 r r1); [|rewrite E; reflexivity].
    unfold gap_range. destruct Hr as [_ Hr], H1 as [H1 _].
    destruct (u_end r); destruct (u_start r1); simpl in Hr, H1; try reflexivity;
      rewrite ?(increment_indep c1 c2 v), ?(increment_indep c1 c2 v0) by assumption; reflexivity.
Qed.
Lemma ranges_indep c1 c2 us : (forall u, In u us -> u_below u) ->
  ranges_of_uranges c1 us = ranges_of_uranges c2 us.
Proof.
  intros Hb. unfold ranges_of_uranges. destruct us as [|u0 us0]; [reflexivity|].
  destruct (any_overlap (u0 :: us0)); [reflexivity|].
  destruct (sort_ranges (u0 :: us0)) as [s| |] eqn:Es; cbn [obind]; try reflexivity.
  pose proof (sort_ranges_perm _ _ Es) as Hp. destruct s as [|r l]; [reflexivity|].
  assert (Hin : forall u, In u (r :: l) -> u_below u).
  { intros u Hu. apply Hb. eapply Permutation_in; [symmetry; exact Hp|exact Hu]. }
  rewrite (gaps_indep c1 c2 l r) by (first [apply Hin; left; reflexivity|intros; apply Hin; right; assumption]).
  assert (E : first_range c1 r = first_range c2 r); [|rewrite E; reflexivity].
  unfold first_range. destruct (Hin r (or_introl eq_refl)) as [H _].
  destruct (u_start r); try reflexivity. rewrite (increment_indep c1 c2) by exact H. reflexivity.
Qed.
Lemma omap_ext {A B} (f g : A -> outcome B) l : (forall x, In x l -> f x = g x) -> omap f l = omap g l.
Proof.
  induction l as [|x l IH]; simpl; intros H; [reflexivity|].
  rewrite (H x) by auto. rewrite IH by auto. reflexivity.
Qed.
Lemma osv_indep p u : below_u64_max (p ++ u) ->
  unaffected_to_osv_ranges true u p = unaffected_to_osv_ranges false u p.
Proof.
  intros Hb. unfold unaffected_to_osv_ranges.
  rewrite (omap_ext (urange_of_req true) (urange_of_req false) u).
  2: { intros r Hr. apply urange_indep. intros c Hc. eapply below_comp; eauto. apply in_or_app; auto. }
  rewrite (omap_ext (urange_of_req true) (urange_of_req false) p).
  2: { intros r Hr. apply urange_indep. intros c Hc. eapply below_comp; eauto. apply in_or_app; auto. }
  destruct (omap (urange_of_req false) u) as [us| |] eqn:Eu; cbn [obind]; try reflexivity.
  destruct (omap (urange_of_req false) p) as [ps| |] eqn:Ep; cbn [obind]; try reflexivity.
  apply ranges_indep. intros w Hw.
  apply omap_ok in Eu as [_ U]. apply omap_ok in Ep as [_ P].
  apply in_app_or in Hw as [Hw|Hw]; [apply U in Hw|apply P in Hw]; destruct Hw as (r & Hr & He);
    eapply urange_below; eauto; intros c Hc; eapply below_comp; eauto; apply in_or_app; auto.
Qed.
Lemma profile_indep p u : below_u64_max (p ++ u) ->
  versions_new true p u = versions_new false p u /\
  forall v, is_vulnerable true (mkVersions p u) v = is_vulnerable false (mkVersions p u) v.
Proof.
  intros Hb. pose proof (osv_indep p u Hb) as E. split.
  - unfold versions_new. rewrite E. reflexivity.
  - intros v. unfold is_vulnerable, ranges_for_advisory. cbn [patched unaffected]. rewrite E. reflexivity.
Qed.

(** * The exported ranges cover exactly the vulnerable versions *)
Definition nobuild (o : option version) : Prop := match o with Some v => build v = [] | None => True end.
Definition range_nobuild (r : osv_range) : Prop := nobuild (introduced r) /\ nobuild (fixed r).
Lemma increment_nobuild checks v w : increment checks v = Ok w -> build w = [].
Proof.
  unfold increment. destruct (pre v).
  - destruct (u64_succ checks (patch v)); cbn [obind]; intros H; try discriminate. injection H as <-. reflexivity.
  - intros H. injection H as <-. reflexivity.
Qed.
Lemma gaps_nobuild checks : forall l r gs, u_good r -> (forall u, In u l -> u_good u) ->
  gaps checks r l = Ok gs -> Forall range_nobuild gs.
Proof.
  induction l as [|r1 l IH]; intros r gs Hr Hl; cbn [gaps].
  - unfold last_range. destruct Hr as (_ & Hr & _). destruct (u_end r) as [|v|v]; simpl in Hr.
    + intros H; injection H as <-. constructor.
    + intros H; injection H as <-. repeat constructor. apply Hr.
    + destruct (increment checks v) as [i| |] eqn:E; cbn [obind]; intros H; try discriminate. injection H as <-.
      repeat constructor. eapply increment_nobuild; eauto.
  - assert (H1 : u_good r1) by (apply Hl; left; reflexivity).
    destruct (gap_range checks r r1) as [g| |] eqn:Eg; cbn [obind]; try discriminate.
    destruct (gaps checks r1 l) as [gs'| |] eqn:Egs; cbn [obind]; try discriminate.
    intros H; injection H as <-. constructor; [|eapply IH; eauto; intros; apply Hl; right; assumption].
    unfold gap_range in Eg. destruct Hr as (_ & Hr & _), H1 as (H1 & _ & _).
    destruct (u_end r) as [|ve|ve]; simpl in Hr; cbn [obind] in Eg; try discriminate;
    try (destruct (increment checks ve) as [we| |] eqn:Ee; cbn [obind] in Eg; try discriminate);
    (destruct (u_start r1) as [|vs|vs]; simpl in H1; cbn [obind] in Eg; try discriminate);
    try (destruct (increment checks vs) as [ws| |] eqn:Es; cbn [obind] in Eg; try discriminate);
    injection Eg as <-; split; simpl; first [eapply increment_nobuild; eassumption | apply Hr | apply H1].
Qed.
Lemma ranges_nobuild checks us rs : (forall u, In u us -> u_good u) ->
  ranges_of_uranges checks us = Ok rs -> Forall range_nobuild rs.
Proof.
  intros Hg. unfold ranges_of_uranges. destruct us as [|u0 us0].
  { intros H; injection H as <-. repeat constructor. }
  destruct (any_overlap (u0 :: us0)); [discriminate|].
  destruct (sort_ranges (u0 :: us0)) as [s| |] eqn:Es; cbn [obind]; try discriminate.
  pose proof (sort_ranges_perm _ _ Es) as Hp. destruct s as [|r l]; [discriminate|].
  assert (Hin : forall u, In u (r :: l) -> u_good u).
  { intros u Hu. apply Hg. eapply Permutation_in; [symmetry; exact Hp|exact Hu]. }
  destruct (first_range checks r) as [f| |] eqn:Ef; cbn [obind]; try discriminate.
  destruct (gaps checks r l) as [gs| |] eqn:Egs; cbn [obind]; try discriminate.
  intros H; injection H as <-. apply Forall_app. split.
  - unfold first_range in Ef. destruct (Hin r (or_introl eq_refl)) as (Hr & _ & _).
    destruct (u_start r) as [|v|v]; simpl in Hr.
    + injection Ef as <-. constructor.
    + destruct (increment checks v) as [i| |] eqn:E; cbn [obind] in Ef; try discriminate. injection Ef as <-.
      repeat constructor. eapply increment_nobuild; eauto.
    + injection Ef as <-. repeat constructor. apply Hr.
  - eapply gaps_nobuild; [| |exact Egs].
    + apply Hin; left; reflexivity.
    + intros; apply Hin; right; assumption.
Qed.

Lemma osv_export_complement checks p u rs v :
  reqs_wf (p ++ u) -> no_silent_overflow checks (p ++ u) -> version_wf v = true ->
  unaffected_to_osv_ranges checks u p = Ok rs ->
  in_some_range (map (fun r => (introduced r, fixed r)) rs) v <-> ~ declared_safe (p ++ u) v.
Proof.
  intros Hwf Hno Hv H. pose proof (version_wf_core v Hv) as Cv.
  assert (Hvs : versions_new checks p u = Ok (mkVersions p u)) by (unfold versions_new; rewrite H; reflexivity).
  destruct (is_vulnerable_correct checks p u _ v Hwf Hno Hv Hvs) as (b & Hb & Sb).
  rewrite <- Sb. unfold is_vulnerable, ranges_for_advisory in Hb. cbn [patched unaffected] in Hb.
  rewrite H in Hb. cbn [obind] in Hb. injection Hb as <-.
  unfold unaffected_to_osv_ranges in H.
  destruct (omap (urange_of_req checks) u) as [us| |] eqn:Eu; simpl in H; try discriminate.
  destruct (omap (urange_of_req checks) p) as [ps| |] eqn:Ep; simpl in H; try discriminate.
  destruct (collect_spec checks u p us ps Hwf Hno Eu Ep) as [HG _].
  apply ranges_nobuild in H; [|intros; apply HG; assumption]. rewrite Forall_forall in H.
  assert (AFF : forall r, In r rs -> affects r v = true <-> in_range (introduced r, fixed r) v).
  { intros [i f] Hr. destruct (H _ Hr) as [Hi Hf]. rewrite affects_spec by assumption.
    unfold in_range, prec_le, prec_lt. cbn [introduced fixed fst snd].
    split.
    - intros [A B]. split; intros x ->; assumption.
    - intros [A B]. split; [destruct i|destruct f]; auto; [apply A|apply B]; reflexivity. }
  rewrite existsb_exists. unfold in_some_range. split.
  - intros (r & Hr & Hin). apply in_map_iff in Hr as (o & <- & Ho). exists o. rewrite AFF; auto.
  - intros (o & Ho & Ha). exists (introduced o, fixed o). split; [apply in_map_iff; eauto|]. apply AFF; auto.
Qed.
