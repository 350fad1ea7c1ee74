From Coq Require Import List NArith Ascii String Bool Lia Permutation Sorted Arith.
From Verif Require Import Base SemverModel SemverFacts OsvModel OsvSpec OsvProofs.
Import ListNotations.
Local Open Scope N_scope.

(** * Successor *)
Lemma increment_successor checks v w :
  increment checks v = Ok w -> (checks = true \/ patch v < u64_max \/ pre v <> []) ->
  immediate_successor v w /\ build w = [].
Proof.
  intros H Hc. destruct (increment_core _ _ _ H Hc) as [Hw Hb]. split; [|exact Hb].
  unfold immediate_successor, prec_lt. rewrite prec_core, Hw. split; [apply core_succ_gt|].
  intros x Hx [H1 H2]. rewrite prec_core in *. rewrite Hw in H2.
  apply version_wf_core in Hx. apply core_lt_succ in H2; [|exact Hx].
  apply (cmp_lt_gt _ CL) in H1. contradiction.
Qed.

Lemma increment_total checks v :
  (patch v < u64_max \/ pre v <> []) -> exists w, increment checks v = Ok w.
Proof.
  intros H. unfold increment, u64_succ. destruct (pre v) as [|i q]; [|eauto].
  destruct H as [H|H]; [|congruence]. destruct (N.eqb_spec (patch v) u64_max); [lia|]. simpl. eauto.
Qed.

(** * Shape of the exported ranges *)
Definition cut_lo (b : bound) : option core :=   (* start of the gap after an end bound *)
  match b with Unbounded => None | Exclusive v => Some (core_of v) | Inclusive v => Some (core_succ (core_of v)) end.
Definition cut_hi (b : bound) : option core :=   (* end of the gap before a start bound *)
  match b with Unbounded => None | Exclusive v => Some (core_succ (core_of v)) | Inclusive v => Some (core_of v) end.

Lemma core_succ_mono a b : core_wf a -> core_wf b -> ccmp b a <> Gt -> ccmp (core_succ b) (core_succ a) <> Gt.
Proof.
  intros Ha Hb H. destruct (clt_or_cle _ CL b a) as [G|G].
  - apply core_succ_least in G; auto. eapply (cle_trans _ CL); [exact G|].
    apply (clt_le core_cmp). apply core_succ_gt.
  - rewrite (cle_antisym _ CL b a H G). apply (cle_refl _ CL).
Qed.

Lemma cut_chain s e a b : bound_good s -> bound_good e -> less_or_equal s e = false ->
  cut_hi s = Some a -> cut_lo e = Some b -> ccmp b a <> Gt.
Proof.
  intros Hs He Hle. assert (H : ~ (less_or_equal s e = true)) by congruence.
  rewrite less_or_equal_spec in H; auto.
  destruct s as [|va|va], e as [|vb|vb]; simpl in *; try discriminate;
    intros E1 E2; injection E1 as <-; injection E2 as <-;
    try apply (not_clt _ CL) in H.
  - eapply (cle_trans _ CL); [exact H|]. apply (clt_le core_cmp), core_succ_gt.
  - apply core_succ_mono; [apply Hs|apply He|exact H].
  - exact H.
  - apply (not_cle _ CL) in H. apply core_succ_least; [apply Hs|exact H].
Qed.

Lemma cut_good u a b : u_good u -> cut_hi (u_start u) = Some a -> cut_lo (u_end u) = Some b ->
  ccmp a b <> Gt.
Proof.
  intros (Hs & He & Hle). rewrite less_or_equal_spec in Hle; auto.
  destruct (u_start u) as [|va|va], (u_end u) as [|vb|vb]; simpl in *; try discriminate;
    intros E1 E2; injection E1 as <-; injection E2 as <-.
  - apply core_succ_least; [apply He|exact Hle].
  - eapply (cle_trans _ CL); [apply core_succ_least; [apply He|exact Hle]|].
    apply (clt_le core_cmp), core_succ_gt.
  - apply (clt_le core_cmp). exact Hle.
  - eapply (cle_trans _ CL); [exact Hle|]. apply (clt_le core_cmp), core_succ_gt.
Qed.

Definition obounds (r : osv_range) := (introduced r, fixed r).

Definition starts_after (c : option core) (r : osv_range) : Prop :=
  exists a i, c = Some a /\ introduced r = Some i /\ ccmp a (core_of i) <> Gt.

Lemma gap_range_bounds checks r0 r1 g : u_good r0 -> u_good r1 -> u_small checks r0 -> u_small checks r1 ->
  gap_range checks r0 r1 = Ok g ->
  exists i f, introduced g = Some i /\ fixed g = Some f /\
    cut_lo (u_end r0) = Some (core_of i) /\ cut_hi (u_start r1) = Some (core_of f).
Proof.
  intros (_ & H0 & _) (H1 & _ & _) (_ & S0) (S1 & _). unfold gap_range.
  destruct (u_end r0) as [|a|a]; simpl in *; try discriminate;
  [|destruct (increment checks a) as [i| |] eqn:E; simpl; try discriminate];
  destruct (u_start r1) as [|b|b]; simpl in *; try discriminate;
  try (destruct (increment checks b) as [j| |] eqn:E'; simpl; try discriminate);
  intros H; injection H as <-;
  repeat match goal with
  | H : increment _ ?w = Ok ?k, S : _ \/ _ |- _ =>
      let Hi := fresh in let Hb := fresh in
      destruct (increment_core _ _ _ H S) as [Hi Hb]; clear H; rewrite <- Hi
  end; simpl; eauto 10.
Qed.

Lemma last_range_bounds checks r rs : bound_small checks (u_end r) -> last_range checks r = Ok rs ->
  rs = [] \/ exists i, rs = [mkOsv (Some i) None] /\ cut_lo (u_end r) = Some (core_of i).
Proof.
  intros S. unfold last_range. destruct (u_end r) as [|v|v]; simpl in *.
  - intros H; injection H as <-. auto.
  - intros H; injection H as <-. eauto.
  - destruct (increment checks v) as [i| |] eqn:E; simpl; try discriminate.
    intros H; injection H as <-. right. exists i. split; [reflexivity|].
    destruct (increment_core _ _ _ E S) as [<- _]. reflexivity.
Qed.

Lemma gaps_shape checks : forall l r gs,
  u_good r -> u_small checks r ->
  (forall u, In u l -> u_good u /\ u_small checks u) -> chain r l ->
  gaps checks r l = Ok gs ->
  osv_export_ok (map obounds gs) /\ Forall (starts_after (cut_lo (u_end r))) gs.
Proof.
  induction l as [|r1 l IH]; intros r gs Hr Sr Hl Hc; cbn [gaps].
  - intros H. destruct (last_range_bounds checks r gs (proj2 Sr) H) as [->|(i & -> & Hi)].
    + split; [split; constructor|constructor].
    + split.
      * split; repeat constructor. simpl. discriminate.
      * repeat constructor. exists (core_of i), i. repeat split; auto. apply (cle_refl _ CL).
  - destruct (gap_range checks r r1) as [g| |] eqn:Eg; simpl; try discriminate.
    destruct (gaps checks r1 l) as [gs'| |] eqn:E'; simpl; try discriminate.
    intros H; injection H as <-.
    destruct (Hl r1 (or_introl eq_refl)) as [Hr1 Sr1].
    assert (Hl' : forall u, In u l -> u_good u /\ u_small checks u)
      by (intros u Hu; apply Hl; right; exact Hu).
    destruct Hc as [Hle Hc].
    destruct (gap_range_bounds checks r r1 g Hr Hr1 Sr Sr1 Eg) as (i & f & Ei & Ef & Ci & Cf).
    destruct (IH r1 gs' Hr1 Sr1 Hl' Hc E') as [[I1 I2] I3].
    assert (Hif : ccmp (core_of i) (core_of f) <> Gt)
      by (exact (cut_chain _ _ _ _ (proj1 Hr1) (proj1 (proj2 Hr)) Hle Cf Ci)).
    assert (HA : Forall (fun o => exists j, introduced o = Some j /\ ccmp (core_of f) (core_of j) <> Gt) gs').
    { eapply Forall_impl; [|exact I3]. intros o (a & j & Ha & Hj & Hle').
      exists j. split; [exact Hj|]. eapply (cle_trans _ CL); [|exact Hle'].
      eapply cut_good; eauto. }
    split.
    + split; cbn [map].
      * constructor; [|exact I1]. apply Forall_map. eapply Forall_impl; [|exact HA].
        intros o (j & Hj & Hle'). exists f, j. simpl. auto.
      * constructor; [|exact I2]. simpl. rewrite Ei, Ef. intros x y Hx Hy.
        injection Hx as <-. injection Hy as <-. exact Hif.
    + constructor.
      * exists (core_of i), i. repeat split; auto. apply (cle_refl _ CL).
      * eapply Forall_impl; [|exact HA]. intros o (j & Hj & Hle').
        exists (core_of i), j. repeat split; auto. eapply (cle_trans _ CL); eauto.
Qed.

Lemma ranges_shape checks us rs :
  (forall u, In u us -> u_good u /\ u_small checks u) ->
  ranges_of_uranges checks us = Ok rs -> osv_export_ok (map obounds rs).
Proof.
  intros Hu. unfold ranges_of_uranges. destruct us as [|u0 us0].
  - intros H; injection H as <-. split; repeat constructor. simpl; discriminate.
  - set (us := u0 :: us0) in *. destruct (any_overlap us) eqn:Eo; [discriminate|].
    apply any_overlap_false in Eo.
    destruct (sort_ranges us) as [s| |] eqn:Es; simpl; try discriminate.
    destruct s as [|r l]; [discriminate|].
    pose proof (sort_ranges_perm _ _ Es) as Hp.
    assert (Hu' : forall u, In u (r :: l) -> u_good u /\ u_small checks u).
    { intros u Hin. apply Hu. eapply Permutation_in; [apply Permutation_sym; exact Hp|exact Hin]. }
    pose proof (sort_ranges_sorted _ _ (fun u H => proj1 (Hu u H)) Eo Es) as Hs.
    assert (Hc : chain r l).
    { apply sorted_chain; auto; [intros u H; apply Hu'; exact H|].
      eapply disjoint_all_perm; eauto. }
    destruct (first_range checks r) as [f| |] eqn:Ef; simpl; try discriminate.
    destruct (gaps checks r l) as [gs| |] eqn:Eg; simpl; try discriminate.
    intros H; injection H as <-.
    destruct (Hu' r (or_introl eq_refl)) as [Hr Sr].
    assert (Hl : forall u, In u l -> u_good u /\ u_small checks u)
      by (intros u H; apply Hu'; right; exact H).
    destruct (gaps_shape checks l r gs Hr Sr Hl Hc Eg) as [[I1 I2] I3].
    assert (HF : f = [] \/ exists w, f = [mkOsv None (Some w)] /\ cut_hi (u_start r) = Some (core_of w)).
    { unfold first_range in Ef. destruct Sr as [Sr _]. destruct (u_start r) as [|v|v]; simpl in *.
      - injection Ef as <-. auto.
      - destruct (increment checks v) as [i| |] eqn:E; simpl in Ef; try discriminate.
        injection Ef as <-. right. exists i. split; [reflexivity|].
        destruct (increment_core _ _ _ E Sr) as [<- _]. reflexivity.
      - injection Ef as <-. eauto. }
    destruct HF as [->|(w & -> & Hw)]; [split; assumption|].
    split; cbn [app map].
    + constructor; [|exact I1]. apply Forall_map. eapply Forall_impl; [|exact I3].
      intros o (a & j & Ha & Hj & Hle). exists w, j. simpl. repeat split; auto.
      unfold prec_le. rewrite prec_core. eapply (cle_trans _ CL); [|exact Hle].
      eapply cut_good; eauto.
    + constructor; [|exact I2]. simpl. discriminate.
Qed.

Lemma osv_export_shape checks p u rs :
  reqs_wf (p ++ u) -> no_silent_overflow checks (p ++ u) ->
  unaffected_to_osv_ranges checks u p = Ok rs ->
  osv_export_ok (map (fun r => (introduced r, fixed r)) rs).
Proof.
  intros Hwf Hno E. unfold unaffected_to_osv_ranges in E.
  destruct (omap (urange_of_req checks) u) as [us| |] eqn:Eu; simpl in E; try discriminate.
  destruct (omap (urange_of_req checks) p) as [ps| |] eqn:Ep; simpl in E; try discriminate.
  destruct (collect_spec checks u p us ps Hwf Hno Eu Ep) as [HG _].
  exact (ranges_shape checks _ rs HG E).
Qed.

(** * Build metadata *)
Lemma is_vulnerable_build checks p u vs v w :
  reqs_wf (p ++ u) -> no_silent_overflow checks (p ++ u) ->
  version_wf v = true -> version_wf w = true ->
  versions_new checks p u = Ok vs -> prec_eq v w ->
  is_vulnerable checks vs v = is_vulnerable checks vs w.
Proof.
  intros Hwf Hno Hv Hw H E.
  destruct (is_vulnerable_correct checks p u vs v Hwf Hno Hv H) as (b & Hb & Sb).
  destruct (is_vulnerable_correct checks p u vs w Hwf Hno Hw H) as (b' & Hb' & Sb').
  rewrite Hb, Hb'. f_equal.
  assert (HE : core_of v = core_of w).
  { unfold prec_eq in E. rewrite prec_core in E. apply (cmp_eq _ CL) in E. exact E. }
  assert (HD : declared_safe (p ++ u) v <-> declared_safe (p ++ u) w).
  { unfold declared_safe, req_denotes.
    assert (forall c, comparator_denotes c v <-> comparator_denotes c w).
    { intros c. unfold comparator_denotes, prec_lt, prec_le, prec_eq, caret_compatible, tilde_compatible.
      rewrite !prec_core, !HE. unfold core_of in HE. injection HE as H1 H2 H3 H4.
      rewrite H1, H2, H3. reflexivity. }
    split; intros (r & Hr & HH); exists r; (split; [exact Hr|]); intros c Hc; apply H0; auto. }
  destruct b, b'; try reflexivity.
  - rewrite HD in Sb. symmetry. apply Sb'. apply Sb. reflexivity.
  - rewrite <- HD in Sb'. apply Sb. apply Sb'. reflexivity.
Qed.

(** * Order and placement *)
Lemma omap_perm {A B} (f : A -> outcome B) l l' r : Permutation l l' -> omap f l = Ok r ->
  exists r', omap f l' = Ok r' /\ Permutation r r'.
Proof.
  intros Hp. revert r. induction Hp as [|x l l' Hp IH|x y l|l l' l'' H1 IH1 H2 IH2]; intros r H.
  - exists r. split; auto.
  - simpl in *. destruct (f x) as [b| |]; simpl in *; try discriminate.
    destruct (omap f l) as [bs| |]; simpl in *; try discriminate. injection H as <-.
    destruct (IH bs eq_refl) as (r' & -> & Hr). simpl. eauto.
  - simpl in *. destruct (f y) as [b| |]; simpl in *; try discriminate.
    destruct (f x) as [b'| |]; simpl in *; try discriminate.
    destruct (omap f l) as [bs| |]; simpl in *; try discriminate. injection H as <-.
    eexists; split; [reflexivity|]. constructor.
  - destruct (IH1 r H) as (r1 & E1 & P1). destruct (IH2 r1 E1) as (r2 & E2 & P2).
    exists r2. split; auto. etransitivity; eauto.
Qed.

Lemma omap_app {A B} (f : A -> outcome B) l1 l2 :
  (exists r1 r2, omap f l1 = Ok r1 /\ omap f l2 = Ok r2) ->
  exists r1 r2, omap f l1 = Ok r1 /\ omap f l2 = Ok r2 /\ omap f (l1 ++ l2) = Ok (r1 ++ r2).
Proof.
  intros (r1 & r2 & H1 & H2). exists r1, r2. repeat split; auto.
  revert r1 H1. induction l1 as [|x l1 IH]; simpl; intros r1 H1.
  - injection H1 as <-. exact H2.
  - destruct (f x) as [b| |]; simpl in *; try discriminate.
    destruct (omap f l1) as [bs| |]; simpl in *; try discriminate. injection H1 as <-.
    rewrite (IH bs eq_refl). reflexivity.
Qed.
Lemma omap_app_inv {A B} (f : A -> outcome B) l1 l2 r :
  omap f (l1 ++ l2) = Ok r ->
  exists r1 r2, omap f l1 = Ok r1 /\ omap f l2 = Ok r2 /\ r = r1 ++ r2.
Proof.
  revert r. induction l1 as [|x l1 IH]; simpl; intros r H.
  - exists [], r. auto.
  - destruct (f x) as [b| |]; simpl in *; try discriminate.
    destruct (omap f (l1 ++ l2)) as [bs| |] eqn:E; simpl in *; try discriminate. injection H as <-.
    destruct (IH bs eq_refl) as (r1 & r2 & -> & -> & ->). simpl. exists (b :: r1), r2. auto.
Qed.

Lemma ranges_perm checks us us' rs :
  (forall u, In u us -> u_good u) -> Permutation us us' ->
  ranges_of_uranges checks us = Ok rs -> ranges_of_uranges checks us' = Ok rs.
Proof.
  intros Hg Hp. unfold ranges_of_uranges.
  destruct us as [|u0 us0].
  { apply Permutation_nil in Hp. subst. auto. }
  destruct us' as [|u0' us0'].
  { apply Permutation_sym, Permutation_nil in Hp. discriminate. }
  set (us := u0 :: us0) in *. set (us' := u0' :: us0') in *.
  destruct (any_overlap us) eqn:Eo; [discriminate|]. apply any_overlap_false in Eo.
  pose proof (disjoint_all_perm _ _ Hp Eo) as Eo'.
  rewrite (proj2 (any_overlap_false us') Eo').
  destruct (sort_ranges us) as [s| |] eqn:Es; cbn [obind]; try discriminate.
  assert (Hg' : forall u, In u us' -> u_good u)
    by (intros u Hu; apply Hg; eapply Permutation_in; [apply Permutation_sym; exact Hp|exact Hu]).
  assert (exists s', sort_ranges us' = Ok s') as [s' Es'].
  { apply sort_ranges_ok_iff; auto.
    apply (Permutation_NoDup (l := map key us)); [apply Permutation_map; exact Hp|].
    apply sort_ranges_ok_iff; auto. eauto. }
  rewrite Es'. cbn [obind].
  replace s' with s; [auto|].
  apply sorted_perm_unique.
  - exact (sort_ranges_sorted us s Hg Eo Es).
  - exact (sort_ranges_sorted us' s' Hg' Eo' Es').
  - rewrite <- (sort_ranges_perm _ _ Es), <- (sort_ranges_perm _ _ Es'). exact Hp.
Qed.

(** [u_good] does not depend on overflow assumptions. *)
Lemma urange_of_req_good checks r u :
  req_wf r = true -> urange_of_req checks r = Ok u -> u_good u.
Proof.
  intros Hwf H. unfold urange_of_req in H.
  destruct (Nat.ltb 2 (List.length r)); [discriminate|].
  destruct (comp_loop checks (List.length r) (Unbounded, Unbounded) r) as [[s e]| |] eqn:E;
    simpl in H; try discriminate.
  unfold urange_new in H. destruct (less_or_equal s e) eqn:Ele; [|discriminate].
  injection H as <-.
  assert (HG : bound_good s /\ bound_good e); [|split; [apply HG|split; [apply HG|exact Ele]]].
  unfold req_wf in Hwf. rewrite forallb_forall in Hwf.
  assert (Hgen : forall n cs st st', (forall c, In c cs -> comparator_wf c = true) ->
            bound_good (fst st) /\ bound_good (snd st) ->
            comp_loop checks n st cs = Ok st' -> bound_good (fst st') /\ bound_good (snd st')).
  { clear. intros n. induction cs as [|c cs IH]; intros st st' Hc Hg H; cbn [comp_loop] in H.
    - injection H as <-. exact Hg.
    - destruct (comp_step checks n st c) as [st1| |] eqn:E; simpl in H; try discriminate.
      eapply IH; [intros c' Hc'; apply Hc; right; exact Hc'| |exact H].
      pose proof (comparator_wf_pre c (Hc c (or_introl eq_refl))) as Hpre.
      destruct st as [s e]. cbn [fst snd] in *. unfold comp_step in E.
      rewrite comp_to_ver_written in E.
      assert (Hend : forall ev, caret_end checks c = Ok ev \/ tilde_end checks c = Ok ev ->
                build ev = [] /\ core_wf (core_of ev)).
      { intros ev HH. split.
        - unfold caret_end, tilde_end, u64_succ in HH. destruct HH as [HH|HH];
          repeat match goal with
          | H : context [match ?d with _ => _ end] |- _ =>
              match type of d with
              | bool => destruct d | option N => destruct d | N => destruct d
              end; cbn [obind] in H; try discriminate H
          end; injection HH as <-; reflexivity.
        - unfold core_wf. pose proof (end_pre checks c ev HH) as Hp. unfold core_of. cbn [snd].
          rewrite Hp. reflexivity. }
      destruct (c_op c);
        repeat match goal with
        | E : context [if ?d then _ else _] |- _ => destruct d; try discriminate E
        end;
        try (destruct (tilde_end checks c) as [ev| |] eqn:Ee; simpl in E; try discriminate E;
             specialize (Hend ev (or_intror eq_refl)));
        try (destruct (caret_end checks c) as [ev| |] eqn:Ee; simpl in E; try discriminate E;
             specialize (Hend ev (or_introl eq_refl)));
        try discriminate E; injection E as <-; simpl; tauto. }
  exact (Hgen (List.length r) r (Unbounded, Unbounded) (s, e) Hwf (conj I I) E).
Qed.

Lemma reqs_perm checks p u p' u' rs :
  reqs_wf (p ++ u) -> Permutation (p ++ u) (p' ++ u') ->
  unaffected_to_osv_ranges checks u p = Ok rs ->
  unaffected_to_osv_ranges checks u' p' = Ok rs.
Proof.
  intros Hwf Hp E. unfold unaffected_to_osv_ranges in E.
  destruct (omap (urange_of_req checks) u) as [us| |] eqn:Eu; simpl in E; try discriminate.
  destruct (omap (urange_of_req checks) p) as [ps| |] eqn:Ep; simpl in E; try discriminate.
  destruct (omap_app (urange_of_req checks) u p) as (r1 & r2 & F1 & F2 & F3); [eauto|].
  assert (Hp' : Permutation (u ++ p) (u' ++ p')).
  { rewrite Permutation_app_comm, Hp. apply Permutation_app_comm. }
  destruct (omap_perm _ _ _ _ Hp' F3) as (r' & G & Pr).
  destruct (omap_app_inv _ _ _ _ G) as (us' & ps' & Eu' & Ep' & ->).
  unfold unaffected_to_osv_ranges. rewrite Eu', Ep'. simpl.
  rewrite Eu in F1. rewrite Ep in F2. injection F1 as <-. injection F2 as <-.
  eapply ranges_perm; [|exact Pr|exact E].
  intros w Hw. destruct (omap_ok _ _ _ F3) as [_ HB]. destruct (HB w Hw) as (r & Hr & Hrw).
  eapply urange_of_req_good; [|exact Hrw]. apply Hwf.
  apply in_app_or in Hr as [Hr|Hr]; apply in_or_app; auto.
Qed.

Lemma versions_perm checks p u p' u' vs :
  reqs_wf (p ++ u) -> Permutation (p ++ u) (p' ++ u') ->
  versions_new checks p u = Ok vs ->
  exists vs', versions_new checks p' u' = Ok vs' /\
    forall v, is_vulnerable checks vs' v = is_vulnerable checks vs v.
Proof.
  intros Hwf Hp H. unfold versions_new in *.
  destruct (unaffected_to_osv_ranges checks u p) as [rs| |] eqn:E; simpl in H; try discriminate.
  injection H as <-. pose proof (reqs_perm checks p u p' u' rs Hwf Hp E) as E'.
  rewrite E'. simpl. eexists; split; [reflexivity|]. intros v.
  unfold is_vulnerable, ranges_for_advisory. cbn [patched unaffected]. rewrite E, E'. reflexivity.
Qed.

(** * Overlap check *)
Lemma overlaps_false_disjoint a b v : u_good a -> u_good b -> overlaps a b = false ->
  ~ (in_urange a (core_of v) /\ in_urange b (core_of v)).
Proof.
  intros Ha Hb Hno [[A1 A2] [B1 B2]]. unfold overlaps in Hno. apply andb_false_iff in Hno as [H|H].
  - destruct (not_le_cover (u_start a) (u_end b) (core_of v) (proj1 Ha) (proj1 (proj2 Hb)) H); tauto.
  - destruct (not_le_cover (u_start b) (u_end a) (core_of v) (proj1 Hb) (proj1 (proj2 Ha)) H); tauto.
Qed.
