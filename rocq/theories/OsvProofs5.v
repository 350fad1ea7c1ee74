(** Panics (C06), overlaps (C09), empty lists (C10), single requirements (C11). *)
From Coq Require Import List NArith Ascii String Bool Lia Permutation Sorted Arith.
From Verif Require Import Base SemverModel SemverFacts OsvModel OsvSpec OsvProofs OsvProofs2 OsvProofs3 OsvProofs4.
Import ListNotations.
Local Open Scope N_scope.

Lemma omap_not_panic {A B} (f : A -> outcome B) l : (forall x, In x l -> f x <> Panic) -> omap f l <> Panic.
Proof.
  induction l as [|x l IH]; simpl; intros H; [discriminate|].
  destruct (f x) as [b| |] eqn:E; simpl; [|discriminate|].
  - destruct (omap f l) as [bs| |]; simpl; try discriminate. apply IH. auto.
  - exfalso. apply (H x); auto.
Qed.

(** a failing duplicate-free check yields two positions *)
Lemma not_nodup_pairs {A B} (eq_dec : forall x y : B, {x = y} + {x <> y}) (f : A -> B) l :
  ~ NoDup (map f l) -> exists l1 a l2 b l3, l = l1 ++ a :: l2 ++ b :: l3 /\ f a = f b.
Proof.
  induction l as [|x l IH]; simpl; intros H; [exfalso; apply H; constructor|].
  destruct (in_dec eq_dec (f x) (map f l)) as [Hin|Hn].
  - apply in_map_iff in Hin as (y & Ey & Hy). apply in_split in Hy as (l2 & l3 & ->).
    exists [], x, l2, y, l3. auto.
  - destruct IH as (l1 & a & l2 & b & l3 & -> & E).
    { intros HN. apply H. constructor; auto. }
    exists (x :: l1), a, l2, b, l3. auto.
Qed.

Lemma core_eq_dec (x y : core) : {x = y} + {x <> y}.
Proof. repeat decide equality. Qed.
Lemma key_eq_dec (x y : option core) : {x = y} + {x <> y}.
Proof. decide equality. apply core_eq_dec. Qed.

Lemma FOP_split {A} (R : A -> A -> Prop) l1 a l2 b l3 :
  ForallOrdPairs R (l1 ++ a :: l2 ++ b :: l3) -> R a b.
Proof.
  induction l1 as [|x l1 IH]; simpl; intros H; inversion H; subst; auto.
  match goal with H : Forall _ _ |- _ => rewrite Forall_forall in H; apply H end.
  apply in_or_app; right; left; reflexivity.
Qed.

Lemma ranges_not_panic checks us :
  (forall u, In u us -> u_good u /\ u_below u) ->
  ranges_of_uranges checks us = Panic ->
  exists a b, In a us /\ In b us /\ overlaps a b = false /\ key a = key b.
Proof.
  intros Hg. unfold ranges_of_uranges. destruct us as [|u0 us0]; [discriminate|].
  set (us := u0 :: us0) in *. destruct (any_overlap us) eqn:Eo; [discriminate|].
  apply any_overlap_false in Eo.
  assert (HG : forall u, In u us -> u_good u) by (intros; apply Hg; auto).
  destruct (sort_ranges us) as [s| |] eqn:Es; cbn [obind].
  - pose proof (sort_ranges_perm _ _ Es) as Hp. pose proof (sort_ranges_sorted _ _ HG Eo Es) as Hs.
    destruct s as [|r l]; [apply Permutation_sym, Permutation_nil in Hp; discriminate|].
    assert (Hin : forall u, In u (r :: l) -> In u us) by (intros u Hu; eapply Permutation_in; [symmetry; exact Hp|exact Hu]).
    assert (Hch : chain r l).
    { apply sorted_chain; auto. eapply disjoint_all_perm; eauto. }
    destruct (first_range_total checks r) as [f ->]; [apply Hg, Hin; left; reflexivity|].
    destruct (gaps_total checks l r) as [gs ->]; auto.
    + apply Hg, Hin; left; reflexivity.
    + intros u Hu. apply Hg, Hin. right. exact Hu.
    + discriminate.
  - discriminate.
  - intros _. assert (Hnd : ~ NoDup (map key us)).
    { intros HN. apply (sort_ranges_ok_iff us HG Eo) in HN as [l' El]. congruence. }
    apply (not_nodup_pairs key_eq_dec) in Hnd as (l1 & a & l2 & b & l3 & El & Ek).
    clearbody us. subst us. exists a, b. repeat split; auto.
    + apply in_or_app; right; left; reflexivity.
    + apply in_or_app; right; right; apply in_or_app; right; left; reflexivity.
    + exact (FOP_split _ _ _ _ _ _ Eo).
Qed.

Lemma excl_start_greater checks r u v : urange_of_req checks r = Ok u -> u_start u = Exclusive v ->
  exists c, In c r /\ c_op c = OpGreater /\ written c = v.
Proof.
  intros H Es. apply urange_shape in H as [[[-> ->]|[(c & -> & HS)|(lo & hi & Hr & Hlo & Hhi & ->)]] _].
  - discriminate.
  - unfold single_range, lo_bound, hi_bound in HS. exists c. split; [left; reflexivity|].
    destruct (c_op c); try contradiction; try (destruct HS as (e & _ & HS)); subst u; cbn in Es; try discriminate.
    injection Es as <-. auto.
  - cbn [u_start] in Es. unfold lo_bound in Es. exists lo. split; [destruct Hr as [-> | ->]; simpl; auto|].
    destruct (c_op lo); try discriminate. injection Es as <-. auto.
Qed.

Lemma below_comp reqs r c : below_u64_max reqs -> In r reqs -> In c r -> comp_below c.
Proof. intros H Hr Hc. destruct (H r c Hr Hc) as (? & ? & ?). repeat split; auto. Qed.

Lemma collect_below checks u p us ps :
  reqs_wf (p ++ u) -> below_u64_max (p ++ u) ->
  omap (urange_of_req checks) u = Ok us -> omap (urange_of_req checks) p = Ok ps ->
  forall w, In w (us ++ ps) -> (u_good w /\ u_below w) /\
    exists r, In r (p ++ u) /\ urange_of_req checks r = Ok w /\
      forall v, core_v_wf v -> in_urange w (core_of v) <-> req_denotes r v.
Proof.
  intros Hwf Hb Hu Hp w Hw.
  assert (exists r, In r (p ++ u) /\ urange_of_req checks r = Ok w) as (r & Hr & He).
  { apply omap_ok in Hu as [_ U]. apply omap_ok in Hp as [_ P].
    apply in_app_or in Hw as [Hw|Hw]; [apply U in Hw|apply P in Hw]; destruct Hw as (r & H1 & H2);
      exists r; split; auto; apply in_or_app; auto. }
  assert (Hc : forall c, In c r -> comp_below c) by (intros; eapply below_comp; eauto).
  destruct (urange_of_req_spec checks r w (Hwf r Hr) (fun c Hi => comp_below_small checks c (Hc c Hi)) He) as (G & _ & D).
  split; [split; [exact G|eapply urange_below; eauto]|]. eauto.
Qed.

(** The only panic left when components stay below [u64::MAX]. *)
Lemma versions_new_panic checks p u :
  reqs_wf (p ++ u) -> below_u64_max (p ++ u) -> versions_new checks p u = Panic ->
  exists r1 r2 lo, In r1 (p ++ u) /\ In r2 (p ++ u) /\ In lo r1 /\ c_op lo = OpGreater /\
    forall v, version_wf v = true -> (req_denotes r2 v <-> prec_eq v (written lo)).
Proof.
  intros Hwf Hb H. unfold versions_new, unaffected_to_osv_ranges in H.
  assert (NP : forall l, (forall r, In r l -> In r (p ++ u)) -> omap (urange_of_req checks) l <> Panic).
  { intros l Hl. apply omap_not_panic. intros r Hr. apply urange_not_panic; auto.
    intros c Hc. eapply below_comp; eauto. }
  destruct (omap (urange_of_req checks) u) as [us| |] eqn:Eu; simpl in H; try discriminate.
  2: { exfalso. eapply NP; [|exact Eu]. intros; apply in_or_app; auto. }
  destruct (omap (urange_of_req checks) p) as [ps| |] eqn:Ep; simpl in H; try discriminate.
  2: { exfalso. eapply NP; [|exact Ep]. intros; apply in_or_app; auto. }
  pose proof (collect_below checks u p us ps Hwf Hb Eu Ep) as HC.
  destruct (ranges_of_uranges checks (us ++ ps)) as [rs| |] eqn:E; simpl in H; try discriminate.
  apply ranges_not_panic in E; [|intros w Hw; apply HC; exact Hw].
  destruct E as (a & b & Ia & Ib & Ho & Hk).
  assert (HALF : forall a b v, In a (us ++ ps) -> In b (us ++ ps) ->
     u_start a = Exclusive v -> (exists w w', u_start b = Inclusive w /\ u_end b = Inclusive w' /\
             core_of w = core_of v /\ core_of w' = core_of v) ->
     exists r1 r2 lo, In r1 (p ++ u) /\ In r2 (p ++ u) /\ In lo r1 /\ c_op lo = OpGreater /\
       forall v, version_wf v = true -> (req_denotes r2 v <-> prec_eq v (written lo))).
  { clear a b Ia Ib Ho Hk. intros a b v Ia Ib Ea (w & w' & Eb1 & Eb2 & C1 & C2).
    destruct (HC a Ia) as (_ & r1 & R1 & U1 & _). destruct (HC b Ib) as (_ & r2 & R2 & U2 & D2).
    destruct (excl_start_greater checks r1 a v U1 Ea) as (lo & L1 & L2 & L3).
    exists r1, r2, lo. repeat (split; [assumption|]). intros x Hx. apply version_wf_core in Hx.
    rewrite <- (D2 x Hx). unfold in_urange. rewrite Eb1, Eb2. cbn [below_start above_end].
    rewrite C1, C2. unfold prec_eq. rewrite prec_core, L3.
    rewrite (cmp_antisym _ CL (core_of v) (core_of x)).
    destruct (ccmp (core_of v) (core_of x)); simpl; (split;
      [intros [h1 h2]; first [reflexivity|exfalso; apply h1; reflexivity|exfalso; apply h2; reflexivity]
      |intros h; try discriminate h; split; discriminate]). }
  destruct (same_key a b) as (v & [(Ea & Eb)|(Eb & Ea)]); try (apply HC; assumption); try assumption.
  - eapply (HALF a b v); eauto.
  - eapply (HALF b a v); eauto.
Qed.

(** * C09 *)
Definition bottom : core := (0, (0, (0, ["0"%string]))).
Definition lowcut (b : bound) : core :=
  match b with Unbounded => bottom | Exclusive v => core_succ (core_of v) | Inclusive v => core_of v end.

Lemma bottom_least x : core_wf x -> ccmp bottom x <> Gt.
Proof.
  intros H. destruct x as [a [b [p q]]]. unfold bottom. rewrite <- ccmp_gt_intro.
  intros G. destruct G as [G|[_ [G|[_ [G|[_ G]]]]]]; try lia.
  exact (zero_pre_least q H G).
Qed.

Lemma lowcut_le b x : core_wf x -> (~ below_start b x <-> ccmp (lowcut b) x <> Gt).
Proof.
  intros H. destruct b as [|v|v]; simpl.
  - split; [intros _; apply bottom_least; exact H|tauto].
  - rewrite (core_succ_le _ _ H). rewrite (cmp_antisym _ CL (core_of v) x). destruct (ccmp (core_of v) x); simpl; intuition congruence.
  - rewrite (cmp_antisym _ CL (core_of v) x). destruct (ccmp (core_of v) x); simpl; intuition congruence.
Qed.

Lemma lowcut_wf b : bound_good b -> core_wf (lowcut b).
Proof. destruct b; simpl; [reflexivity| |]; intros [_ H]; [apply core_succ_wf|]; exact H. Qed.

Lemma le_above s e : bound_good s -> bound_good e -> less_or_equal s e = true ->
  above_end e (lowcut s) ->
  (exists a b, s = Exclusive a /\ e = Exclusive b /\ core_of b = core_succ (core_of a)) \/
  (exists b, e = Exclusive b /\ core_of b = bottom).
Proof.
  intros Hs He Hle Ha. apply less_or_equal_spec in Hle; auto.
  destruct e as [|b|b]; simpl in Ha; [destruct Ha| |].
  - destruct s as [|a|a]; simpl in *.
    + right. exists b. split; [reflexivity|]. apply (cle_antisym _ CL); [exact Ha|]. apply bottom_least. apply He.
    + left. exists a, b. repeat split; auto. apply (cle_antisym _ CL); [exact Ha|].
      apply core_succ_least; [apply He|exact Hle].
    + exfalso. apply (clt_irrefl _ CL (core_of a)). eapply (clt_le_trans _ CL); eauto.
  - exfalso. destruct s as [|a|a]; simpl in *.
    + apply (clt_irrefl _ CL bottom). eapply (cle_lt_trans _ CL); [|exact Ha]. apply bottom_least. apply He.
    + assert (ccmp (core_succ (core_of a)) (core_of b) <> Gt) as L by (apply core_succ_least; [apply He|exact Hle]).
      apply (clt_irrefl _ CL (core_of b)). eapply (clt_le_trans _ CL); eauto.
    + apply (clt_irrefl _ CL (core_of b)). eapply (clt_le_trans _ CL); eauto.
Qed.

Lemma overlaps_witness a b : u_good a -> u_good b -> overlaps a b = true ->
  (exists x, (x = lowcut (u_start a) \/ x = lowcut (u_start b)) /\ in_urange a x /\ in_urange b x) \/
  (exists s e, (s = u_start a \/ s = u_start b) /\ (e = u_end a \/ e = u_end b) /\
    less_or_equal s e = true /\ above_end e (lowcut s)).
Proof.
  intros (A1 & A2 & A3) (B1 & B2 & B3) Ho. unfold overlaps in Ho. apply andb_prop in Ho as [O1 O2].
  assert (HM : exists x, (x = lowcut (u_start a) \/ x = lowcut (u_start b)) /\
             ccmp (lowcut (u_start a)) x <> Gt /\ ccmp (lowcut (u_start b)) x <> Gt).
  { destruct (ccmp (lowcut (u_start a)) (lowcut (u_start b))) eqn:E.
    - exists (lowcut (u_start b)). rewrite E, (cmp_refl _ CL). repeat split; auto; discriminate.
    - exists (lowcut (u_start b)). rewrite E, (cmp_refl _ CL). repeat split; auto; discriminate.
    - exists (lowcut (u_start a)). rewrite (cmp_antisym _ CL (lowcut (u_start a)) (lowcut (u_start b))), E, (cmp_refl _ CL). repeat split; auto; discriminate. }
  destruct HM as (x & Hx & La & Lb).
  assert (Wx : core_wf x) by (destruct Hx as [-> | ->]; apply lowcut_wf; assumption).
  apply lowcut_le in La; auto. apply lowcut_le in Lb; auto.
  destruct (bound_dec_above (u_end a) x) as [Xa|Xa].
  - right. destruct Hx as [-> | ->]; [exists (u_start a), (u_end a)|exists (u_start b), (u_end a)]; repeat split; auto.
  - destruct (bound_dec_above (u_end b) x) as [Xb|Xb].
    + right. destruct Hx as [-> | ->]; [exists (u_start a), (u_end b)|exists (u_start b), (u_end b)]; repeat split; auto.
    + left. exists x. repeat split; auto.
Qed.

Definition version_of (c : core) : version :=
  mkVersion (fst c) (fst (snd c)) (fst (snd (snd c))) (snd (snd (snd c))) [].
Lemma version_of_core c : core_of (version_of c) = c.
Proof. destruct c as [a [b [p q]]]. reflexivity. Qed.

Lemma excl_end_origin checks r u v : urange_of_req checks r = Ok u -> u_end u = Exclusive v ->
  exists c, In c r /\ ((c_op c = OpLess /\ written c = v) \/
     (c_op c = OpCaret /\ caret_end checks c = Ok v) \/ (c_op c = OpTilde /\ tilde_end checks c = Ok v)).
Proof.
  intros H Es. apply urange_shape in H as [[[-> ->]|[(c & -> & HS)|(lo & hi & Hr & Hlo & Hhi & ->)]] _].
  - discriminate.
  - unfold single_range, lo_bound, hi_bound in HS. exists c. split; [left; reflexivity|].
    destruct (c_op c); try contradiction; try (destruct HS as (e & E & HS)); subst u; cbn in Es; try discriminate;
    injection Es as <-; auto.
  - cbn [u_end] in Es. unfold hi_bound in Es. exists hi. split; [destruct Hr as [-> | ->]; simpl; auto|].
    destruct (c_op hi); try discriminate; injection Es as <-; auto.
Qed.

Lemma caret_end_shape checks c e : comp_below c -> caret_end checks c = Ok e ->
  exists a b p, e = pre_zero a b p /\ (a <> 0 \/ b <> 0 \/ p <> 0) /\
    (p = 0 \/ (c_major c = 0 /\ c_minor c = Some 0 /\ exists p0, c_patch c = Some p0 /\ p = p0 + 1 /\ a = 0 /\ b = 0)).
Proof.
  intros (H1 & H2 & H3). unfold caret_end. rewrite u64_succ_small by exact H1.
  destruct (N.eqb_spec (c_major c) 0) as [E|E].
  - destruct (c_minor c) as [m|] eqn:Em; destruct (c_patch c) as [p|] eqn:Ep;
      try (destruct m as [|m]); rewrite ?u64_succ_small by (first [apply H3; reflexivity|apply H2; reflexivity|lia]);
      cbn [obind]; intros H; try discriminate; injection H as <-; do 3 eexists; (split; [reflexivity|]).
    + split; [right; right; lia|]. right. repeat split; auto. exists p. auto.
    + split; [right; left; lia|]. auto.
    + split; [right; left; lia|]. auto.
    + split; [right; left; lia|]. auto.
    + split; [left; lia|]. auto.
  - cbn [obind]. intros H; injection H as <-. do 3 eexists; (split; [reflexivity|]). split; [left; lia|]. auto.
Qed.
Lemma tilde_end_shape checks c e : comp_below c -> tilde_end checks c = Ok e ->
  exists a b, e = pre_zero a b 0 /\ (a <> 0 \/ b <> 0).
Proof.
  intros (H1 & H2 & H3). unfold tilde_end. rewrite u64_succ_small by exact H1.
  destruct (c_minor c) as [m|] eqn:Em; destruct (c_patch c) as [p|] eqn:Ep;
    rewrite ?u64_succ_small by (apply H2; reflexivity);
    cbn [obind]; intros H; try discriminate; injection H as <-; do 2 eexists; (split; [reflexivity|]); lia.
Qed.

Lemma core_succ_pre_zero v a b p : core_of (pre_zero a b p) = core_succ (core_of v) ->
  p <> 0 /\ core_of v = (a, (b, (p - 1, []))).
Proof.
  destruct v as [va vb vp vq vbld]. unfold pre_zero, core_of, core_succ; cbn.
  destruct vq as [|i q]; intros H; injection H as E1 E2 E3.
  - subst. split; [lia|]. repeat f_equal; lia.
  - exfalso. destruct q; discriminate.
Qed.

Lemma lowcut_version checks r u : req_wf r = true -> (forall c, In c r -> comp_below c) ->
  urange_of_req checks r = Ok u -> version_wf (version_of (lowcut (u_start u))) = true.
Proof.
  intros Hwf Hb H. unfold req_wf in Hwf. rewrite forallb_forall in Hwf.
  assert (W : forall c, In c r -> version_wf (written c) = true /\ version_wf (version_of (core_succ (core_of (written c)))) = true).
  { intros c Hc. specialize (Hwf c Hc). destruct (Hb c Hc) as (B1 & B2 & B3).
    assert (Wp : forallb ident_wf (c_pre c) = true).
    { unfold comparator_wf in Hwf. rewrite !andb_true_iff in Hwf. tauto. }
    assert (Bm : (match c_minor c with Some m => m | None => 0 end) < u64_max) by (destruct (c_minor c); [auto|reflexivity]).
    assert (Bp : (match c_patch c with Some m => m | None => 0 end) < u64_max) by (destruct (c_patch c); [auto|reflexivity]).
    split.
    - unfold version_wf. cbn [major minor patch pre build written]. rewrite Wp, !andb_true_iff. repeat split; apply N.leb_le; lia.
    - unfold version_wf, core_succ, core_of, written. cbn [major minor patch pre build].
      destruct (c_pre c) as [|i q] eqn:Ec; cbn [version_of fst snd major minor patch pre build].
      + rewrite !andb_true_iff. repeat split; try apply N.leb_le; try lia; reflexivity.
      + rewrite forallb_app, Wp. rewrite !andb_true_iff. repeat split; apply N.leb_le; lia. }
  assert (WI : forall c, In c r -> version_wf (version_of (core_of (written c))) = true).
  { intros c Hc. destruct (W c Hc) as [W1 _]. unfold version_of, core_of. cbn [fst snd]. exact W1. }
  apply urange_shape in H as [[[-> ->]|[(c & -> & HS)|(lo & hi & Hr & Hlo & Hhi & ->)]] _].
  - reflexivity.
  - specialize (W c (or_introl eq_refl)). specialize (WI c (or_introl eq_refl)).
    unfold single_range, lo_bound, hi_bound in HS.
    destruct (c_op c); try contradiction; try (destruct HS as (e & _ & HS)); subst u; cbn [u_start lowcut]; try apply W; try apply WI; reflexivity.
  - assert (Il : In lo r) by (destruct Hr as [-> | ->]; simpl; auto).
    cbn [u_start]. unfold lo_bound. destruct (c_op lo); cbn [lowcut]; try (apply WI; exact Il); apply (W lo Il).
Qed.

Lemma core_succ_successor v w : core_of w = core_succ (core_of v) -> immediate_successor v w.
Proof.
  intros Hw. unfold immediate_successor, prec_lt. rewrite prec_core, Hw. split; [apply core_succ_gt|].
  intros x Hx [H1 H2]. rewrite prec_core in *. rewrite Hw in H2.
  apply version_wf_core in Hx. apply core_lt_succ in H2; [|exact Hx].
  apply (clt_irrefl _ CL (core_of x)). eapply (cle_lt_trans _ CL); eauto.
Qed.

Lemma overlap_complete checks r1 r2 u1 u2 :
  req_wf r1 = true -> req_wf r2 = true -> (forall c, In c (r1 ++ r2) -> comp_below c) ->
  urange_of_req checks r1 = Ok u1 -> urange_of_req checks r2 = Ok u2 -> overlaps u1 u2 = true ->
  (exists v, version_wf v = true /\ req_denotes r1 v /\ req_denotes r2 v) \/ boundary_artifact r1 r2.
Proof.
  intros W1 W2 Hb E1 E2 Ho.
  assert (Hb1 : forall c, In c r1 -> comp_below c) by (intros; apply Hb, in_or_app; auto).
  assert (Hb2 : forall c, In c r2 -> comp_below c) by (intros; apply Hb, in_or_app; auto).
  destruct (urange_of_req_spec checks r1 u1 W1 (fun c Hi => comp_below_small checks c (Hb1 c Hi)) E1) as (G1 & _ & D1).
  destruct (urange_of_req_spec checks r2 u2 W2 (fun c Hi => comp_below_small checks c (Hb2 c Hi)) E2) as (G2 & _ & D2).
  destruct (overlaps_witness u1 u2 G1 G2 Ho) as [(x & Hx & I1 & I2)|(s & e & Hs & He & Hle & Ha)].
  - left. exists (version_of x).
    assert (Wx : version_wf (version_of x) = true).
    { destruct Hx as [-> | ->]; [eapply (lowcut_version checks r1)|eapply (lowcut_version checks r2)]; eauto. }
    pose proof (version_wf_core _ Wx) as Cx. split; [exact Wx|].
    rewrite <- (D1 _ Cx), <- (D2 _ Cx), version_of_core. auto.
  - right. unfold boundary_artifact.
    assert (Gs : bound_good s) by (destruct Hs as [-> | ->]; [apply G1|apply G2]).
    assert (Ge : bound_good e) by (destruct He as [-> | ->]; [apply G1|apply G2]).
    assert (ORI : forall b, e = Exclusive b -> exists c, In c (r1 ++ r2) /\ ((c_op c = OpLess /\ written c = b) \/
       (c_op c = OpCaret /\ caret_end checks c = Ok b) \/ (c_op c = OpTilde /\ tilde_end checks c = Ok b))).
    { intros b Eb. destruct He as [He|He]; rewrite Eb in He; symmetry in He;
      [apply (excl_end_origin _ _ _ _ E1) in He|apply (excl_end_origin _ _ _ _ E2) in He];
      destruct He as (c & Hc & HH); exists c; split; auto; apply in_or_app; auto. }
    destruct (le_above s e Gs Ge Hle Ha) as [(a & b & Es & Ee & Eab)|(b & Ee & Eb)].
    + left. destruct (ORI b Ee) as (hi & Hhi & Ohi).
      assert (exists lo, In lo (r1 ++ r2) /\ c_op lo = OpGreater /\ written lo = a) as (lo & Hlo & Olo & Wlo).
      { destruct Hs as [Hs|Hs]; rewrite Es in Hs; symmetry in Hs;
        [apply (excl_start_greater _ _ _ _ E1) in Hs|apply (excl_start_greater _ _ _ _ E2) in Hs];
        destruct Hs as (c & Hc & HH); exists c; split; auto; apply in_or_app; auto. }
      exists lo, hi. repeat (split; [assumption|]).
      destruct Ohi as [(O & Wh)|[(O & C)|(O & T)]].
      * left. split; [exact O|]. apply core_succ_successor. rewrite Wlo, Wh. exact Eab.
      * right. destruct (caret_end_shape checks hi b (Hb hi Hhi) C) as (x & y & z & -> & _ & Hz).
        apply core_succ_pre_zero in Eab as [Nz Ea]. destruct Hz as [Hz|(Z1 & Z2 & p0 & Z3 & -> & -> & ->)]; [contradiction|].
        exists p0. repeat (split; [assumption|]). unfold prec_eq. rewrite prec_core, Wlo, Ea.
        replace (p0 + 1 - 1) with p0 by lia. apply (cmp_refl _ CL).
      * exfalso. destruct (tilde_end_shape checks hi b (Hb hi Hhi) T) as (x & y & -> & _).
        apply core_succ_pre_zero in Eab as [Nz _]. contradiction.
    + right. destruct (ORI b Ee) as (hi & Hhi & Ohi). exists hi. split; [exact Hhi|].
      destruct Ohi as [(O & Wh)|[(O & C)|(O & T)]].
      * split; [exact O|]. unfold prec_le. rewrite prec_core, Wh, Eb. change (core_of version_0_0_0_pre0) with bottom.
        rewrite (cmp_refl _ CL). discriminate.
      * exfalso. destruct (caret_end_shape checks hi b (Hb hi Hhi) C) as (x & y & z & -> & Nz & _).
        unfold pre_zero, core_of, bottom in Eb. cbn in Eb. injection Eb as -> -> ->. intuition congruence.
      * exfalso. destruct (tilde_end_shape checks hi b (Hb hi Hhi) T) as (x & y & -> & Nz).
        unfold pre_zero, core_of, bottom in Eb. cbn in Eb. injection Eb as -> ->. intuition congruence.
Qed.

Lemma single_accept checks r : req_wf r = true -> (forall c, In c r -> comp_below c) ->
  versions_new checks [r] [] = (if is_ok (urange_of_req checks r) then Ok (mkVersions [r] []) else Err).
Proof.
  intros Hwf Hb. unfold versions_new, unaffected_to_osv_ranges. cbn [omap obind].
  pose proof (urange_not_panic checks r Hwf Hb) as NP.
  destruct (urange_of_req checks r) as [w| |] eqn:E; cbn; [|reflexivity|congruence].
  pose proof (urange_below checks r w Hb E) as Bw.
  destruct (first_range_total checks w Bw) as [f ->]. destruct (last_range_total checks w Bw) as [g ->]. reflexivity.
Qed.

Lemma single_accept_iff checks r : req_wf r = true -> below_u64_max [r] ->
  (supported_shape r -> versions_new checks [r] [] = Ok (mkVersions [r] [])) /\
  (~ supported_shape r -> versions_new checks [r] [] = Err).
Proof.
  intros Hwf Hb. assert (Hc : forall c, In c r -> comp_below c) by (intros; eapply below_comp; eauto; left; reflexivity).
  rewrite (single_accept checks r Hwf Hc). rewrite <- (urange_accept_iff checks r Hwf Hc). split.
  - intros [u ->]. reflexivity.
  - intros H. destruct (urange_of_req checks r) as [w| |] eqn:E; [|reflexivity|reflexivity]. exfalso. eauto.
Qed.

(** Two individually acceptable requirements refused together. *)
Lemma overlap_rejection checks r1 r2 :
  req_wf r1 = true -> req_wf r2 = true -> below_u64_max [r1; r2] ->
  versions_new checks [r1] [] = Ok (mkVersions [r1] []) ->
  versions_new checks [r2] [] = Ok (mkVersions [r2] []) ->
  versions_new checks [r1] [r2] = Err ->
  (exists v, version_wf v = true /\ req_denotes r1 v /\ req_denotes r2 v) \/ boundary_artifact r1 r2.
Proof.
  intros W1 W2 Hb.
  assert (Hc : forall c, In c (r1 ++ r2) -> comp_below c).
  { intros c Hc. apply in_app_or in Hc as [Hc|Hc]; eapply below_comp; eauto; simpl; auto. }
  assert (Hb1 : forall c, In c r1 -> comp_below c) by (intros; apply Hc, in_or_app; auto).
  assert (Hb2 : forall c, In c r2 -> comp_below c) by (intros; apply Hc, in_or_app; auto).
  rewrite (single_accept checks r1 W1 Hb1), (single_accept checks r2 W2 Hb2).
  destruct (urange_of_req checks r1) as [u1| |] eqn:E1; cbn [is_ok]; try discriminate.
  destruct (urange_of_req checks r2) as [u2| |] eqn:E2; cbn [is_ok]; try discriminate.
  intros _ _ H. unfold versions_new, unaffected_to_osv_ranges in H. cbn [omap] in H. rewrite E1, E2 in H.
  cbn [obind app] in H.
  destruct (overlaps u2 u1) eqn:Eo.
  - eapply overlap_complete; eauto. rewrite overlaps_sym. exact Eo.
  - exfalso. cbn in H. rewrite Eo in H. cbn [orb] in H.
    assert (HG : forall x, In x [u2; u1] -> u_good x /\ u_below x).
    { intros x [<-|[<-|[]]].
      - split; [exact (urange_of_req_good checks r2 u2 W2 E2)|exact (urange_below checks r2 u2 Hb2 E2)].
      - split; [exact (urange_of_req_good checks r1 u1 W1 E1)|exact (urange_below checks r1 u1 Hb1 E1)]. }
    assert (K : ranges_of_uranges checks [u2; u1] <> Err).
    { unfold ranges_of_uranges.
      assert (Eo' : any_overlap [u2; u1] = false) by (cbn; rewrite Eo; reflexivity). rewrite Eo'.
      apply any_overlap_false in Eo'.
      assert (HG' : forall x, In x [u2; u1] -> u_good x) by (intros; apply HG; assumption).
      destruct (sort_ranges [u2; u1]) as [s| |] eqn:Es.
      - cbn [obind]. pose proof (sort_ranges_perm _ _ Es) as Hp. pose proof (sort_ranges_sorted _ _ HG' Eo' Es) as Hs.
        destruct s as [|r l]; [discriminate|].
        assert (Hin : forall u, In u (r :: l) -> In u [u2; u1]) by (intros u Hu; eapply Permutation_in; [symmetry; exact Hp|exact Hu]).
        assert (Hch : chain r l).
        { apply sorted_chain; auto. eapply disjoint_all_perm; eauto. }
        destruct (first_range_total checks r) as [f ->]; [apply HG, Hin; left; reflexivity|].
        destruct (gaps_total checks l r) as [gs ->]; auto.
        + apply HG, Hin; left; reflexivity.
        + intros u Hu. apply HG, Hin. right. exact Hu.
        + discriminate.
      - exfalso. cbn in Es. destruct (sort_cmp u2 u1) as [[]|]; discriminate.
      - discriminate. }
    apply K. cbn. rewrite Eo. cbn [orb]. cbn [obind] in H.
    match type of H with obind ?x _ = Err => destruct x as [y| |] eqn:EE; [discriminate H|reflexivity|discriminate H] end.
Qed.

Lemma FOP_In2 {A} (R : A -> A -> Prop) l1 l2 a b :
  ForallOrdPairs R (l1 ++ l2) -> In a l1 -> In b l2 -> R a b.
Proof.
  intros H Ha Hb. apply in_split in Ha as (x & y & ->). apply in_split in Hb as (z & w & ->).
  rewrite <- !app_assoc in H. cbn [app] in H.
  replace (y ++ z ++ b :: w) with ((y ++ z) ++ b :: w) in H by (rewrite <- app_assoc; reflexivity).
  eapply FOP_split; eauto.
Qed.

(** Accepted requirement lists have pairwise disjoint meanings. *)
Lemma accepted_disjoint checks p u vs l1 r1 l2 r2 l3 v :
  reqs_wf (p ++ u) -> no_silent_overflow checks (p ++ u) ->
  versions_new checks p u = Ok vs -> p ++ u = l1 ++ r1 :: l2 ++ r2 :: l3 -> version_wf v = true ->
  ~ (req_denotes r1 v /\ req_denotes r2 v).
Proof.
  intros Hwf Hno H El Hv [H1 H2]. apply version_wf_core in Hv.
  assert (Hnil : versions_new checks (p ++ u) [] = Ok (mkVersions (p ++ u) [])).
  { destruct (versions_perm checks p u (p ++ u) [] vs Hwf) as (vs' & E & _); auto.
    - rewrite app_nil_r. apply Permutation_refl.
    - rewrite E. unfold versions_new in E. cbn [unaffected_to_osv_ranges] in E.
      destruct (unaffected_to_osv_ranges checks [] (p ++ u)); simpl in E; congruence. }
  clear H. rewrite El in *. clear El p u.
  set (p := l1 ++ r1 :: l2 ++ r2 :: l3) in *.
  unfold versions_new, unaffected_to_osv_ranges in Hnil. cbn [omap obind] in Hnil.
  destruct (omap (urange_of_req checks) p) as [ps| |] eqn:Ep; simpl in Hnil; try discriminate.
  unfold p in Ep. apply omap_app_inv in Ep as (w1 & wr & Ew1 & Ewr & ->).
  cbn [omap] in Ewr. destruct (urange_of_req checks r1) as [a| |] eqn:Ea; cbn [obind] in Ewr; try discriminate.
  destruct (omap (urange_of_req checks) (l2 ++ r2 :: l3)) as [wr'| |] eqn:E2; cbn [obind] in Ewr; try discriminate.
  injection Ewr as <-. apply omap_app_inv in E2 as (w2 & wr2 & Ew2 & Ewr2 & ->).
  cbn [omap] in Ewr2. destruct (urange_of_req checks r2) as [b| |] eqn:Eb; cbn [obind] in Ewr2; try discriminate.
  destruct (omap (urange_of_req checks) l3) as [w3| |] eqn:E3; cbn [obind] in Ewr2; try discriminate.
  injection Ewr2 as <-.
  assert (In r1 p) as Hr1 by (unfold p; apply in_or_app; right; left; reflexivity).
  assert (In r2 p) as Hr2 by (unfold p; apply in_or_app; right; right; apply in_or_app; right; left; reflexivity).
  assert (S1 : forall c, In c r1 -> comp_small checks c).
  { intros c Hc. eapply silent_small; [exact Hno|exact Hr1|exact Hc]. }
  destruct (urange_of_req_spec checks r1 a (Hwf r1 Hr1) S1 Ea) as (G1 & _ & D1).
  assert (S2 : forall c, In c r2 -> comp_small checks c).
  { intros c Hc. eapply silent_small; [exact Hno|exact Hr2|exact Hc]. }
  destruct (urange_of_req_spec checks r2 b (Hwf r2 Hr2) S2 Eb) as (G2 & _ & D2).
  assert (Ho : overlaps a b = false).
  { unfold ranges_of_uranges in Hnil.
    destruct (w1 ++ a :: w2 ++ b :: w3) eqn:EL; [destruct w1; discriminate|]. rewrite <- EL in Hnil.
    destruct (any_overlap (w1 ++ a :: w2 ++ b :: w3)) eqn:EO; [discriminate|].
    apply any_overlap_false in EO. exact (FOP_split _ _ _ _ _ _ EO). }
  apply (overlaps_false_disjoint a b v G1 G2 Ho). rewrite (D1 v Hv), (D2 v Hv). auto.
Qed.

(** * C10 *)
Lemma empty_lists checks v :
  exists vs, versions_new checks [] [] = Ok vs /\ is_vulnerable checks vs v = Ok true /\
    ranges_for_advisory checks vs = Ok [mkOsv None None].
Proof. exists (mkVersions [] []). repeat split. Qed.

(** Below u64::MAX the build profile does not matter. *)
Lemma u64_succ_indep c1 c2 x : x < u64_max -> u64_succ c1 x = u64_succ c2 x.
Proof. intros H. rewrite !u64_succ_small by exact H. reflexivity. Qed.
