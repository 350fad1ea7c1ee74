From Coq Require Import List NArith Ascii String Bool Lia Permutation Sorted Arith.
From Verif Require Import Base SemverModel SemverFacts OsvModel OsvSpec OsvProofs OsvProofs2.
Import ListNotations.
Local Open Scope N_scope.

(** * Agreement with Cargo's matching *)
Lemma written_core c : core_of (written c) =
  (c_major c, (match c_minor c with Some m => m | None => 0 end,
    (match c_patch c with Some p => p | None => 0 end, c_pre c))).
Proof. reflexivity. Qed.

Lemma pre_eqb_eq a b : pre_eqb a b = true <-> a = b.
Proof.
  unfold pre_eqb. rewrite <- (cmp_eq_iff _ pre_cmp_laws). destruct (pre_cmp a b); split; congruence.
Qed.
Lemma pre_nil_max p : pre_cmp [] p <> Lt.
Proof. destruct p; discriminate. Qed.
Lemma pre_nil_max' p : pre_cmp p [] <> Gt.
Proof. destruct p; discriminate. Qed.

Lemma ccmp_lt_intro a b p q a' b' p' q' :
  a < a' \/ (a = a' /\ (b < b' \/ (b = b' /\ (p < p' \/ (p = p' /\ pre_cmp q q' = Lt))))) <->
  ccmp (a, (b, (p, q))) (a', (b', (p', q'))) = Lt.
Proof.
  unfold core_cmp, pair_cmp. cbn [fst snd].
  rewrite !then_cmp_lt, !N.compare_lt_iff, !N.compare_eq_iff. tauto.
Qed.
Lemma ccmp_gt_intro a b p q a' b' p' q' :
  a' < a \/ (a = a' /\ (b' < b \/ (b = b' /\ (p' < p \/ (p = p' /\ pre_cmp q q' = Gt))))) <->
  ccmp (a, (b, (p, q))) (a', (b', (p', q'))) = Gt.
Proof.
  unfold core_cmp, pair_cmp. cbn [fst snd].
  rewrite !then_cmp_gt, !N.compare_gt_iff, !N.compare_eq_iff. tauto.
Qed.

Ltac breakb := repeat match goal with
  | H : _ && _ = true |- _ => apply andb_prop in H as [? ?]
  | H : _ || _ = true |- _ => apply orb_prop in H as [?|?]
  | H : (_ =? _) = true |- _ => apply N.eqb_eq in H
  | H : (_ =? _) = false |- _ => apply N.eqb_neq in H
  | H : (_ <? _) = true |- _ => apply N.ltb_lt in H
  | H : (_ <=? _) = true |- _ => apply N.leb_le in H
  | H : negb ?x = true |- _ => apply negb_true_iff in H
  | H : negb ?x = false |- _ => apply negb_false_iff in H
  | H : context [if negb (?x =? ?y) then _ else _] |- _ => destruct (N.eqb_spec x y); simpl negb in H; cbv iota in H
  | H : context [if (?x <? ?y) then _ else _] |- _ => destruct (N.ltb_spec x y); cbv iota in H
  | H : pre_eqb _ _ = true |- _ => apply pre_eqb_eq in H
  end.

(** split a lexicographic disjunction and close the arithmetic cases *)
Ltac lexG G := destruct G as [G|[_ [G|[_ [G|[_ G]]]]]]; try lia; try assumption; try congruence.

Lemma wf_partial_pre c : comparator_wf c = true -> c_patch c = None -> c_pre c = [].
Proof.
  unfold comparator_wf. rewrite !andb_true_iff. intros ((_ & H) & _) E. rewrite E in H.
  destruct (c_pre c); [reflexivity|discriminate].
Qed.
Lemma wf_minor_patch c p : comparator_wf c = true -> c_patch c = Some p -> exists m, c_minor c = Some m.
Proof.
  unfold comparator_wf. rewrite !andb_true_iff. intros (((_ & H) & _) & _) E. rewrite E in H.
  destruct (c_minor c); [eauto|discriminate].
Qed.

Lemma matches_greater_denotes c v : comparator_wf c = true ->
  matches_greater c v = true -> prec_lt (written c) v.
Proof.
  intros Hwf H. unfold prec_lt. rewrite prec_core, written_core. unfold core_of.
  apply ccmp_lt_intro. unfold matches_greater in H.
  destruct (N.eqb_spec (major v) (c_major c)); simpl in H; [|breakb; lia].
  destruct (c_minor c) as [m|]; [|discriminate].
  destruct (N.eqb_spec (minor v) m); simpl in H; [|breakb; lia].
  destruct (c_patch c) as [p|]; [|discriminate].
  destruct (N.eqb_spec (patch v) p); simpl in H; [|breakb; lia].
  unfold pre_gtb in H. destruct (pre_cmp (pre v) (c_pre c)) eqn:E; try discriminate.
  apply (cmp_gt_lt _ pre_cmp_laws) in E. right. split; [lia|]. right. split; [lia|]. right.
  split; [lia|exact E].
Qed.

Lemma matches_less_denotes c v : comparator_wf c = true ->
  matches_less c v = true -> prec_lt v (written c).
Proof.
  intros Hwf H. unfold prec_lt. rewrite prec_core, written_core. unfold core_of.
  apply ccmp_lt_intro. unfold matches_less in H.
  destruct (N.eqb_spec (major v) (c_major c)); simpl in H; [|breakb; lia].
  destruct (c_minor c) as [m|]; [|discriminate].
  destruct (N.eqb_spec (minor v) m); simpl in H; [|breakb; lia].
  destruct (c_patch c) as [p|]; [|discriminate].
  destruct (N.eqb_spec (patch v) p); simpl in H; [|breakb; lia].
  unfold pre_ltb in H. destruct (pre_cmp (pre v) (c_pre c)) eqn:E; try discriminate.
  right. split; [lia|]. right. split; [lia|]. right. split; [lia|reflexivity].
Qed.

Lemma matches_exact_le c v : comparator_wf c = true ->
  matches_exact c v = true -> prec_le (written c) v.
Proof.
  intros Hwf H. unfold prec_le. rewrite prec_core, written_core. unfold core_of.
  rewrite <- ccmp_gt_intro. unfold matches_exact in H. breakb.
  subst. rewrite <- H0.
  intros [G|[_ G]]; [lia|].
  destruct (c_minor c) as [m|]; breakb; destruct (c_patch c) as [p|]; breakb;
    rewrite (cmp_refl _ pre_cmp_laws) in G; destruct G as [G|[_ [G|[_ G]]]]; try lia; discriminate.
Qed.

Lemma matches_exact_eq c v : comparator_wf c = true -> fully_written c ->
  matches_exact c v = true -> prec_eq v (written c).
Proof.
  intros Hwf (m & p & Em & Ep) H. unfold prec_eq. rewrite prec_core. apply (cmp_eq_iff _ CL).
  rewrite written_core. unfold core_of. unfold matches_exact in H. rewrite Em, Ep in *. breakb. congruence.
Qed.

Lemma full_or_partial c : fully_written c \/ c_patch c = None \/ comparator_wf c = false.
Proof.
  destruct (c_patch c) as [p|] eqn:Ep; [|tauto].
  destruct (comparator_wf c) eqn:E; [|tauto].
  destruct (wf_minor_patch c p E Ep) as [m Em]. left. exists m, p. auto.
Qed.

Lemma matches_denotes c v : comparator_wf c = true -> unambiguous c -> c_op c <> OpWildcard ->
  (c_op c = OpCaret -> pre v = [] \/ fully_written c) ->
  matches_impl c v = true -> comparator_denotes c v.
Proof.
  intros Hwf Hun Hw Hca H. unfold matches_impl in H. unfold comparator_denotes. unfold unambiguous in Hun.
  destruct (c_op c).
  - apply matches_exact_eq; auto.
  - apply matches_greater_denotes; auto.
  - apply orb_prop in H as [H|H]; [apply matches_exact_le; auto|].
    apply (clt_le prec_cmp). apply matches_greater_denotes; auto.
  - apply matches_less_denotes; auto.
  - apply orb_prop in H as [H|H].
    + apply matches_exact_eq in H; auto. unfold prec_le, prec_eq in *. congruence.
    + apply (clt_le prec_cmp). apply matches_less_denotes; auto.
  - (* tilde *)
    unfold matches_tilde in H. unfold tilde_compatible, prec_le. rewrite prec_core, written_core.
    unfold core_of. rewrite <- ccmp_gt_intro.
    destruct (N.eqb_spec (major v) (c_major c)) as [E|E]; simpl in H; [|discriminate].
    assert (HG : forall x, pre_geb (pre v) x = true -> pre_cmp x (pre v) <> Gt).
    { unfold pre_geb. intros x G1 G2. apply (cmp_gt_lt _ pre_cmp_laws) in G2. rewrite G2 in G1. discriminate. }
    destruct (c_minor c) as [m|] eqn:Em.
    + destruct (N.eqb_spec (minor v) m) as [E'|E']; simpl in H; [|discriminate].
      split; [|split; [exact E|intros k Hk; congruence]].
      destruct (c_patch c) as [p|] eqn:Ep.
      * destruct (N.eqb_spec (patch v) p) as [E2|E2]; simpl in H; breakb; intros G; [|lia].
        apply (HG _ H). lexG G.
      * intros G. apply (HG _ H). lexG G.
    + split; [|split; [exact E|intros k Hk; discriminate]].
      destruct (c_patch c) as [p|] eqn:Ep.
      * destruct (wf_minor_patch c p Hwf Ep) as [m Em']. congruence.
      * intros G. apply (HG _ H). lexG G.
  - (* caret *)
    specialize (Hca eq_refl).
    unfold matches_caret in H. unfold caret_compatible, prec_le. rewrite prec_core, written_core.
    unfold core_of. rewrite <- ccmp_gt_intro.
    destruct (N.eqb_spec (major v) (c_major c)) as [E|E]; simpl in H; [|discriminate].
    assert (HP : c_patch c = None -> pre v = []).
    { intros Ep. destruct Hca as [?|(m & p & _ & Ep')]; [assumption|congruence]. }
    destruct (c_minor c) as [m|] eqn:Em.
    + destruct (c_patch c) as [p|] eqn:Ep.
      * assert (HG : pre_geb (pre v) (c_pre c) = true -> pre_cmp (c_pre c) (pre v) <> Gt).
        { unfold pre_geb. intros G1 G2. apply (cmp_gt_lt _ pre_cmp_laws) in G2. rewrite G2 in G1. discriminate. }
        destruct (N.ltb_spec 0 (c_major c)).
        -- split; [|split; [exact E|intros; lia]].
           destruct (N.eqb_spec (minor v) m); simpl in H; breakb; intros G; try lia.
           apply (HG H). lexG G.
        -- destruct (N.ltb_spec 0 m).
           ++ destruct (N.eqb_spec (minor v) m); simpl in H; [|discriminate].
              split; [|split; [exact E|]].
              ** destruct (N.eqb_spec (patch v) p); simpl in H; breakb; intros G; try lia.
                 apply (HG H). lexG G.
              ** intros _ k Hk. injection Hk as <-. split; [assumption|intros; lia].
           ++ destruct (N.eqb_spec (minor v) m); simpl in H; [|discriminate].
              destruct (N.eqb_spec (patch v) p); simpl in H; [|discriminate].
              split; [|split; [exact E|]].
              ** intros G. apply (HG H). lexG G.
              ** intros _ k Hk. injection Hk as <-. split; [assumption|].
                 intros _ k Hk. congruence.
      * rewrite (wf_partial_pre c Hwf Ep), (HP eq_refl).
        assert (HN : pre_cmp [] [] <> Gt) by discriminate.
        destruct (N.ltb_spec 0 (c_major c)); breakb.
        -- split; [intros G; apply HN; lexG G|]. split; [exact E|intros; lia].
        -- split; [intros G; apply HN; lexG G|]. split; [exact E|]. intros _ k Hk. injection Hk as <-.
           split; [assumption|]. intros; discriminate.
    + destruct (c_patch c) as [p|] eqn:Ep.
      { destruct (wf_minor_patch c p Hwf Ep) as [m Em']. congruence. }
      rewrite (wf_partial_pre c Hwf Ep), (HP eq_refl).
      assert (HN : pre_cmp [] [] <> Gt) by discriminate.
      split; [intros G; apply HN; lexG G|]. split; [exact E|]. intros; discriminate.
  - congruence.
Qed.

Lemma denotes_matches c v : comparator_wf c = true -> unambiguous c -> pre v = [] ->
  comparator_denotes c v -> matches_impl c v = true.
Proof.
  intros Hwf Hun Hv H. unfold comparator_denotes in H. unfold matches_impl. unfold unambiguous in Hun.
  assert (HEQ : prec_eq v (written c) -> matches_exact c v = true).
  { unfold prec_eq. rewrite prec_core. intros HE. apply (cmp_eq _ CL) in HE. rewrite written_core in HE.
    unfold core_of in HE. injection HE as H1 H2 H3 H4.
    unfold matches_exact. rewrite H1, H4, N.eqb_refl.
    rewrite (proj2 (pre_eqb_eq _ _) eq_refl), andb_true_r. simpl.
    destruct (c_minor c), (c_patch c); rewrite ?H2, ?H3, ?N.eqb_refl; reflexivity. }
  assert (HGT : fully_written c -> prec_lt (written c) v -> matches_greater c v = true).
  { intros (m & p & Em & Ep). unfold prec_lt. rewrite prec_core, written_core, Em, Ep.
    unfold core_of. rewrite <- ccmp_lt_intro. unfold matches_greater. rewrite Em, Ep. intros HE.
    destruct (N.eqb_spec (major v) (c_major c)); simpl; [|apply N.ltb_lt; lia].
    destruct (N.eqb_spec (minor v) m); simpl; [|apply N.ltb_lt; lia].
    destruct (N.eqb_spec (patch v) p); simpl; [|apply N.ltb_lt; lia].
    assert (pre_cmp (c_pre c) (pre v) = Lt) as G by lexG HE.
    unfold pre_gtb. apply (cmp_lt_gt _ pre_cmp_laws) in G. rewrite G. reflexivity. }
  assert (HLT : prec_lt v (written c) -> matches_less c v = true).
  { unfold prec_lt. rewrite prec_core, written_core. unfold core_of. rewrite <- ccmp_lt_intro.
    rewrite Hv. pose proof (pre_nil_max (c_pre c)) as Hnm. unfold matches_less. intros HE.
    destruct (N.eqb_spec (major v) (c_major c)); simpl; [|apply N.ltb_lt; lia].
    destruct (c_minor c) as [m|] eqn:Em.
    2: { exfalso. destruct (c_patch c) as [p|] eqn:Ep; [|lexG HE].
         destruct (wf_minor_patch c p Hwf Ep). congruence. }
    destruct (N.eqb_spec (minor v) m); simpl; [|apply N.ltb_lt; lia].
    destruct (c_patch c) as [p|]; [|exfalso; lexG HE].
    destruct (N.eqb_spec (patch v) p); simpl; [|apply N.ltb_lt; lia]. exfalso. lexG HE. }
  assert (HGEB : pre_geb (pre v) (c_pre c) = true).
  { rewrite Hv. unfold pre_geb. pose proof (pre_nil_max (c_pre c)). destruct (pre_cmp [] (c_pre c)); congruence. }
  destruct (c_op c) eqn:Eop.
  - auto.
  - auto.
  - (* >= *)
    unfold prec_le in H. rewrite prec_core, written_core in H. unfold core_of in H.
    rewrite <- ccmp_gt_intro in H.
    destruct (c_patch c) as [p|] eqn:Ep.
    + destruct (wf_minor_patch c p Hwf Ep) as [m Em]. rewrite Em in *.
      destruct (ccmp (core_of v) (core_of (written c))) eqn:E.
      * rewrite HEQ; [reflexivity|]. exact E.
      * exfalso. rewrite written_core in E. unfold core_of in E. rewrite Em, Ep in E.
        apply ccmp_lt_intro in E. apply H.
        destruct E as [E|[E1 [E|[E2 [E|[E3 E4]]]]]]; try lia.
        apply (cmp_lt_gt _ pre_cmp_laws) in E4.
        right; split; [lia|]. right; split; [lia|]. right; split; [lia|exact E4].
      * rewrite HGT; [apply orb_true_r|exists m, p; auto|]. unfold prec_lt.
        rewrite prec_core. apply (cmp_gt_lt _ CL). exact E.
    + pose proof (wf_partial_pre c Hwf Ep) as Hp.
      destruct (c_minor c) as [m|] eqn:Em.
      * destruct (N.eqb_spec (major v) (c_major c)) as [E1|E1].
        -- destruct (N.eqb_spec (minor v) m) as [E2|E2].
           ++ unfold matches_exact. rewrite Em, Ep, Hp, Hv, E1, E2, !N.eqb_refl. reflexivity.
           ++ apply orb_true_intro. right. unfold matches_greater. rewrite E1, N.eqb_refl, Em. simpl.
              destruct (N.eqb_spec (minor v) m); [contradiction|]. simpl. apply N.ltb_lt. lia.
        -- apply orb_true_intro. right. unfold matches_greater.
           destruct (N.eqb_spec (major v) (c_major c)); [contradiction|]. simpl. apply N.ltb_lt. lia.
      * destruct (N.eqb_spec (major v) (c_major c)) as [E1|E1].
        -- unfold matches_exact. rewrite Em, Ep, Hp, Hv, E1, !N.eqb_refl. reflexivity.
        -- apply orb_true_intro. right. unfold matches_greater.
           destruct (N.eqb_spec (major v) (c_major c)); [contradiction|]. simpl. apply N.ltb_lt. lia.
  - auto.
  - unfold prec_le in H. destruct (prec_cmp v (written c)) eqn:E; [|rewrite (HLT E); apply orb_true_r|congruence].
    rewrite (HEQ E). reflexivity.
  - (* tilde *)
    destruct H as [Hle [H1 H2]]. unfold prec_le in Hle. rewrite prec_core, written_core in Hle.
    unfold core_of in Hle. rewrite <- ccmp_gt_intro in Hle.
    unfold matches_tilde. rewrite H1, N.eqb_refl. simpl.
    destruct (c_minor c) as [m|] eqn:Em.
    + rewrite (H2 m eq_refl), N.eqb_refl. simpl. destruct (c_patch c) as [p|]; [|exact HGEB].
      specialize (H2 m eq_refl).
      destruct (N.eqb_spec (patch v) p); simpl; [exact HGEB|]. apply N.ltb_lt. lia.
    + destruct (c_patch c) as [p|] eqn:Ep; [|exact HGEB].
      destruct (wf_minor_patch c p Hwf Ep) as [m Em']. congruence.
  - (* caret *)
    destruct H as [Hle [H1 H2]]. unfold prec_le in Hle. rewrite prec_core, written_core in Hle.
    unfold core_of in Hle. rewrite <- ccmp_gt_intro in Hle.
    unfold matches_caret. rewrite H1, N.eqb_refl. simpl.
    destruct (c_minor c) as [m|] eqn:Em; [|reflexivity].
    destruct (c_patch c) as [p|] eqn:Ep.
    + destruct (N.ltb_spec 0 (c_major c)) as [Hm|Hm].
      * destruct (N.eqb_spec (minor v) m); simpl; [|apply N.ltb_lt; lia].
        destruct (N.eqb_spec (patch v) p); simpl; [exact HGEB|apply N.ltb_lt; lia].
      * assert (Hz : c_major c = 0) by lia. destruct (H2 Hz m eq_refl) as [H3 H4].
        destruct (N.ltb_spec 0 m) as [Hm'|Hm'].
        -- rewrite H3, N.eqb_refl. simpl.
           destruct (N.eqb_spec (patch v) p); simpl; [exact HGEB|apply N.ltb_lt; lia].
        -- assert (Hz' : m = 0) by lia. rewrite (H4 Hz' p eq_refl), H3, !N.eqb_refl. simpl. exact HGEB.
    + destruct (N.ltb_spec 0 (c_major c)) as [Hm|Hm].
      * apply N.leb_le. lia.
      * assert (Hz : c_major c = 0) by lia. destruct (H2 Hz m eq_refl) as [H3 H4].
        rewrite H3. apply N.eqb_refl.
  - destruct H.
Qed.
