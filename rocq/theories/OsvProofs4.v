(** Acceptance, panics, overlap completeness and agreement with Cargo (C04, C06, C09, C10, C11). *)
From Coq Require Import List NArith Ascii String Bool Lia Permutation Sorted Arith.
From Verif Require Import Base SemverModel SemverFacts OsvModel OsvSpec OsvProofs OsvProofs2 OsvProofs3.
Import ListNotations.
Local Open Scope N_scope.

(** * Shapes of accepted requirements *)
Definition lo_bound (c : comparator) : bound :=
  match c_op c with OpGreater => Exclusive (written c) | _ => Inclusive (written c) end.
Definition hi_bound (c : comparator) : bound :=
  match c_op c with OpLess => Exclusive (written c) | _ => Inclusive (written c) end.

Definition single_range (checks : bool) (c : comparator) (u : urange) : Prop :=
  match c_op c with
  | OpGreater | OpGreaterEq => u = mkURange (lo_bound c) Unbounded
  | OpLess | OpLessEq => u = mkURange Unbounded (hi_bound c)
  | OpExact => u = mkURange (Inclusive (written c)) (Inclusive (written c))
  | OpCaret => exists e, caret_end checks c = Ok e /\ u = mkURange (Inclusive (written c)) (Exclusive e)
  | OpTilde => exists e, tilde_end checks c = Ok e /\ u = mkURange (Inclusive (written c)) (Exclusive e)
  | OpWildcard => False
  end.

Definition raw_shape (checks : bool) (r : version_req) (u : urange) : Prop :=
  (r = [] /\ u = mkURange Unbounded Unbounded) \/
  (exists c, r = [c] /\ single_range checks c u) \/
  (exists lo hi, (r = [lo; hi] \/ r = [hi; lo]) /\ lower_op (c_op lo) = true /\ upper_op (c_op hi) = true /\
     u = mkURange (lo_bound lo) (hi_bound hi)).

Lemma urange_shape checks r u :
  urange_of_req checks r = Ok u <->
  raw_shape checks r u /\ less_or_equal (u_start u) (u_end u) = true.
Proof.
  unfold urange_of_req, raw_shape. destruct r as [|a [|b [|c r]]].
  - cbn. split.
    + intros H; injection H as <-. auto.
    + intros [[[_ ->]|[(c & H & _)|(lo & hi & [H|H] & _)]] _]; try discriminate. reflexivity.
  - cbn [List.length Nat.ltb Nat.leb comp_loop]. unfold comp_step, single_range, lo_bound, hi_bound.
    rewrite !comp_to_ver_written. split.
    + intros H. cut (single_range checks a u /\ less_or_equal (u_start u) (u_end u) = true).
      { unfold single_range, lo_bound, hi_bound. intros [H1 H2]. split; [|exact H2]. right. left. exists a. auto. }
      unfold single_range, lo_bound, hi_bound.
      destruct (c_op a); cbn [Nat.eqb is_unbounded obind] in H; try discriminate H;
      try match type of H with context [tilde_end ?k ?x] => destruct (tilde_end k x) as [e| |]; cbn [obind] in H; try discriminate H end;
      try match type of H with context [caret_end ?k ?x] => destruct (caret_end k x) as [e| |]; cbn [obind] in H; try discriminate H end;
      cbn [fst snd] in H; unfold urange_new in H;
        match type of H with (if ?d then _ else _) = _ => destruct d eqn:El; [|discriminate H] end;
        injection H as <-; cbn [u_start u_end]; split; eauto.
    + intros [[[H _]|[(c & H & HS)|(lo & hi & [H|H] & _)]] Hle]; try discriminate. injection H as <-.
      destruct (c_op a); cbn [Nat.eqb is_unbounded obind]; try contradiction.
      all: try (destruct HS as (e & -> & ->); cbn [obind]). all: try subst u.
      all: cbn [fst snd u_start u_end] in *; unfold urange_new; rewrite Hle; reflexivity.
  - cbn [List.length Nat.ltb Nat.leb comp_loop]. split.
    + intros H. cut ((exists lo hi, ([a; b] = [lo; hi] \/ [a; b] = [hi; lo]) /\ lower_op (c_op lo) = true /\
         upper_op (c_op hi) = true /\ u = mkURange (lo_bound lo) (hi_bound hi)) /\
         less_or_equal (u_start u) (u_end u) = true).
      { intros [H1 H2]. split; [|exact H2]. right. right. exact H1. }
      unfold comp_step in H.
      destruct (c_op a) eqn:Ea; cbn [Nat.eqb is_unbounded obind] in H; try discriminate H;
      destruct (c_op b) eqn:Eb; cbn [Nat.eqb is_unbounded obind] in H; try discriminate H;
      cbn [fst snd] in H; rewrite !comp_to_ver_written in H; unfold urange_new in H;
        match type of H with (if ?d then _ else _) = _ => destruct d eqn:El; [|discriminate H] end;
        injection H as <-; (split; [|exact El]).
      all: first [ exists a, b; unfold lo_bound, hi_bound; rewrite Ea, Eb; solve [cbn; auto 6]
                 | exists b, a; unfold lo_bound, hi_bound; rewrite Ea, Eb; solve [cbn; auto 6] ].
    + intros [[[H _]|[(c & H & HS)|(lo & hi & H & Hlo & Hhi & Hu)]] Hle]; try discriminate.
      subst u. cbn [u_start u_end] in Hle. unfold comp_step. rewrite !comp_to_ver_written.
      unfold lo_bound, hi_bound in *.
      destruct H as [H|H]; injection H as -> ->;
        destruct (c_op lo), (c_op hi); try discriminate Hlo; try discriminate Hhi;
        cbn [is_unbounded obind fst snd]; unfold urange_new;
        match goal with |- (if ?d then _ else _) = _ => replace d with true by (symmetry; exact Hle) end; reflexivity.
  - cbn [List.length Nat.ltb Nat.leb]. split; [discriminate|].
    intros [[[H _]|[(d & H & HS)|(lo & hi & [H|H] & _)]] Hle]; discriminate.
Qed.

Lemma accepted_ops checks r u c : urange_of_req checks r = Ok u -> In c r ->
  c_op c <> OpWildcard /\ (c_op c = OpCaret \/ c_op c = OpTilde \/ c_op c = OpExact -> r = [c]).
Proof.
  intros H Hc. apply urange_shape in H as [[[-> _]|[(d & -> & HS)|(lo & hi & Hr & Hlo & Hhi & _)]] _].
  - destruct Hc.
  - destruct Hc as [->|[]]. split; [|reflexivity]. unfold single_range in HS. intros E. rewrite E in HS. exact HS.
  - assert (c = lo \/ c = hi) as [->| ->].
    { destruct Hr as [-> | ->]; destruct Hc as [<-|[<-|[]]]; auto. }
    + destruct (c_op lo); try discriminate Hlo; (split; [discriminate|intros [?|[?|?]]; discriminate]).
    + destruct (c_op hi); try discriminate Hhi; (split; [discriminate|intros [?|[?|?]]; discriminate]).
Qed.

Lemma versions_new_conv checks p u vs r : versions_new checks p u = Ok vs -> In r (p ++ u) ->
  exists w, urange_of_req checks r = Ok w.
Proof.
  unfold versions_new, unaffected_to_osv_ranges. intros H Hr.
  destruct (omap (urange_of_req checks) u) as [us| |] eqn:Eu; simpl in H; try discriminate.
  destruct (omap (urange_of_req checks) p) as [ps| |] eqn:Ep; simpl in H; try discriminate.
  apply omap_ok in Eu as [U _]. apply omap_ok in Ep as [P _].
  apply in_app_or in Hr as [Hr|Hr]; [apply P in Hr|apply U in Hr]; destruct Hr as (w & _ & ?); eauto.
Qed.

(** * C04 *)
Lemma matches_req_denotes checks r u v : req_wf r = true -> (forall c, In c r -> unambiguous c) ->
  urange_of_req checks r = Ok u -> req_matches r v = true -> req_denotes r v.
Proof.
  intros Hwf Hun Hu Hm c Hc. unfold req_matches in Hm. apply andb_prop in Hm as [Hall Hpre].
  rewrite forallb_forall in Hall. unfold req_wf in Hwf. rewrite forallb_forall in Hwf.
  destruct (accepted_ops checks r u c Hu Hc) as [Hw Hs].
  apply matches_denotes; auto.
  intros Eop. destruct (pre v) eqn:Ev; [auto|right].
  assert (r = [c]) as -> by (apply Hs; auto).
  cbn in Hpre. rewrite orb_false_r in Hpre. unfold pre_is_compatible in Hpre.
  rewrite !andb_true_iff in Hpre. destruct Hpre as (((_ & Hmi) & Hpa) & _).
  destruct (c_minor c) as [m|] eqn:Em; [|discriminate]. destruct (c_patch c) as [q|] eqn:Eq; [|discriminate].
  exists m, q. auto.
Qed.

Lemma cargo_match_not_vulnerable checks p u vs r v :
  reqs_wf (p ++ u) -> no_silent_overflow checks (p ++ u) -> unambiguous_reqs (p ++ u) ->
  version_wf v = true -> versions_new checks p u = Ok vs ->
  In r (p ++ u) -> req_matches r v = true -> is_vulnerable checks vs v = Ok false.
Proof.
  intros Hwf Hno Hun Hv Hvs Hr Hm.
  destruct (is_vulnerable_correct checks p u vs v Hwf Hno Hv Hvs) as (b & Hb & Sb).
  destruct b; [|exact Hb]. exfalso. apply (proj1 Sb eq_refl).
  exists r. split; [exact Hr|].
  destruct (versions_new_conv _ _ _ _ _ Hvs Hr) as [w Hw].
  eapply matches_req_denotes; eauto.
Qed.

Lemma release_vulnerable_iff checks p u vs v :
  reqs_wf (p ++ u) -> no_silent_overflow checks (p ++ u) -> unambiguous_reqs (p ++ u) ->
  version_wf v = true -> pre v = [] -> versions_new checks p u = Ok vs ->
  is_vulnerable checks vs v = Ok (negb (existsb (fun r => req_matches r v) (p ++ u))).
Proof.
  intros Hwf Hno Hun Hv Hpre Hvs.
  destruct (existsb (fun r => req_matches r v) (p ++ u)) eqn:E.
  - apply existsb_exists in E as (r & Hr & Hm). simpl. eapply cargo_match_not_vulnerable; eauto.
  - destruct (is_vulnerable_correct checks p u vs v Hwf Hno Hv Hvs) as (b & Hb & Sb).
    destruct b; [exact Hb|]. exfalso.
    assert (HH : ~ ~ declared_safe (p ++ u) v) by (intros G; apply Sb in G; discriminate).
    apply HH. intros (r & Hr & Hd).
    assert (req_matches r v = true) as Hm.
    { unfold req_matches. rewrite Hpre, andb_true_r. apply forallb_forall. intros c Hc.
      apply denotes_matches; auto.
      - specialize (Hwf r Hr). unfold req_wf in Hwf. rewrite forallb_forall in Hwf. auto.
      - eapply Hun; eauto. }
    assert (existsb (fun r => req_matches r v) (p ++ u) = true); [|congruence].
    apply existsb_exists. eauto.
Qed.

(** * No overflow below u64::MAX *)
Lemma u64_succ_small checks x : x < u64_max -> u64_succ checks x = Ok (x + 1).
Proof. intros H. unfold u64_succ. destruct (N.eqb_spec x u64_max); [lia|reflexivity]. Qed.

Definition comp_below (c : comparator) : Prop :=
  c_major c < u64_max /\ (forall m, c_minor c = Some m -> m < u64_max) /\
  (forall p, c_patch c = Some p -> p < u64_max).
Lemma comp_below_small checks c : comp_below c -> comp_small checks c.
Proof. intros H. right. exact H. Qed.

Lemma caret_end_total checks c : comparator_wf c = true -> comp_below c -> exists e, caret_end checks c = Ok e.
Proof.
  intros Hwf (H1 & H2 & H3). unfold caret_end. rewrite u64_succ_small by exact H1.
  destruct (c_major c =? 0); [|eexists; reflexivity].
  destruct (c_minor c) as [m|] eqn:Em; destruct (c_patch c) as [p|] eqn:Ep.
  - destruct m as [|m].
    + rewrite u64_succ_small by auto. eexists; reflexivity.
    + rewrite u64_succ_small by auto. eexists; reflexivity.
  - destruct m as [|m].
    + rewrite u64_succ_small by auto. eexists; reflexivity.
    + rewrite u64_succ_small by auto. eexists; reflexivity.
  - destruct (wf_minor_patch c p Hwf Ep) as [m Em']. congruence.
  - eexists; reflexivity.
Qed.
Lemma tilde_end_total checks c : comparator_wf c = true -> comp_below c -> exists e, tilde_end checks c = Ok e.
Proof.
  intros Hwf (H1 & H2 & H3). unfold tilde_end. rewrite u64_succ_small by exact H1.
  destruct (c_minor c) as [m|] eqn:Em; destruct (c_patch c) as [p|] eqn:Ep;
    try (rewrite u64_succ_small by auto); try (eexists; reflexivity).
  destruct (wf_minor_patch c p Hwf Ep) as [m Em']. congruence.
Qed.

Lemma self_compatible_lt checks c e : comp_small checks c -> comparator_wf c = true ->
  (caret_end checks c = Ok e \/ tilde_end checks c = Ok e) ->
  ccmp (core_of (written c)) (core_of e) = Lt /\ build e = [] /\ core_wf (core_of e).
Proof.
  intros Hs Hwf H. pose proof (comparator_wf_pre c Hwf) as Hpre.
  assert (Hle : prec_le (written c) (written c)).
  { unfold prec_le. rewrite prec_core, (cmp_refl _ CL). discriminate. }
  destruct H as [H|H].
  - destruct (caret_end_spec checks c e (written c) Hs Hpre H) as (B & C & D).
    split; [|auto]. apply (D Hle). split; [reflexivity|]. intros _ m Em. split; [simpl; rewrite Em; reflexivity|].
    intros _ p Ep. simpl. rewrite Ep. reflexivity.
  - destruct (tilde_end_spec checks c e (written c) Hs Hpre H) as (B & C & D).
    split; [|auto]. apply (D Hle). split; [reflexivity|]. intros m Em. simpl. rewrite Em. reflexivity.
Qed.

(** * C11 *)
Lemma bounds_written_good c : comparator_wf c = true ->
  bound_good (Exclusive (written c)) /\ bound_good (Inclusive (written c)).
Proof. intros H. pose proof (comparator_wf_pre c H). simpl. auto. Qed.

Lemma urange_accept_iff checks r : req_wf r = true -> (forall c, In c r -> comp_below c) ->
  (exists u, urange_of_req checks r = Ok u) <-> supported_shape r.
Proof.
  intros Hwf Hb. unfold req_wf in Hwf. rewrite forallb_forall in Hwf. split.
  - intros [u H]. apply urange_shape in H as [[[-> _]|[(c & -> & HS)|(lo & hi & Hr & Hlo & Hhi & ->)]] Hle].
    + constructor.
    + constructor. intros E. unfold single_range in HS. rewrite E in HS. exact HS.
    + assert (Hwlo : comparator_wf lo = true) by (apply Hwf; destruct Hr as [-> | ->]; simpl; auto).
      assert (Hwhi : comparator_wf hi = true) by (apply Hwf; destruct Hr as [-> | ->]; simpl; auto).
      assert (lower_before_upper lo hi).
      { cbn [u_start u_end] in Hle. unfold lo_bound, hi_bound in Hle.
        destruct (bounds_written_good lo Hwlo), (bounds_written_good hi Hwhi).
        destruct (c_op lo) eqn:El; try discriminate Hlo; destruct (c_op hi) eqn:Eh; try discriminate Hhi;
          apply less_or_equal_spec in Hle; auto; try (apply lbu_strict; exact Hle).
        unfold prec_lt in *. destruct (ccmp (core_of (written lo)) (core_of (written hi))) eqn:E; [|apply lbu_strict; exact E|congruence].
        apply lbu_eq; auto. }
      destruct Hr as [-> | ->]; [apply shape_lower_upper|apply shape_upper_lower]; auto.
  - intros HS.
    assert (HLU : forall lo hi, comparator_wf lo = true -> comparator_wf hi = true ->
       lower_op (c_op lo) = true -> upper_op (c_op hi) = true -> lower_before_upper lo hi ->
       less_or_equal (lo_bound lo) (hi_bound hi) = true).
    { intros lo hi W1 W2 H1 H2 H3. destruct (bounds_written_good lo W1), (bounds_written_good hi W2).
      unfold lo_bound, hi_bound.
      destruct (c_op lo) eqn:El; try discriminate H1; destruct (c_op hi) eqn:Eh; try discriminate H2;
        apply less_or_equal_spec; auto; destruct H3 as [? ? H3|? ? E1 E2 H3]; try congruence; try exact H3;
        unfold prec_lt, prec_eq in H3; rewrite prec_core in H3; rewrite H3; discriminate. }
    destruct HS as [|c Hc|lo hi H1 H2 H3|lo hi H1 H2 H3].
    + exists (mkURange Unbounded Unbounded). reflexivity.
    + assert (Hw : comparator_wf c = true) by (apply Hwf; simpl; auto).
      assert (Hbc : comp_below c) by (apply Hb; simpl; auto).
      destruct (bounds_written_good c Hw) as [B1 B2].
      assert (exists u, single_range checks c u /\ less_or_equal (u_start u) (u_end u) = true) as (u & Hu & Hle).
      { unfold single_range, lo_bound, hi_bound. destruct (c_op c) eqn:Eop.
        - eexists; split; [reflexivity|]. cbn [u_start u_end]. apply less_or_equal_spec; auto. rewrite (cmp_refl _ CL). discriminate.
        - eexists; split; [reflexivity|]. reflexivity.
        - eexists; split; [reflexivity|]. reflexivity.
        - eexists; split; [reflexivity|]. reflexivity.
        - eexists; split; [reflexivity|]. reflexivity.
        - destruct (tilde_end_total checks c Hw Hbc) as [e He].
          destruct (self_compatible_lt checks c e (comp_below_small _ _ Hbc) Hw (or_intror He)) as (L & Bb & Cw).
          eexists; split; [exists e; split; [exact He|reflexivity]|]. cbn [u_start u_end].
          apply less_or_equal_spec; simpl; auto.
        - destruct (caret_end_total checks c Hw Hbc) as [e He].
          destruct (self_compatible_lt checks c e (comp_below_small _ _ Hbc) Hw (or_introl He)) as (L & Bb & Cw).
          eexists; split; [exists e; split; [exact He|reflexivity]|]. cbn [u_start u_end].
          apply less_or_equal_spec; simpl; auto.
        - congruence. }
      exists u. apply urange_shape. split; [|exact Hle]. right. left. eauto.
    + exists (mkURange (lo_bound lo) (hi_bound hi)). apply urange_shape. split.
      * right. right. exists lo, hi. auto.
      * apply HLU; auto; apply Hwf; simpl; auto.
    + exists (mkURange (lo_bound lo) (hi_bound hi)). apply urange_shape. split.
      * right. right. exists lo, hi. auto.
      * apply HLU; auto; apply Hwf; simpl; auto.
Qed.

Lemma urange_not_panic checks r : req_wf r = true -> (forall c, In c r -> comp_below c) ->
  urange_of_req checks r <> Panic.
Proof.
  intros Hwf Hb. unfold req_wf in Hwf. rewrite forallb_forall in Hwf. unfold urange_of_req.
  destruct (Nat.ltb 2 (List.length r)); [discriminate|].
  assert (H : forall cs n st, (forall c, In c cs -> comparator_wf c = true /\ comp_below c) ->
            comp_loop checks n st cs <> Panic).
  { induction cs as [|c cs IH]; intros n st Hc; cbn [comp_loop]; [discriminate|].
    destruct (Hc c (or_introl eq_refl)) as [W B].
    destruct (comp_step checks n st c) as [st'| |] eqn:E; simpl; [|discriminate|].
    - apply IH. intros; apply Hc; right; auto.
    - exfalso. destruct st as [s e]. unfold comp_step in E.
      destruct (tilde_end_total checks c W B) as [e1 T]. destruct (caret_end_total checks c W B) as [e2 C].
      rewrite T, C in E. cbn [obind] in E.
      destruct (c_op c), (is_unbounded s), (is_unbounded e), (Nat.eqb n 1); discriminate. }
  destruct (comp_loop checks (List.length r) (Unbounded, Unbounded) r) as [[s e]| |] eqn:E; simpl.
  - unfold urange_new. destruct (less_or_equal s e); discriminate.
  - discriminate.
  - exfalso. eapply H; [|exact E]. auto.
Qed.

(** * Increments cannot fail below u64::MAX *)
Definition bound_below (b : bound) : Prop :=
  match b with Unbounded => True | Exclusive v | Inclusive v => patch v < u64_max \/ pre v <> [] end.
Definition u_below u := bound_below (u_start u) /\ bound_below (u_end u).

Lemma bound_below_small checks u : u_below u -> u_small checks u.
Proof.
  intros [H1 H2]. split; [destruct (u_start u)|destruct (u_end u)]; simpl in *; tauto.
Qed.

Lemma written_below c : comp_below c -> patch (written c) < u64_max \/ pre (written c) <> [].
Proof.
  intros (_ & _ & H). left. simpl. destruct (c_patch c); [auto|reflexivity].
Qed.

Lemma urange_below checks r u : (forall c, In c r -> comp_below c) -> urange_of_req checks r = Ok u -> u_below u.
Proof.
  intros Hb H. apply urange_shape in H as [[[_ ->]|[(c & -> & HS)|(lo & hi & Hr & Hlo & Hhi & ->)]] _].
  - split; exact I.
  - pose proof (written_below c (Hb c (or_introl eq_refl))) as W.
    unfold single_range, lo_bound, hi_bound in HS.
    destruct (c_op c); try contradiction; try (subst u; split; simpl; auto; fail).
    + destruct HS as (e & He & ->). split; [exact W|]. simpl. right. rewrite (end_pre checks c e (or_intror He)). discriminate.
    + destruct HS as (e & He & ->). split; [exact W|]. simpl. right. rewrite (end_pre checks c e (or_introl He)). discriminate.
  - pose proof (written_below lo (Hb lo ltac:(destruct Hr as [-> | ->]; simpl; auto))).
    pose proof (written_below hi (Hb hi ltac:(destruct Hr as [-> | ->]; simpl; auto))).
    unfold lo_bound, hi_bound. split; cbn [u_start u_end]; [destruct (c_op lo)|destruct (c_op hi)]; simpl; auto.
Qed.

Lemma first_range_total checks r : u_below r -> exists rs, first_range checks r = Ok rs.
Proof.
  intros [H _]. unfold first_range. destruct (u_start r) as [|v|v]; [eauto| |eauto].
  destruct (increment_total checks v H) as [w ->]. simpl. eauto.
Qed.
Lemma last_range_total checks r : u_below r -> exists rs, last_range checks r = Ok rs.
Proof.
  intros [_ H]. unfold last_range. destruct (u_end r) as [|v|v]; [eauto|eauto|].
  destruct (increment_total checks v H) as [w ->]. simpl. eauto.
Qed.
Lemma gaps_total checks : forall l r, u_below r -> (forall u, In u l -> u_below u) -> chain r l ->
  exists gs, gaps checks r l = Ok gs.
Proof.
  induction l as [|r1 l IH]; intros r Hr Hl Hc; cbn [gaps].
  - apply last_range_total; auto.
  - destruct Hc as [Hle Hc].
    assert (H1 : u_below r1) by (apply Hl; left; reflexivity).
    destruct (IH r1 H1 (fun u Hu => Hl u (or_intror Hu)) Hc) as [gs ->].
    assert (exists g, gap_range checks r r1 = Ok g) as [g ->]; [|simpl; eauto].
    unfold gap_range. destruct Hr as [_ Hr], H1 as [H1 _]. unfold less_or_equal in Hle.
    destruct (u_end r) as [|ve|ve]; destruct (u_start r1) as [|vs|vs]; simpl in Hle; try discriminate Hle;
      simpl in Hr, H1;
      try (destruct (increment_total checks ve Hr) as [we ->]);
      try (destruct (increment_total checks vs H1) as [ws ->]); simpl; eauto.
Qed.

(** Two ranges whose sort keys coincide although they do not overlap: a point and an open bound. *)
Lemma same_key a b : u_good a -> u_good b -> overlaps a b = false -> key a = key b ->
  exists v, (u_start a = Exclusive v /\ exists w w', u_start b = Inclusive w /\ u_end b = Inclusive w' /\
             core_of w = core_of v /\ core_of w' = core_of v) \/
            (u_start b = Exclusive v /\ exists w w', u_start a = Inclusive w /\ u_end a = Inclusive w' /\
             core_of w = core_of v /\ core_of w' = core_of v).
Proof.
  assert (HALF : forall a b va vb, u_good a -> u_good b -> overlaps a b = false ->
     u_start a = Exclusive va -> u_start b = Inclusive vb -> core_of va = core_of vb ->
     exists w', u_end b = Inclusive w' /\ core_of w' = core_of va).
  { intros x y va vb Hx Hy Ho E1 E2 Ek.
    destruct Hx as (X1 & X2 & X3), Hy as (Y1 & Y2 & Y3). unfold overlaps in Ho.
    rewrite E1 in *. rewrite E2 in *.
    assert (less_or_equal (Inclusive vb) (u_end x) = true) as L.
    { apply less_or_equal_spec; auto. apply less_or_equal_spec in X3; auto.
      destruct (u_end x) as [|z|z]; auto; rewrite <- Ek; [exact X3|]. rewrite X3. discriminate. }
    rewrite L, andb_true_r in Ho.
    assert (N : ~ less_or_equal (Exclusive va) (u_end y) = true) by congruence.
    rewrite less_or_equal_spec in N; auto. apply less_or_equal_spec in Y3; auto.
    destruct (u_end y) as [|z|z]; try tauto.
    - rewrite Ek in N. tauto.
    - exists z. split; [reflexivity|]. rewrite Ek in *. apply (cle_antisym _ CL); [|exact Y3].
      apply (not_clt _ CL). exact N. }
  intros Ha Hb Ho Hk. unfold key in Hk.
  destruct (u_start a) as [|va|va] eqn:Ea; destruct (u_start b) as [|vb|vb] eqn:Eb; simpl in Hk; try discriminate.
  - exfalso. unfold overlaps in Ho. rewrite Ea, Eb in Ho. simpl in Ho. discriminate.
  - exfalso. injection Hk as Hk'. assert (Hk : core_of va = core_of vb) by (unfold core_of; congruence). clear Hk'. destruct Ha as (A1 & A2 & A3), Hb as (B1 & B2 & B3). unfold overlaps in Ho.
    rewrite Ea, Eb in *. apply less_or_equal_spec in A3, B3; auto.
    assert (L1 : less_or_equal (Exclusive va) (u_end b) = true).
    { apply less_or_equal_spec; auto. destruct (u_end b); auto; rewrite Hk; auto. }
    assert (L2 : less_or_equal (Exclusive vb) (u_end a) = true).
    { apply less_or_equal_spec; auto. destruct (u_end a); auto; rewrite <- Hk; auto. }
    rewrite L1, L2 in Ho. discriminate.
  - injection Hk as Hk'. assert (Hk : core_of va = core_of vb) by (unfold core_of; congruence). clear Hk'. exists va. left. split; [reflexivity|].
    destruct (HALF a b va vb Ha Hb Ho Ea Eb Hk) as (w' & E & F). exists vb, w'. auto.
  - injection Hk as Hk'. assert (Hk : core_of va = core_of vb) by (unfold core_of; congruence). clear Hk'. exists vb. right. split; [reflexivity|]. rewrite overlaps_sym in Ho.
    destruct (HALF b a vb va Hb Ha Ho Eb Ea (eq_sym Hk)) as (w' & E & F). exists va, w'. auto.
  - exfalso. injection Hk as Hk'. assert (Hk : core_of va = core_of vb) by (unfold core_of; congruence). clear Hk'. destruct Ha as (A1 & A2 & A3), Hb as (B1 & B2 & B3). unfold overlaps in Ho.
    rewrite Ea, Eb in *. apply less_or_equal_spec in A3, B3; auto.
    assert (L1 : less_or_equal (Inclusive va) (u_end b) = true).
    { apply less_or_equal_spec; auto. destruct (u_end b); auto; rewrite Hk; auto. }
    assert (L2 : less_or_equal (Inclusive vb) (u_end a) = true).
    { apply less_or_equal_spec; auto. destruct (u_end a); auto; rewrite <- Hk; auto. }
    rewrite L1, L2 in Ho. discriminate.
Qed.
