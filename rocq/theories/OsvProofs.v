From Coq Require Import List NArith Ascii String Bool Lia Permutation Sorted Arith.
From Verif Require Import Base SemverModel SemverFacts OsvModel OsvSpec.
Import ListNotations.
Local Open Scope N_scope.

Notation ccmp := core_cmp.
Notation CL := core_cmp_laws.

(** * Bounds and ranges at the level of cores *)
Definition below_start (b : bound) (x : core) : Prop :=
  match b with
  | Unbounded => False
  | Exclusive v => ccmp x (core_of v) <> Gt
  | Inclusive v => ccmp x (core_of v) = Lt
  end.
Definition above_end (b : bound) (x : core) : Prop :=
  match b with
  | Unbounded => False
  | Exclusive v => ccmp (core_of v) x <> Gt
  | Inclusive v => ccmp (core_of v) x = Lt
  end.
Definition in_urange (u : urange) (x : core) : Prop :=
  ~ below_start (u_start u) x /\ ~ above_end (u_end u) x.

Definition bound_good (b : bound) : Prop :=
  match b with
  | Unbounded => True
  | Exclusive v | Inclusive v => build v = [] /\ core_wf (core_of v)
  end.
Definition u_good (u : urange) : Prop :=
  bound_good (u_start u) /\ bound_good (u_end u) /\ less_or_equal (u_start u) (u_end u) = true.

Lemma less_or_equal_spec s e : bound_good s -> bound_good e ->
  less_or_equal s e = true <->
  match s, e with
  | Unbounded, _ | _, Unbounded => True
  | Inclusive a, Inclusive b => ccmp (core_of a) (core_of b) <> Gt
  | Exclusive a, Exclusive b | Exclusive a, Inclusive b | Inclusive a, Exclusive b =>
      ccmp (core_of a) (core_of b) = Lt
  end.
Proof.
  intros Hs He. unfold less_or_equal.
  destruct s as [|a|a], e as [|b|b]; simpl; try tauto;
    destruct Hs as [Hs1 Hs2], He as [He1 He2].
  1-3: pose proof (version_ltb_core a b He1) as H; destruct (version_ltb a b);
       split; intros G; try tauto; try discriminate; apply H in G; discriminate.
  pose proof (version_ltb_core a b He1) as H.
  pose proof (version_eqb_core a b Hs1 He1) as H'.
  destruct (version_ltb a b).
  - split; [|tauto]. intros _. rewrite (proj1 H eq_refl). discriminate.
  - rewrite H'. rewrite <- (cmp_eq_iff _ CL).
    destruct (ccmp (core_of a) (core_of b)) eqn:E; split; intros G; try congruence.
    destruct H as [_ H]. discriminate (H eq_refl).
Qed.

Lemma u_good_nocross u x : u_good u -> below_start (u_start u) x -> above_end (u_end u) x -> False.
Proof.
  intros (Hs & He & Hle) B A. apply less_or_equal_spec in Hle; auto.
  destruct (u_start u) as [|a|a], (u_end u) as [|b|b]; simpl in *; try tauto.
  - (* Excl, Excl *) apply (clt_irrefl _ CL (core_of a)).
    eapply (clt_le_trans _ CL); [exact Hle|]. eapply (cle_trans _ CL); eauto.
  - apply (clt_irrefl _ CL (core_of a)).
    eapply (clt_trans _ CL); [exact Hle|]. eapply (clt_le_trans _ CL); eauto.
  - apply (clt_irrefl _ CL (core_of a)).
    eapply (clt_trans _ CL); [exact Hle|]. eapply (cle_lt_trans _ CL); eauto.
  - apply (clt_irrefl _ CL (core_of a)).
    eapply (cle_lt_trans _ CL); [exact Hle|]. eapply (clt_trans _ CL); eauto.
Qed.

(** Two ranges in order: nothing is both not above the first and not below the second. *)
Lemma not_le_cover r1s r0e x : bound_good r1s -> bound_good r0e ->
  less_or_equal r1s r0e = false -> below_start r1s x \/ above_end r0e x.
Proof.
  intros Hs He Hle.
  assert (H : ~ (less_or_equal r1s r0e = true)) by congruence.
  rewrite less_or_equal_spec in H; auto.
  destruct r1s as [|a|a], r0e as [|b|b]; simpl in *; try tauto.
  - apply (not_clt _ CL) in H. destruct (clt_or_cle _ CL x (core_of a)) as [G|G].
    + left. apply (clt_le _ _ _ G).
    + right. eapply (cle_trans _ CL); eauto.
  - apply (not_clt _ CL) in H. destruct (clt_or_cle _ CL (core_of a) x) as [G|G].
    + right. eapply (cle_lt_trans _ CL); eauto.
    + left. exact G.
  - apply (not_clt _ CL) in H. destruct (clt_or_cle _ CL x (core_of a)) as [G|G]; [left; exact G|].
    right. eapply (cle_trans _ CL); eauto.
  - apply (not_cle _ CL) in H. destruct (clt_or_cle _ CL x (core_of a)) as [G|G]; [left; exact G|].
    right. eapply (clt_le_trans _ CL); eauto.
Qed.

(** * Increment *)
Lemma increment_core checks v i :
  increment checks v = Ok i -> (checks = true \/ patch v < u64_max \/ pre v <> []) ->
  core_of i = core_succ (core_of v) /\ build i = [] .
Proof.
  unfold increment, u64_succ. intros H Hc. destruct v as [a b p q bld]. simpl in *.
  destruct q as [|s q].
  - destruct (p =? u64_max) eqn:E.
    + destruct Hc as [->|[Hc|Hc]]; [discriminate| |congruence]. apply N.eqb_eq in E. lia.
    + simpl in H. injection H as <-. split; reflexivity.
  - injection H as <-. split; reflexivity.
Qed.

Definition bound_small (checks : bool) (b : bound) : Prop :=
  match b with
  | Unbounded => True
  | Exclusive v | Inclusive v => checks = true \/ patch v < u64_max \/ pre v <> []
  end.
Definition u_small checks u := bound_small checks (u_start u) /\ bound_small checks (u_end u).

(** * Gap computation *)
Definition aff (rs : list osv_range) (v : version) : Prop := existsb (fun r => affects r v) rs = true.

Lemma affects_spec s e v :
  match s with Some a => build a = [] | None => True end ->
  match e with Some b => build b = [] | None => True end ->
  affects (mkOsv s e) v = true <->
  match s with Some a => ccmp (core_of a) (core_of v) <> Gt | None => True end /\
  match e with Some b => ccmp (core_of v) (core_of b) = Lt | None => True end.
Proof.
  intros Hs He. unfold affects. cbn [introduced fixed]. rewrite andb_true_iff.
  destruct s as [a|], e as [b|]; rewrite ?version_leb_core, ?version_ltb_core by assumption;
    tauto.
Qed.

Definition core_v_wf v := core_wf (core_of v).

Lemma first_range_spec checks r rs v :
  bound_good (u_start r) -> bound_small checks (u_start r) -> core_v_wf v ->
  first_range checks r = Ok rs -> (aff rs v <-> below_start (u_start r) (core_of v)).
Proof.
  intros Hg Hs Hv. unfold first_range, aff. destruct (u_start r) as [|a|a]; simpl in *.
  - intros H; injection H as <-. simpl. split; [discriminate|tauto].
  - destruct (increment checks a) as [i| |] eqn:E; simpl; try discriminate.
    intros H; injection H as <-. simpl. rewrite orb_false_r.
    destruct (increment_core _ _ _ E Hs) as [Hi Hb].
    rewrite affects_spec by (simpl; auto). rewrite Hi, core_lt_succ by exact Hv. tauto.
  - intros H; injection H as <-. simpl. rewrite orb_false_r.
    rewrite affects_spec by (simpl; tauto). tauto.
Qed.

Lemma last_range_spec checks r rs v :
  bound_good (u_end r) -> bound_small checks (u_end r) -> core_v_wf v ->
  last_range checks r = Ok rs -> (aff rs v <-> above_end (u_end r) (core_of v)).
Proof.
  intros Hg Hs Hv. unfold last_range, aff. destruct (u_end r) as [|a|a]; simpl in *.
  - intros H; injection H as <-. simpl. split; [discriminate|tauto].
  - intros H; injection H as <-. simpl. rewrite orb_false_r.
    rewrite affects_spec by (simpl; tauto). tauto.
  - destruct (increment checks a) as [i| |] eqn:E; simpl; try discriminate.
    intros H; injection H as <-. simpl. rewrite orb_false_r.
    destruct (increment_core _ _ _ E Hs) as [Hi Hb].
    rewrite affects_spec by (simpl; auto). rewrite Hi, core_succ_le by exact Hv. tauto.
Qed.

Lemma gap_range_spec checks r0 r1 g v :
  u_good r0 -> u_good r1 -> u_small checks r0 -> u_small checks r1 -> core_v_wf v ->
  gap_range checks r0 r1 = Ok g ->
  (affects g v = true <-> above_end (u_end r0) (core_of v) /\ below_start (u_start r1) (core_of v)).
Proof.
  intros (_ & H0 & _) (H1 & _ & _) (_ & S0) (S1 & _) Hv. unfold gap_range.
  destruct (u_end r0) as [|a|a]; simpl in *; try discriminate;
  [|destruct (increment checks a) as [i| |] eqn:E; simpl; try discriminate];
  destruct (u_start r1) as [|b|b]; simpl in *; try discriminate;
  try (destruct (increment checks b) as [j| |] eqn:E'; simpl; try discriminate);
  intros H; injection H as <-;
  repeat match goal with
  | H : increment _ ?w = Ok ?k, S : _ \/ _ |- _ =>
      let Hi := fresh in let Hb := fresh in
      destruct (increment_core _ _ _ H S) as [Hi Hb]; clear H
  end;
  rewrite affects_spec by (simpl; tauto);
  repeat match goal with H : core_of _ = core_succ _ |- _ => rewrite H end;
  rewrite ?core_succ_le, ?core_lt_succ by exact Hv; tauto.
Qed.

(** Ranges listed in increasing, non-overlapping order. *)
Fixpoint chain (r : urange) (l : list urange) : Prop :=
  match l with
  | [] => True
  | r1 :: l' => less_or_equal (u_start r1) (u_end r) = false /\ chain r1 l'
  end.

Lemma chain_below r l x : u_good r -> (forall u, In u l -> u_good u) -> chain r l ->
  below_start (u_start r) x -> forall u, In u l -> below_start (u_start u) x.
Proof.
  revert r. induction l as [|r1 l IH]; intros r Hr Hl Hc B u Hu; [destruct Hu|].
  destruct Hc as [Hle Hc].
  assert (Hr1 : u_good r1) by (apply Hl; left; reflexivity).
  assert (B1 : below_start (u_start r1) x).
  { destruct (not_le_cover (u_start r1) (u_end r) x (proj1 Hr1) (proj1 (proj2 Hr)) Hle) as [?|A];
      [assumption|].
    exfalso. apply (u_good_nocross r x Hr B A). }
  destruct Hu as [<-|Hu]; [exact B1|].
  eapply IH; [| |exact Hc|exact B1|exact Hu]; auto. intros w Hw; apply Hl; right; exact Hw.
Qed.

Lemma bound_dec_above b x : above_end b x \/ ~ above_end b x.
Proof. destruct b; simpl; [tauto| |]; destruct (ccmp _ x); intuition congruence. Qed.
Lemma bound_dec_below b x : below_start b x \/ ~ below_start b x.
Proof. destruct b as [|a|a]; simpl; [tauto| |]; destruct (ccmp x _); intuition congruence. Qed.

Lemma gaps_spec checks v : core_v_wf v -> forall l r gs,
  u_good r -> u_small checks r ->
  (forall u, In u l -> u_good u /\ u_small checks u) -> chain r l ->
  gaps checks r l = Ok gs ->
  (aff gs v <-> above_end (u_end r) (core_of v) /\ forall u, In u l -> ~ in_urange u (core_of v)).
Proof.
  intros Hv. induction l as [|r1 l IH]; intros r gs Hr Sr Hl Hc; cbn [gaps].
  - intros H. rewrite (last_range_spec checks r gs v); auto; try apply Hr; try apply Sr.
    simpl. tauto.
  - destruct (gap_range checks r r1) as [g| |] eqn:Eg; simpl; try discriminate.
    destruct (gaps checks r1 l) as [gs'| |] eqn:E'; simpl; try discriminate.
    intros H; injection H as <-.
    destruct (Hl r1 (or_introl eq_refl)) as [Hr1 Sr1].
    assert (Hl' : forall u, In u l -> u_good u /\ u_small checks u)
      by (intros u Hu; apply Hl; right; exact Hu).
    destruct Hc as [Hle Hc].
    pose proof (gap_range_spec checks r r1 g v Hr Hr1 Sr Sr1 Hv Eg) as Hg.
    specialize (IH r1 gs' Hr1 Sr1 Hl' Hc E').
    unfold aff in *. cbn [existsb]. rewrite orb_true_iff, Hg, IH.
    set (x := core_of v) in *.
    assert (Hcov : below_start (u_start r1) x \/ above_end (u_end r) x)
      by (exact (not_le_cover _ _ x (proj1 Hr1) (proj1 (proj2 Hr)) Hle)).
    split.
    + intros [[A B]|[A Hn]].
      * split; [exact A|]. intros u Hu. unfold in_urange.
        enough (below_start (u_start u) x) by tauto.
        destruct Hu as [<-|Hu]; [exact B|].
        apply (chain_below r1 l x Hr1 (fun u Hu => proj1 (Hl' u Hu)) Hc B u Hu).
      * split.
        { destruct Hcov as [B|?]; [|assumption]. exfalso. apply (u_good_nocross r1 x Hr1 B A). }
        intros u [<-|Hu]; [unfold in_urange; tauto|auto].
    + intros [A Hn]. destruct (bound_dec_below (u_start r1) x) as [B|B]; [tauto|].
      right. split.
      * destruct (bound_dec_above (u_end r1) x) as [A1|A1]; [exact A1|].
        exfalso. apply (Hn r1 (or_introl eq_refl)). split; assumption.
      * intros u Hu. apply Hn. right; exact Hu.
Qed.

(** * Sorting *)
Definition key (u : urange) : option core := option_map core_of (bound_version (u_start u)).
Definition key_cmp := option_cmp core_cmp.
Lemma key_cmp_laws : cmp_laws key_cmp.
Proof. apply option_cmp_laws, CL. Qed.
Definition key_lt (a b : urange) : Prop := key_cmp (key a) (key b) = Lt.

Lemma good_start_build u v : u_good u -> bound_version (u_start u) = Some v -> build v = [].
Proof.
  intros (H & _) E. destruct (u_start u) as [|w|w]; simpl in *; try discriminate;
    injection E as <-; apply H.
Qed.

Lemma overlaps_sym a b : overlaps a b = overlaps b a.
Proof. unfold overlaps. apply andb_comm. Qed.

Lemma sort_cmp_spec a b : u_good a -> u_good b -> overlaps a b = false ->
  sort_cmp a b = match key_cmp (key a) (key b) with Eq => None | c => Some c end.
Proof.
  intros Ha Hb Hno. unfold sort_cmp, key, key_cmp.
  destruct (bound_version (u_start a)) as [va|] eqn:Ea;
  destruct (bound_version (u_start b)) as [vb|] eqn:Eb; simpl; try reflexivity.
  - pose proof (good_start_build a va Ha Ea) as B1.
    pose proof (good_start_build b vb Hb Eb) as B2.
    rewrite version_cmp_core by assumption.
    unfold version_eqb. rewrite version_cmp_core by assumption.
    destruct (ccmp (core_of va) (core_of vb)); reflexivity.
  - exfalso. unfold overlaps in Hno.
    destruct (u_start a); try discriminate; destruct (u_start b); discriminate.
Qed.

(** Pairwise non-overlap. *)
Definition disjoint_all (l : list urange) : Prop :=
  ForallOrdPairs (fun a b => overlaps a b = false) l.

Lemma any_overlap_false l : any_overlap l = false <-> disjoint_all l.
Proof.
  induction l as [|a l IH]; simpl.
  - split; intros; [constructor|reflexivity].
  - rewrite orb_false_iff, IH. split.
    + intros [H1 H2]. constructor; [|exact H2].
      apply Forall_forall. intros b Hb. destruct (overlaps a b) eqn:E; [|reflexivity].
      assert (existsb (overlaps a) l = true) by (apply existsb_exists; eauto). congruence.
    + intros H. inversion H as [|? ? H1 H2]; subst. split; [|exact H2].
      destruct (existsb (overlaps a) l) eqn:E; [|reflexivity].
      apply existsb_exists in E as (b & Hb & Hab).
      rewrite Forall_forall in H1. rewrite (H1 b Hb) in Hab. discriminate.
Qed.

Lemma FOP_perm {A} (R : A -> A -> Prop) l l' :
  (forall x y, R x y -> R y x) -> Permutation l l' -> ForallOrdPairs R l -> ForallOrdPairs R l'.
Proof.
  intros Hsym Hp. induction Hp; intros H.
  - constructor.
  - inversion H; subst. constructor; [|auto].
    eapply Permutation_Forall; eauto.
  - inversion H as [|? ? H1 H2]; subst. inversion H2 as [|? ? H3 H4]; subst.
    inversion H1; subst. constructor; [constructor; auto|constructor; auto].
  - auto.
Qed.

Lemma disjoint_all_perm l l' : Permutation l l' -> disjoint_all l -> disjoint_all l'.
Proof. apply FOP_perm. intros x y H. rewrite overlaps_sym. exact H. Qed.

Lemma sort_insert_perm x l l' : sort_insert x l = Ok l' -> Permutation (x :: l) l'.
Proof.
  revert l'. induction l as [|y l IH]; simpl; intros l' H.
  - injection H as <-. reflexivity.
  - destruct (sort_cmp x y) as [[]|]; try discriminate; try (injection H as <-; reflexivity).
    destruct (sort_insert x l) as [r| |]; simpl in H; try discriminate.
    injection H as <-. rewrite perm_swap. constructor. auto.
Qed.

Lemma sort_ranges_perm l l' : sort_ranges l = Ok l' -> Permutation l l'.
Proof.
  revert l'. induction l as [|x l IH]; simpl; intros l' H.
  - injection H as <-. constructor.
  - destruct (sort_ranges l) as [r| |]; simpl in H; try discriminate.
    apply sort_insert_perm in H. rewrite <- H. constructor. auto.
Qed.

Lemma sort_insert_sorted x l l' :
  u_good x -> (forall u, In u l -> u_good u /\ overlaps x u = false) ->
  StronglySorted key_lt l -> sort_insert x l = Ok l' -> StronglySorted key_lt l'.
Proof.
  intros Hx. revert l'. induction l as [|y l IH]; simpl; intros l' Hl Hs H.
  - injection H as <-. repeat constructor.
  - destruct (Hl y (or_introl eq_refl)) as [Hy Hxy].
    rewrite (sort_cmp_spec x y Hx Hy Hxy) in H.
    inversion Hs as [|? ? Hs' Hall]; subst.
    destruct (key_cmp (key x) (key y)) eqn:E; try discriminate.
    + injection H as <-. constructor; [exact Hs|]. constructor; [exact E|].
      eapply Forall_impl; [|exact Hall]. intros z Hz. unfold key_lt in *.
      eapply (cmp_trans_lt _ key_cmp_laws); eauto.
    + destruct (sort_insert x l) as [r| |] eqn:Er; simpl in H; try discriminate.
      injection H as <-. constructor.
      * apply IH; auto.
      * apply sort_insert_perm in Er. eapply Permutation_Forall; [exact Er|].
        constructor; [|exact Hall]. unfold key_lt. apply (cmp_gt_lt _ key_cmp_laws). exact E.
Qed.

Lemma sort_ranges_sorted l l' :
  (forall u, In u l -> u_good u) -> disjoint_all l ->
  sort_ranges l = Ok l' -> StronglySorted key_lt l'.
Proof.
  revert l'. induction l as [|x l IH]; simpl; intros l' Hg Hd H.
  - injection H as <-. constructor.
  - destruct (sort_ranges l) as [r| |] eqn:Er; simpl in H; try discriminate.
    inversion Hd as [|? ? Hx Hd']; subst.
    pose proof (sort_ranges_perm _ _ Er) as Hp.
    eapply sort_insert_sorted; [| |apply (IH r); auto|exact H].
    + apply Hg; left; reflexivity.
    + intros u Hu. apply (Permutation_in _ (Permutation_sym Hp)) in Hu. split.
      * apply Hg; right; exact Hu.
      * rewrite Forall_forall in Hx. apply Hx; exact Hu.
Qed.

Lemma sorted_nodup l : StronglySorted key_lt l -> NoDup (map key l).
Proof.
  induction 1 as [|x l Hs IH Hall]; simpl; constructor; auto.
  intros Hin. apply in_map_iff in Hin as (y & Hy & Hin).
  rewrite Forall_forall in Hall. specialize (Hall y Hin). unfold key_lt in Hall.
  rewrite Hy in Hall. rewrite (cmp_refl _ key_cmp_laws) in Hall. discriminate.
Qed.

Lemma sort_insert_ok x l :
  u_good x -> (forall u, In u l -> u_good u /\ overlaps x u = false) ->
  ~ In (key x) (map key l) -> exists l', sort_insert x l = Ok l'.
Proof.
  intros Hx. induction l as [|y l IH]; simpl; intros Hl Hn; [eauto|].
  destruct (Hl y (or_introl eq_refl)) as [Hy Hxy].
  rewrite (sort_cmp_spec x y Hx Hy Hxy).
  destruct (key_cmp (key x) (key y)) eqn:E; eauto.
  - apply (cmp_eq _ key_cmp_laws) in E. exfalso. apply Hn. left. congruence.
  - destruct IH as [l' Hl']; auto. rewrite Hl'. simpl. eauto.
Qed.

Lemma sort_ranges_ok_iff l :
  (forall u, In u l -> u_good u) -> disjoint_all l ->
  ((exists l', sort_ranges l = Ok l') <-> NoDup (map key l)).
Proof.
  intros Hg Hd. split.
  - intros [l' H]. pose proof (sort_ranges_perm _ _ H) as Hp.
    apply sort_ranges_sorted in H; auto. apply sorted_nodup in H.
    eapply Permutation_NoDup; [|exact H]. apply Permutation_map. symmetry; exact Hp.
  - induction l as [|x l IH]; simpl; intros Hn; [eauto|].
    inversion Hn as [|? ? Hx Hn']; subst. inversion Hd as [|? ? Hxd Hd']; subst.
    destruct IH as [r Hr]; auto; [intros u Hu; apply Hg; right; exact Hu|].
    rewrite Hr. simpl. pose proof (sort_ranges_perm _ _ Hr) as Hp. apply sort_insert_ok.
    + apply Hg; left; reflexivity.
    + intros u Hu. apply (Permutation_in _ (Permutation_sym Hp)) in Hu. split.
      * apply Hg; right; exact Hu.
      * rewrite Forall_forall in Hxd. apply Hxd; exact Hu.
    + intros Hin. apply Hx. eapply Permutation_in; [|exact Hin].
      apply Permutation_map. symmetry; exact Hp.
Qed.

(** Two strictly sorted permutations coincide: the choice of sorting algorithm is irrelevant. *)
Lemma sorted_perm_unique l1 l2 :
  StronglySorted key_lt l1 -> StronglySorted key_lt l2 -> Permutation l1 l2 -> l1 = l2.
Proof.
  revert l2. induction l1 as [|x l1 IH]; intros l2 H1 H2 Hp.
  - apply Permutation_nil in Hp. congruence.
  - destruct l2 as [|y l2].
    { apply Permutation_sym, Permutation_nil in Hp. discriminate. }
    inversion H1 as [|? ? H1' A1]; subst. inversion H2 as [|? ? H2' A2]; subst.
    rewrite Forall_forall in A1, A2.
    assert (x = y).
    { assert (Hx : In x (y :: l2)) by (eapply Permutation_in; [exact Hp|left; reflexivity]).
      assert (Hy : In y (x :: l1))
        by (eapply Permutation_in; [apply Permutation_sym; exact Hp|left; reflexivity]).
      destruct Hx as [Hx|Hx]; [congruence|]. destruct Hy as [Hy|Hy]; [congruence|].
      specialize (A1 y Hy). specialize (A2 x Hx). unfold key_lt in *.
      exfalso. apply (clt_irrefl _ key_cmp_laws (key x)).
      eapply (clt_trans _ key_cmp_laws); eauto. }
    subst y. f_equal. apply IH; auto. eapply Permutation_cons_inv; eauto.
Qed.

(** Sorted and disjoint implies chained. *)
Lemma key_lt_le a b : u_good a -> u_good b -> key_lt a b ->
  less_or_equal (u_start a) (u_end b) = true.
Proof.
  intros (Ha & _ & _) (Hb & Hbe & Hle) Hk. unfold key_lt, key, key_cmp in Hk.
  apply less_or_equal_spec in Hle; auto. apply less_or_equal_spec; auto.
  destruct (u_start a) as [|va|va], (u_start b) as [|vb|vb]; simpl in Hk; try discriminate; auto;
  destruct (u_end b) as [|ve|ve]; auto; simpl in *.
  - eapply (clt_trans _ CL); eauto.
  - eapply (clt_trans _ CL); eauto.
  - eapply (clt_trans _ CL); eauto.
  - eapply (clt_le_trans _ CL); eauto.
  - eapply (clt_trans _ CL); eauto.
  - apply (clt_le core_cmp). eapply (clt_trans _ CL); eauto.
  - eapply (clt_trans _ CL); eauto.
  - apply (clt_le core_cmp). eapply (clt_le_trans _ CL); eauto.
Qed.

Lemma sorted_chain r l :
  (forall u, In u (r :: l) -> u_good u) -> disjoint_all (r :: l) ->
  StronglySorted key_lt (r :: l) -> chain r l.
Proof.
  revert r. induction l as [|r1 l IH]; intros r Hg Hd Hs; simpl; [exact I|].
  inversion Hs as [|? ? Hs' Hall]; subst. inversion Hd as [|? ? Hrd Hd']; subst.
  split.
  - inversion Hall as [|? ? Hk _]; subst. inversion Hrd as [|? ? Hno _]; subst.
    unfold overlaps in Hno. rewrite (key_lt_le r r1) in Hno; auto.
    + apply Hg; left; reflexivity.
    + apply Hg; right; left; reflexivity.
  - apply IH; auto. intros u Hu. apply Hg. right; exact Hu.
Qed.

(** * Main correctness at the level of ranges *)
Lemma ranges_of_uranges_spec checks us rs v :
  (forall u, In u us -> u_good u /\ u_small checks u) -> core_v_wf v ->
  ranges_of_uranges checks us = Ok rs ->
  (aff rs v <-> forall u, In u us -> ~ in_urange u (core_of v)).
Proof.
  intros Hu Hv. unfold ranges_of_uranges. destruct us as [|u0 us0].
  - intros H; injection H as <-. unfold aff, affects. simpl. split; [tauto|reflexivity].
  - set (us := u0 :: us0) in *. destruct (any_overlap us) eqn:Eo; [discriminate|].
    apply any_overlap_false in Eo.
    destruct (sort_ranges us) as [s| |] eqn:Es; simpl; try discriminate.
    destruct s as [|r l]; [discriminate|].
    pose proof (sort_ranges_perm _ _ Es) as Hp.
    assert (Hu' : forall u, In u (r :: l) -> u_good u /\ u_small checks u).
    { intros u Hin. apply Hu. eapply Permutation_in; [apply Permutation_sym; exact Hp|exact Hin]. }
    pose proof (sort_ranges_sorted _ _ (fun u H => proj1 (Hu u H)) Eo Es) as Hs.
    assert (Hc : chain r l).
    { apply sorted_chain; auto; [intros u H; apply Hu'; exact H|].
      eapply disjoint_all_perm; eauto. }
    destruct (first_range checks r) as [f| |] eqn:Ef; simpl; try discriminate.
    destruct (gaps checks r l) as [gs| |] eqn:Eg; simpl; try discriminate.
    intros H; injection H as <-.
    destruct (Hu' r (or_introl eq_refl)) as [Hr Sr].
    assert (Hl : forall u, In u l -> u_good u /\ u_small checks u)
      by (intros u H; apply Hu'; right; exact H).
    pose proof (first_range_spec checks r f v (proj1 Hr) (proj1 Sr) Hv Ef) as HF.
    pose proof (gaps_spec checks v Hv l r gs Hr Sr Hl Hc Eg) as HG.
    unfold aff in *. rewrite existsb_app, orb_true_iff, HF, HG.
    transitivity (forall u, In u (r :: l) -> ~ in_urange u (core_of v)).
    + split.
      * intros [B|[A Hn]] u [<-|Hin].
        -- unfold in_urange; tauto.
        -- unfold in_urange.
           enough (below_start (u_start u) (core_of v)) by tauto.
           eapply chain_below; eauto. intros w Hw; apply Hl; exact Hw.
        -- unfold in_urange; tauto.
        -- auto.
      * intros Hn. destruct (bound_dec_below (u_start r) (core_of v)) as [B|B]; [tauto|].
        right. split; [|intros u Hin; apply Hn; right; exact Hin].
        destruct (bound_dec_above (u_end r) (core_of v)) as [A|A]; [exact A|].
        exfalso. apply (Hn r (or_introl eq_refl)). split; assumption.
    + split; intros Hn u Hin.
      * apply Hn. apply (Permutation_in _ Hp). exact Hin.
      * apply (Hn u). apply (Permutation_in _ (Permutation_sym Hp)). exact Hin.
Qed.

(** * From requirements to ranges *)
Lemma prec_core a b : prec_cmp a b = ccmp (core_of a) (core_of b).
Proof. reflexivity. Qed.

Lemma comp_to_ver_written c : comp_to_ver c = written c.
Proof. reflexivity. Qed.

Lemma comparator_wf_pre c : comparator_wf c = true -> core_wf (core_of (written c)).
Proof. unfold comparator_wf. rewrite !andb_true_iff. intros [_ H]. exact H. Qed.

(** [x < (a,b,p)-0] iff the numeric part of [x] is smaller. *)
Lemma lt_pre_zero x a b p : core_wf x ->
  ccmp x (a, (b, (p, ["0"%string]))) = Lt <->
  fst x < a \/ (fst x = a /\ (fst (snd x) < b \/ (fst (snd x) = b /\ fst (snd (snd x)) < p))).
Proof.
  destruct x as [a' [b' [p' q]]]. unfold core_wf. cbn [fst snd]. intros Hwf.
  unfold core_cmp, pair_cmp. cbn [fst snd]. rewrite !then_cmp_lt, !N.compare_lt_iff, !N.compare_eq_iff.
  assert (pre_cmp q ["0"%string] <> Lt).
  { intros H. apply (cmp_lt_gt _ pre_cmp_laws) in H. revert H. apply zero_pre_least. exact Hwf. }
  tauto.
Qed.

(** [w <= v] in terms of numeric parts (necessary conditions). *)
Lemma le_core_num a b p q x :
  ccmp (a, (b, (p, q))) x <> Gt ->
  a < fst x \/ (a = fst x /\ (b < fst (snd x) \/ (b = fst (snd x) /\ p <= fst (snd (snd x))))).
Proof.
  destruct x as [a' [b' [p' q']]]. unfold core_cmp, pair_cmp. cbn [fst snd].
  rewrite !then_cmp_gt, !N.compare_gt_iff, !N.compare_eq_iff. intros H. lia.
Qed.

Definition comp_small (checks : bool) (c : comparator) : Prop :=
  checks = true \/
  (c_major c < u64_max /\ (forall m, c_minor c = Some m -> m < u64_max) /\
   (forall p, c_patch c = Some p -> p < u64_max)).

Lemma u64_succ_ok checks x y : u64_succ checks x = Ok y -> checks = true \/ x < u64_max -> y = x + 1.
Proof.
  unfold u64_succ. destruct (x =? u64_max) eqn:E.
  - apply N.eqb_eq in E. destruct checks; [discriminate|]. intros _ [H|H]; [discriminate|lia].
  - intros H _. injection H as <-. reflexivity.
Qed.

Lemma caret_end_spec checks c e v :
  comp_small checks c -> core_v_wf v ->
  caret_end checks c = Ok e ->
  build e = [] /\ core_wf (core_of e) /\
  (prec_le (written c) v ->
   (ccmp (core_of v) (core_of e) = Lt <-> caret_compatible c v)).
Proof.
  intros Hs Hv H. unfold caret_end in H. unfold prec_le, caret_compatible. rewrite prec_core.
  change (core_of (written c)) with (c_major c, (match c_minor c with Some m => m | None => 0 end,
    (match c_patch c with Some p => p | None => 0 end, c_pre c))).
  destruct (c_major c =? 0) eqn:E0.
  - apply N.eqb_eq in E0. rewrite E0 in *.
    destruct (c_minor c) as [m|] eqn:Em.
    + destruct m as [|m].
      * destruct (c_patch c) as [p|] eqn:Ep; simpl in H.
        -- destruct (u64_succ checks p) as [p'| |] eqn:Es; simpl in H; try discriminate.
           injection H as <-. apply u64_succ_ok in Es;
             [|destruct Hs as [->|(_ & _ & Hp)]; [tauto|right; apply Hp; exact Ep]]. subst p'.
           split; [reflexivity|]. split; [reflexivity|]. intros Hle.
           change (core_of (pre_zero 0 0 (p + 1))) with (0, (0, (p + 1, ["0"%string]))).
           rewrite (lt_pre_zero _ _ _ _ Hv). apply le_core_num in Hle. unfold core_of in *; cbn [fst snd] in *.
           split.
           ++ intros HH. split; [lia|]. intros _ m Hm. injection Hm as <-. split; [lia|].
              intros _ q Hq. injection Hq as <-. lia.
           ++ intros (H1 & H2). destruct (H2 eq_refl 0 eq_refl) as (H3 & H4).
              specialize (H4 eq_refl p eq_refl). lia.
        -- injection H as <-.
           split; [reflexivity|]. split; [reflexivity|]. intros Hle.
           change (core_of (pre_zero 0 1 0)) with (0, (1, (0, ["0"%string]))).
           rewrite (lt_pre_zero _ _ _ _ Hv). apply le_core_num in Hle. unfold core_of in *; cbn [fst snd] in *.
           split.
           ++ intros HH. split; [lia|]. intros _ m Hm. injection Hm as <-. split; [lia|].
              intros _ q Hq. discriminate.
           ++ intros (H1 & H2). destruct (H2 eq_refl 0 eq_refl) as (H3 & H4). lia.
      * destruct (u64_succ checks (N.pos m)) as [m'| |] eqn:Es; simpl in H; try discriminate.
        injection H as <-. apply u64_succ_ok in Es;
          [|destruct Hs as [->|(_ & Hm & _)]; [tauto|right; apply Hm; exact Em]]. subst m'.
        split; [reflexivity|]. split; [reflexivity|]. intros Hle.
        change (core_of (pre_zero 0 (N.pos m + 1) 0)) with (0, (N.pos m + 1, (0, ["0"%string]))).
        rewrite (lt_pre_zero _ _ _ _ Hv). apply le_core_num in Hle. unfold core_of in *; cbn [fst snd] in *.
        split.
        ++ intros HH. split; [lia|]. intros _ k Hk. injection Hk as <-. split; [lia|].
           intros; lia.
        ++ intros (H1 & H2). destruct (H2 eq_refl _ eq_refl) as (H3 & H4). lia.
    + destruct (c_patch c) as [p|]; [discriminate|]. injection H as <-.
      split; [reflexivity|]. split; [reflexivity|]. intros Hle.
      change (core_of (pre_zero 1 0 0)) with (1, (0, (0, ["0"%string]))).
      rewrite (lt_pre_zero _ _ _ _ Hv). apply le_core_num in Hle. unfold core_of in *; cbn [fst snd] in *.
      split.
      * intros HH. split; [lia|]. intros _ k Hk. discriminate.
      * intros (H1 & H2). lia.
  - apply N.eqb_neq in E0.
    destruct (u64_succ checks (c_major c)) as [j| |] eqn:Es; simpl in H; try discriminate.
    injection H as <-. apply u64_succ_ok in Es; [|destruct Hs as [->|(Hj & _)]; tauto]. subst j.
    split; [reflexivity|]. split; [reflexivity|]. intros Hle.
    change (core_of (pre_zero (c_major c + 1) 0 0)) with (c_major c + 1, (0, (0, ["0"%string]))).
    rewrite (lt_pre_zero _ _ _ _ Hv). apply le_core_num in Hle. unfold core_of in *; cbn [fst snd] in *.
    split.
    + intros HH. split; [lia|]. intros; lia.
    + intros (H1 & H2). lia.
Qed.

Lemma tilde_end_spec checks c e v :
  comp_small checks c -> core_v_wf v ->
  tilde_end checks c = Ok e ->
  build e = [] /\ core_wf (core_of e) /\
  (prec_le (written c) v ->
   (ccmp (core_of v) (core_of e) = Lt <-> tilde_compatible c v)).
Proof.
  intros Hs Hv H. unfold tilde_end in H. unfold prec_le, tilde_compatible. rewrite prec_core.
  change (core_of (written c)) with (c_major c, (match c_minor c with Some m => m | None => 0 end,
    (match c_patch c with Some p => p | None => 0 end, c_pre c))).
  destruct (c_minor c) as [m|] eqn:Em.
  - destruct (u64_succ checks m) as [m'| |] eqn:Es; simpl in H; try discriminate.
    injection H as <-. apply u64_succ_ok in Es;
      [|destruct Hs as [->|(_ & Hm & _)]; [tauto|right; apply Hm; exact Em]]. subst m'.
    split; [reflexivity|]. split; [reflexivity|]. intros Hle.
    change (core_of (pre_zero (c_major c) (m + 1) 0)) with (c_major c, (m + 1, (0, ["0"%string]))).
    rewrite (lt_pre_zero _ _ _ _ Hv). apply le_core_num in Hle. unfold core_of in *; cbn [fst snd] in *.
    split.
    + intros HH. split; [lia|]. intros k Hk. injection Hk as <-. lia.
    + intros (H1 & H2). specialize (H2 m eq_refl). lia.
  - destruct (c_patch c) as [p|]; [discriminate|].
    destruct (u64_succ checks (c_major c)) as [j| |] eqn:Es; simpl in H; try discriminate.
    injection H as <-. apply u64_succ_ok in Es; [|destruct Hs as [->|(Hj & _)]; tauto]. subst j.
    split; [reflexivity|]. split; [reflexivity|]. intros Hle.
    change (core_of (pre_zero (c_major c + 1) 0 0)) with (c_major c + 1, (0, (0, ["0"%string]))).
    rewrite (lt_pre_zero _ _ _ _ Hv). apply le_core_num in Hle. unfold core_of in *; cbn [fst snd] in *.
    split.
    + intros HH. split; [lia|]. intros k Hk. discriminate.
    + intros (H1 & H2). lia.
Qed.

Lemma written_build c : build (written c) = [].
Proof. reflexivity. Qed.

Lemma written_small checks c : comp_small checks c ->
  checks = true \/ patch (written c) < u64_max \/ pre (written c) <> [].
Proof.
  intros [->|(_ & _ & H)]; [tauto|]. right. left. simpl. destruct (c_patch c); [apply H; reflexivity|].
  reflexivity.
Qed.

(** Denotation of a pair of bounds. *)
Definition in_bounds (s e : bound) (x : core) : Prop := ~ below_start s x /\ ~ above_end e x.

Definition st_inv (checks : bool) (n : nat) (done : list comparator) (st : bound * bound) : Prop :=
  bound_good (fst st) /\ bound_good (snd st) /\
  bound_small checks (fst st) /\ bound_small checks (snd st) /\
  (forall v, core_v_wf v -> in_bounds (fst st) (snd st) (core_of v) <->
             forall c, In c done -> comparator_denotes c v) /\
  (n = 1%nat -> done = [] -> st = (Unbounded, Unbounded)).

Lemma in_bounds_excl_start v e x :
  in_bounds (Exclusive v) e x <-> in_bounds Unbounded e x /\ ccmp (core_of v) x = Lt.
Proof.
  unfold in_bounds. simpl. rewrite (cmp_lt_gt _ CL).
  destruct (ccmp x (core_of v)); intuition congruence.
Qed.
Lemma in_bounds_incl_start v e x :
  in_bounds (Inclusive v) e x <-> in_bounds Unbounded e x /\ ccmp (core_of v) x <> Gt.
Proof.
  unfold in_bounds. simpl. rewrite (cmp_gt_lt _ CL).
  destruct (ccmp x (core_of v)); intuition congruence.
Qed.
Lemma in_bounds_excl_end s v x :
  in_bounds s (Exclusive v) x <-> in_bounds s Unbounded x /\ ccmp x (core_of v) = Lt.
Proof.
  unfold in_bounds. simpl. rewrite (cmp_lt_gt _ CL).
  destruct (ccmp (core_of v) x); intuition congruence.
Qed.
Lemma in_bounds_incl_end s v x :
  in_bounds s (Inclusive v) x <-> in_bounds s Unbounded x /\ ccmp x (core_of v) <> Gt.
Proof.
  unfold in_bounds. simpl. rewrite (cmp_gt_lt _ CL).
  destruct (ccmp (core_of v) x); intuition congruence.
Qed.

Lemma end_pre checks c e :
  caret_end checks c = Ok e \/ tilde_end checks c = Ok e -> pre e = ["0"%string].
Proof.
  unfold caret_end, tilde_end, u64_succ. intros H.
  repeat match goal with
  | H : _ \/ _ |- _ => destruct H
  | H : context [match ?d with _ => _ end] |- _ =>
      match type of d with
      | bool => destruct d | option N => destruct d | N => destruct d
      end; cbn [obind] in H; try discriminate H
  end; injection H as <-; reflexivity.
Qed.

Lemma in_app_single {A} (P : A -> Prop) l (x : A) :
  (forall c, In c (l ++ [x]) -> P c) <-> (forall c, In c l -> P c) /\ P x.
Proof.
  split.
  - intros H. split; [intros c Hc; apply H, in_or_app; tauto|].
    apply H, in_or_app; right; left; reflexivity.
  - intros [H1 H2] c Hc. apply in_app_or in Hc as [Hc|[<-|[]]]; auto.
Qed.

Lemma comp_step_inv checks n done st c st' :
  comparator_wf c = true -> comp_small checks c ->
  (n = 1%nat -> done = []) ->
  st_inv checks n done st -> comp_step checks n st c = Ok st' ->
  st_inv checks n (done ++ [c]) st'.
Proof.
  intros Hwf Hsm Hn (G1 & G2 & S1 & S2 & HD & H1) Hst.
  pose proof (comparator_wf_pre c Hwf) as Hpre.
  pose proof (written_small checks c Hsm) as Hws.
  destruct st as [s e]. cbn [fst snd] in *. unfold comp_step in Hst.
  assert (Hlast : n = 1%nat -> done ++ [c] = [] -> st' = (Unbounded, Unbounded))
    by (intros _ HH; destruct done; discriminate).
  assert (Hgood : bound_good (Exclusive (written c)) /\ bound_good (Inclusive (written c)))
    by (simpl; auto).
  destruct (c_op c) eqn:Eop.
  - (* Exact *)
    destruct (Nat.eqb n 1) eqn:En; [|discriminate]. apply Nat.eqb_eq in En.
    specialize (Hn En). subst done. specialize (H1 En eq_refl). injection H1 as -> ->.
    rewrite comp_to_ver_written in Hst. injection Hst as <-.
    unfold st_inv; cbn [fst snd]. repeat (split; [solve [auto | apply Hgood]|]).
    split; [|exact Hlast].
    intros v Hv. rewrite in_bounds_incl_start, in_bounds_incl_end, (in_app_single _ [] c).
    unfold comparator_denotes. rewrite Eop. unfold prec_eq. rewrite prec_core.
    unfold in_bounds; simpl. split.
    + intros HH. split; [intros ? []|]. apply (cmp_eq_iff _ CL). apply (cle_antisym _ CL); tauto.
    + intros (_ & HH). rewrite (cmp_antisym _ CL (core_of v)), HH. simpl. repeat split; try tauto; discriminate.
  - (* Greater *)
    destruct s; try discriminate. rewrite comp_to_ver_written in Hst. injection Hst as <-.
    unfold st_inv; cbn [fst snd]. repeat (split; [solve [auto | apply Hgood]|]).
    split; [|exact Hlast].
    intros v Hv. rewrite in_bounds_excl_start, (HD v Hv), in_app_single. unfold comparator_denotes at 3. rewrite Eop. reflexivity.
  - destruct s; try discriminate. rewrite comp_to_ver_written in Hst. injection Hst as <-.
    unfold st_inv; cbn [fst snd]. repeat (split; [solve [auto | apply Hgood]|]).
    split; [|exact Hlast].
    intros v Hv. rewrite in_bounds_incl_start, (HD v Hv), in_app_single. unfold comparator_denotes at 3. rewrite Eop. reflexivity.
  - destruct e; try discriminate. rewrite comp_to_ver_written in Hst. injection Hst as <-.
    unfold st_inv; cbn [fst snd]. repeat (split; [solve [auto | apply Hgood]|]).
    split; [|exact Hlast].
    intros v Hv. rewrite in_bounds_excl_end, (HD v Hv), in_app_single. unfold comparator_denotes at 3. rewrite Eop. reflexivity.
  - destruct e; try discriminate. rewrite comp_to_ver_written in Hst. injection Hst as <-.
    unfold st_inv; cbn [fst snd]. repeat (split; [solve [auto | apply Hgood]|]).
    split; [|exact Hlast].
    intros v Hv. rewrite in_bounds_incl_end, (HD v Hv), in_app_single. unfold comparator_denotes at 3. rewrite Eop. reflexivity.
  - (* Tilde *)
    destruct (Nat.eqb n 1) eqn:En; [|discriminate]. apply Nat.eqb_eq in En.
    specialize (Hn En). subst done. specialize (H1 En eq_refl). injection H1 as -> ->.
    rewrite comp_to_ver_written in Hst.
    destruct (tilde_end checks c) as [ev| |] eqn:Ee; simpl in Hst; try discriminate.
    injection Hst as <-.
    pose proof (fun v Hv => tilde_end_spec checks c ev v Hsm Hv Ee) as HT.
    assert (Hnil : core_v_wf (mkVersion 0 0 0 [] [])) by reflexivity.
    destruct (HT _ Hnil) as (B1 & B2 & _).
    pose proof (end_pre checks c ev (or_intror Ee)) as Hpe.
    unfold st_inv; cbn [fst snd bound_good bound_small]. repeat (split; [solve [auto | apply Hgood]|]).
    split. { right. right. rewrite Hpe. discriminate. }
    split; [|exact Hlast].
    intros v Hv. rewrite in_bounds_incl_start, in_bounds_excl_end.
    destruct (HT v Hv) as (_ & _ & HTv).
    rewrite (in_app_single _ [] c). unfold comparator_denotes at 2. rewrite Eop. unfold in_bounds. simpl. unfold prec_le in *.
    rewrite prec_core in *. tauto.
  - (* Caret *)
    destruct (Nat.eqb n 1) eqn:En; [|discriminate]. apply Nat.eqb_eq in En.
    specialize (Hn En). subst done. specialize (H1 En eq_refl). injection H1 as -> ->.
    rewrite comp_to_ver_written in Hst.
    destruct (caret_end checks c) as [ev| |] eqn:Ee; simpl in Hst; try discriminate.
    injection Hst as <-.
    pose proof (fun v Hv => caret_end_spec checks c ev v Hsm Hv Ee) as HT.
    assert (Hnil : core_v_wf (mkVersion 0 0 0 [] [])) by reflexivity.
    destruct (HT _ Hnil) as (B1 & B2 & _).
    pose proof (end_pre checks c ev (or_introl Ee)) as Hpe.
    unfold st_inv; cbn [fst snd bound_good bound_small]. repeat (split; [solve [auto | apply Hgood]|]).
    split. { right. right. rewrite Hpe. discriminate. }
    split; [|exact Hlast].
    intros v Hv. rewrite in_bounds_incl_start, in_bounds_excl_end.
    destruct (HT v Hv) as (_ & _ & HTv).
    rewrite (in_app_single _ [] c). unfold comparator_denotes at 2. rewrite Eop. unfold in_bounds. simpl. unfold prec_le in *.
    rewrite prec_core in *. tauto.
  - discriminate.
Qed.

Lemma comp_loop_inv checks n cs : forall done st st',
  (forall c, In c cs -> comparator_wf c = true /\ comp_small checks c) ->
  (n = 1%nat -> (List.length (done ++ cs) <= 1)%nat) ->
  st_inv checks n done st -> comp_loop checks n st cs = Ok st' ->
  st_inv checks n (done ++ cs) st'.
Proof.
  induction cs as [|c cs IH]; intros done st st' Hcs Hn Hinv H; cbn [comp_loop] in H.
  - injection H as <-. rewrite app_nil_r. exact Hinv.
  - destruct (comp_step checks n st c) as [st1| |] eqn:E; simpl in H; try discriminate.
    destruct (Hcs c (or_introl eq_refl)) as [Hwf Hsm].
    replace (done ++ c :: cs) with ((done ++ [c]) ++ cs) in * by (rewrite <- app_assoc; reflexivity).
    eapply IH; [intros c' Hc'; apply Hcs; right; exact Hc'|exact Hn| |exact H].
    eapply comp_step_inv; eauto.
    intros E1. specialize (Hn E1). rewrite !app_length in Hn. simpl in Hn.
    destruct done; [reflexivity|simpl in Hn; lia].
Qed.

Lemma urange_of_req_spec checks r u :
  req_wf r = true -> (forall c, In c r -> comp_small checks c) ->
  urange_of_req checks r = Ok u ->
  u_good u /\ u_small checks u /\
  forall v, core_v_wf v -> in_urange u (core_of v) <-> req_denotes r v.
Proof.
  intros Hwf Hsm H. unfold urange_of_req in H.
  destruct (Nat.ltb 2 (List.length r)); [discriminate|].
  destruct (comp_loop checks (List.length r) (Unbounded, Unbounded) r) as [[s e]| |] eqn:E;
    simpl in H; try discriminate.
  unfold urange_new in H. destruct (less_or_equal s e) eqn:Ele; [|discriminate].
  injection H as <-.
  assert (Hinv : st_inv checks (List.length r) ([] ++ r) (s, e)).
  { eapply comp_loop_inv; [| | |exact E].
    - intros c Hc. split; [|auto]. unfold req_wf in Hwf. rewrite forallb_forall in Hwf. auto.
    - simpl. lia.
    - repeat split; simpl; auto; intros; tauto. }
  destruct Hinv as (G1 & G2 & S1 & S2 & HD & _). cbn [fst snd] in *.
  split; [repeat split; auto|]. split; [split; auto|].
  intros v Hv. exact (HD v Hv).
Qed.

Lemma omap_ok {A B} (f : A -> outcome B) l l' : omap f l = Ok l' ->
  (forall x, In x l -> exists y, In y l' /\ f x = Ok y) /\
  (forall y, In y l' -> exists x, In x l /\ f x = Ok y).
Proof.
  revert l'. induction l as [|a l IH]; simpl; intros l' H.
  - injection H as <-. split; intros ? [].
  - destruct (f a) as [b| |] eqn:Ef; simpl in H; try discriminate.
    destruct (omap f l) as [bs| |]; simpl in H; try discriminate. injection H as <-.
    destruct (IH bs eq_refl) as [I1 I2]. split.
    + intros x [<-|Hx]; [exists b; simpl; auto|].
      destruct (I1 x Hx) as (y & ? & ?). exists y. simpl; auto.
    + intros y [<-|Hy]; [exists a; simpl; auto|].
      destruct (I2 y Hy) as (x & ? & ?). exists x. simpl; auto.
Qed.

Lemma version_wf_core v : version_wf v = true -> core_v_wf v.
Proof. unfold version_wf. rewrite !andb_true_iff. intros ((_ & H) & _). exact H. Qed.

Lemma silent_small checks reqs r c :
  no_silent_overflow checks reqs -> In r reqs -> In c r -> comp_small checks c.
Proof.
  intros [H|H] Hr Hc; [left; exact H|right]. destruct (H r c Hr Hc) as (H1 & H2 & H3). auto.
Qed.

(** Everything we know about the list of ranges built from requirement lists. *)
Lemma collect_spec checks u p us ps :
  reqs_wf (p ++ u) -> no_silent_overflow checks (p ++ u) ->
  omap (urange_of_req checks) u = Ok us -> omap (urange_of_req checks) p = Ok ps ->
  (forall w, In w (us ++ ps) -> u_good w /\ u_small checks w) /\
  (forall v, core_v_wf v ->
     ((exists w, In w (us ++ ps) /\ in_urange w (core_of v)) <-> declared_safe (p ++ u) v)).
Proof.
  intros Hwf Hno Hu Hp.
  apply omap_ok in Hu as [U1 U2]. apply omap_ok in Hp as [P1 P2].
  assert (HS : forall r w, In r (p ++ u) -> urange_of_req checks r = Ok w ->
            u_good w /\ u_small checks w /\
            forall v, core_v_wf v -> in_urange w (core_of v) <-> req_denotes r v).
  { intros r w Hr Hw. apply urange_of_req_spec; auto.
    intros c Hc. eapply silent_small; eauto. }
  assert (HB : forall w, In w (us ++ ps) -> exists r, In r (p ++ u) /\ urange_of_req checks r = Ok w).
  { intros w Hw. apply in_app_or in Hw as [Hw|Hw].
    - destruct (U2 w Hw) as (r & ? & ?). exists r. split; auto. apply in_or_app; auto.
    - destruct (P2 w Hw) as (r & ? & ?). exists r. split; auto. apply in_or_app; auto. }
  split.
  - intros w Hw. destruct (HB w Hw) as (r & Hr & He). destruct (HS r w Hr He) as (? & ? & _). auto.
  - intros v Hv. split.
    + intros (w & Hw & Hin). destruct (HB w Hw) as (r & Hr & He).
      exists r. split; [exact Hr|]. apply (HS r w Hr He); auto.
    + intros (r & Hr & Hd). apply in_app_or in Hr as Hr'.
      assert (exists w, In w (us ++ ps) /\ urange_of_req checks r = Ok w) as (w & Hw & He).
      { destruct Hr' as [Hr'|Hr'].
        - destruct (P1 r Hr') as (w & ? & ?). exists w. split; auto. apply in_or_app; auto.
        - destruct (U1 r Hr') as (w & ? & ?). exists w. split; auto. apply in_or_app; auto. }
      exists w. split; [exact Hw|]. apply (HS r w Hr He); auto.
Qed.

(** * The main theorem *)
Theorem is_vulnerable_correct checks p u vs v :
  reqs_wf (p ++ u) -> no_silent_overflow checks (p ++ u) -> version_wf v = true ->
  versions_new checks p u = Ok vs ->
  exists b, is_vulnerable checks vs v = Ok b /\ (b = true <-> ~ declared_safe (p ++ u) v).
Proof.
  intros Hwf Hno Hv H. apply version_wf_core in Hv. unfold versions_new in H.
  destruct (unaffected_to_osv_ranges checks u p) as [rs| |] eqn:E; simpl in H; try discriminate.
  injection H as <-. unfold is_vulnerable, ranges_for_advisory. cbn [patched unaffected].
  rewrite E. simpl. eexists; split; [reflexivity|].
  unfold unaffected_to_osv_ranges in E.
  destruct (omap (urange_of_req checks) u) as [us| |] eqn:Eu; simpl in E; try discriminate.
  destruct (omap (urange_of_req checks) p) as [ps| |] eqn:Ep; simpl in E; try discriminate.
  destruct (collect_spec checks u p us ps Hwf Hno Eu Ep) as [HG HS].
  pose proof (ranges_of_uranges_spec checks (us ++ ps) rs v HG Hv E) as HR. unfold aff in HR.
  rewrite HR, <- (HS v Hv). split.
  - intros Hn (w & Hw & Hin). exact (Hn w Hw Hin).
  - intros Hn w Hw Hin. apply Hn. eauto.
Qed.
