(** Proofs about the OSV export: the timeline. *)
From Coq Require Import List NArith ZArith Ascii String Bool Lia Sorted Permutation.
From Verif Require Import Base StrLib SemverModel SemverFacts OsvModel OsvSpec OsvProofs OsvProofs2 OsvProofs3 OsvProofs4 OsvProofs5 OsvProofs6
  VerText OsvAdvModel OsvAdvSpec.
Import ListNotations.

(** ** The versions written are well-formed *)
Definition opt_wf (o : option version) : Prop := match o with Some v => version_wf v = true | None => True end.
Definition bound_wf (b : bound) : Prop := opt_wf (bound_version b).
Definition osv_wf (r : osv_range) : Prop := opt_wf (introduced r) /\ opt_wf (fixed r).

Lemma wf_parts a b c q : (a <= u64_max)%N -> (b <= u64_max)%N -> (c <= u64_max)%N -> forallb ident_wf q = true ->
  version_wf (mkVersion a b c q []) = true.
Proof.
  intros A B C Q. unfold version_wf. cbn [major minor patch pre build forallb]. rewrite Q.
  apply N.leb_le in A, B, C. rewrite A, B, C. reflexivity.
Qed.
Lemma comp_wf_ver c : comparator_wf c = true -> version_wf (comp_to_ver c) = true.
Proof.
  unfold comparator_wf. rewrite !andb_true_iff. intros (((((A & B) & C) & _) & _) & P). unfold comp_to_ver.
  apply wf_parts; [apply N.leb_le, A| | |exact P].
  - destruct (c_minor c); [apply N.leb_le, B|discriminate].
  - destruct (c_patch c); [apply N.leb_le, C|discriminate].
Qed.
Lemma succ_bound checks x y : u64_succ checks x = Ok y -> (x <= u64_max)%N -> (y <= u64_max)%N.
Proof.
  unfold u64_succ. destruct (x =? u64_max)%N eqn:E; [destruct checks; [discriminate|]|]; intros H L.
  - injection H as <-. discriminate.
  - injection H as <-. apply N.eqb_neq in E. lia.
Qed.
Lemma wf_bounds v : version_wf v = true -> (major v <= u64_max)%N /\ (minor v <= u64_max)%N /\ (patch v <= u64_max)%N /\ forallb ident_wf (pre v) = true.
Proof. unfold version_wf. rewrite !andb_true_iff, !N.leb_le. tauto. Qed.
Lemma increment_wf checks v w : version_wf v = true -> increment checks v = Ok w -> version_wf w = true.
Proof.
  intros W. apply wf_bounds in W as (A & B & C & P). unfold increment. destruct (pre v) as [|x q] eqn:E.
  - destruct (u64_succ checks (patch v)) as [n| |] eqn:S; cbn [obind]; intros H; try discriminate. injection H as <-.
    apply wf_parts; auto. eapply succ_bound; eauto.
  - intros H. injection H as <-. apply wf_parts; auto. change (forallb ident_wf ((x :: q) ++ ["0"%string]) = true).
    rewrite forallb_app, P. reflexivity.
Qed.
Lemma pre_zero_wf a b c : (a <= u64_max)%N -> (b <= u64_max)%N -> (c <= u64_max)%N -> version_wf (pre_zero a b c) = true.
Proof. intros. apply wf_parts; auto. Qed.
Lemma one_le : (1 <= u64_max)%N. Proof. discriminate. Qed.
Lemma zero_le : (0 <= u64_max)%N. Proof. discriminate. Qed.
Lemma comp_wf_minor c : comparator_wf c = true -> (c_major c <= u64_max)%N /\
  (forall m, c_minor c = Some m -> (m <= u64_max)%N) /\ (forall m, c_patch c = Some m -> (m <= u64_max)%N).
Proof.
  unfold comparator_wf. rewrite !andb_true_iff. intros (((((A & B) & C) & _) & _) & _). apply N.leb_le in A.
  split; [exact A|]. split; intros m E; [rewrite E in B|rewrite E in C]; apply N.leb_le; assumption.
Qed.
Lemma caret_end_wf checks c e : comparator_wf c = true -> caret_end checks c = Ok e -> version_wf e = true.
Proof.
  intros W. apply comp_wf_minor in W as (A & B & C). unfold caret_end.
  assert (ST : forall x, (x <= u64_max)%N -> forall f, (forall y, (y <= u64_max)%N -> version_wf (f y) = true) ->
    (let? y := u64_succ checks x in Ok (f y)) = Ok e -> version_wf e = true).
  { intros x L f F. destruct (u64_succ checks x) as [y| |] eqn:S; cbn [obind]; intros H; try discriminate. injection H as <-.
    apply F. eapply succ_bound; eauto. }
  pose proof one_le. pose proof zero_le.
  destruct (c_major c =? 0)%N.
  - destruct (c_minor c) as [[|m]|] eqn:M; destruct (c_patch c) as [p|] eqn:P; intros H1; try discriminate.
    + apply (ST p (C p eq_refl) (fun y => pre_zero 0 0 y)); auto. intros; apply pre_zero_wf; auto.
    + apply (ST 0%N H0 (fun y => pre_zero 0 y 0)); auto. intros; apply pre_zero_wf; auto.
    + apply (ST (N.pos m) (B _ eq_refl) (fun y => pre_zero 0 y 0)); auto. intros; apply pre_zero_wf; auto.
    + apply (ST (N.pos m) (B _ eq_refl) (fun y => pre_zero 0 y 0)); auto. intros; apply pre_zero_wf; auto.
    + injection H1 as <-. apply pre_zero_wf; auto.
  - intros H1. apply (ST (c_major c) A (fun y => pre_zero y 0 0)); auto. intros; apply pre_zero_wf; auto.
Qed.
Lemma tilde_end_wf checks c e : comparator_wf c = true -> tilde_end checks c = Ok e -> version_wf e = true.
Proof.
  intros W. apply comp_wf_minor in W as (A & B & C). unfold tilde_end.
  assert (ST : forall x, (x <= u64_max)%N -> forall f, (forall y, (y <= u64_max)%N -> version_wf (f y) = true) ->
    (let? y := u64_succ checks x in Ok (f y)) = Ok e -> version_wf e = true).
  { intros x L f F. destruct (u64_succ checks x) as [y| |] eqn:S; cbn [obind]; intros H; try discriminate. injection H as <-.
    apply F. eapply succ_bound; eauto. }
  pose proof one_le. pose proof zero_le.
  destruct (c_minor c) as [m|] eqn:M.
  - intros H1. apply (ST m (B m eq_refl) (fun y => pre_zero (c_major c) y 0)); auto. intros; apply pre_zero_wf; auto.
  - destruct (c_patch c); [discriminate|]. intros H1. apply (ST (c_major c) A (fun y => pre_zero y 0 0)); auto. intros; apply pre_zero_wf; auto.
Qed.
Lemma comp_step_wf checks n s e c s' e' : comparator_wf c = true -> bound_wf s -> bound_wf e ->
  comp_step checks n (s, e) c = Ok (s', e') -> bound_wf s' /\ bound_wf e'.
Proof.
  intros W S E. pose proof (comp_wf_ver c W) as V. unfold comp_step.
  destruct (c_op c); repeat match goal with |- context [if ?b then _ else _] => destruct b end; try discriminate;
    try (intros H; injection H as <- <-; split; auto; fail).
  - destruct (tilde_end checks c) as [t| |] eqn:T; cbn [obind]; intros H; try discriminate. injection H as <- <-.
    split; [exact V|exact (tilde_end_wf _ _ _ W T)].
  - destruct (caret_end checks c) as [t| |] eqn:T; cbn [obind]; intros H; try discriminate. injection H as <- <-.
    split; [exact V|exact (caret_end_wf _ _ _ W T)].
Qed.
Lemma comp_loop_wf checks n cs : forall s e s' e', forallb comparator_wf cs = true -> bound_wf s -> bound_wf e ->
  comp_loop checks n (s, e) cs = Ok (s', e') -> bound_wf s' /\ bound_wf e'.
Proof.
  induction cs as [|c cs IH]; cbn [comp_loop forallb]; intros s e s' e' W S E H.
  - injection H as <- <-. auto.
  - apply andb_true_iff in W as [W1 W2]. destruct (comp_step checks n (s, e) c) as [[s1 e1]| |] eqn:C; cbn [obind] in H; try discriminate.
    destruct (comp_step_wf _ _ _ _ _ _ _ W1 S E C) as [S1 E1]. exact (IH s1 e1 s' e' W2 S1 E1 H).
Qed.
Lemma urange_wf checks r u : req_wf r = true -> urange_of_req checks r = Ok u -> bound_wf (u_start u) /\ bound_wf (u_end u).
Proof.
  intros W. unfold urange_of_req. destruct (Nat.ltb 2 (List.length r)); [discriminate|].
  destruct (comp_loop checks (List.length r) (Unbounded, Unbounded) r) as [[s e]| |] eqn:C; cbn [obind]; intros H; try discriminate.
  unfold urange_new in H. cbn [fst snd] in H. destruct (less_or_equal s e); [|discriminate]. injection H as <-. cbn [u_start u_end].
  exact (comp_loop_wf checks _ r Unbounded Unbounded s e W Logic.I Logic.I C).
Qed.
Lemma ranges_wf checks p u rs : reqs_wf (p ++ u) -> unaffected_to_osv_ranges checks u p = Ok rs -> Forall osv_wf rs.
Proof.
  intros W. unfold unaffected_to_osv_ranges.
  destruct (omap (urange_of_req checks) u) as [us| |] eqn:U; cbn [obind]; try discriminate.
  destruct (omap (urange_of_req checks) p) as [ps| |] eqn:P; cbn [obind]; try discriminate.
  assert (B : forall w, In w (us ++ ps) -> bound_wf (u_start w) /\ bound_wf (u_end w)).
  { apply omap_ok in U as [_ U]. apply omap_ok in P as [_ P]. intros w I. apply in_app_or in I as [I|I].
    - destruct (U w I) as (r & R & E). apply (urange_wf checks r); [apply W, in_or_app; auto|exact E].
    - destruct (P w I) as (r & R & E). apply (urange_wf checks r); [apply W, in_or_app; auto|exact E]. }
  unfold ranges_of_uranges. destruct (us ++ ps)%list as [|u0 l0] eqn:EL; [intros H; injection H as <-; constructor; [split; exact Logic.I|constructor]|].
  rewrite <- EL in *. destruct (any_overlap (us ++ ps)); [discriminate|].
  destruct (sort_ranges (us ++ ps)) as [s| |] eqn:S; cbn [obind]; try discriminate.
  apply sort_ranges_perm in S. destruct s as [|r l]; [discriminate|].
  assert (B' : forall w, In w (r :: l) -> bound_wf (u_start w) /\ bound_wf (u_end w)).
  { intros w I. apply B. eapply Permutation_in; [symmetry; exact S|exact I]. }
  clear - B'. destruct (first_range checks r) as [f| |] eqn:F; cbn [obind]; try discriminate.
  destruct (gaps checks r l) as [g| |] eqn:G; cbn [obind]; try discriminate. intros H. injection H as <-.
  apply Forall_app. split.
  - destruct (B' r (or_introl eq_refl)) as [X _]. unfold first_range, bound_wf in *. destruct (u_start r) as [|v|v]; cbn in X.
    + injection F as <-. constructor.
    + destruct (increment checks v) as [i| |] eqn:I; cbn [obind] in F; try discriminate. injection F as <-.
      constructor; [split; [exact Logic.I|exact (increment_wf _ _ _ X I)]|constructor].
    + injection F as <-. constructor; [split; [exact Logic.I|exact X]|constructor].
  - clear F f. revert r g B' G. induction l as [|r1 l IH]; intros r g B' G; cbn [gaps] in G.
    + destruct (B' r (or_introl eq_refl)) as [_ X]. unfold last_range, bound_wf in *. destruct (u_end r) as [|v|v]; cbn in X.
      * injection G as <-. constructor.
      * injection G as <-. constructor; [split; [exact X|exact Logic.I]|constructor].
      * destruct (increment checks v) as [i| |] eqn:I; cbn [obind] in G; try discriminate. injection G as <-.
        constructor; [split; [exact (increment_wf _ _ _ X I)|exact Logic.I]|constructor].
    + destruct (gap_range checks r r1) as [g0| |] eqn:E; cbn [obind] in G; try discriminate.
      destruct (gaps checks r1 l) as [gs| |] eqn:GS; cbn [obind] in G; try discriminate. injection G as <-.
      constructor; [|apply (IH r1); [intros w I; apply B'; right; exact I|exact GS]].
      destruct (B' r (or_introl eq_refl)) as [_ X]. destruct (B' r1 (or_intror (or_introl eq_refl))) as [Y _].
      unfold gap_range, bound_wf in *.
      destruct (u_end r) as [|v|v]; cbn in X; [discriminate| |].
      * cbn [obind] in E. destruct (u_start r1) as [|w|w]; cbn in Y; [discriminate| |].
        -- destruct (increment checks w) as [i| |] eqn:I; cbn [obind] in E; try discriminate. injection E as <-. split; [exact X|exact (increment_wf _ _ _ Y I)].
        -- cbn [obind] in E. injection E as <-. split; [exact X|exact Y].
      * destruct (increment checks v) as [iv| |] eqn:IV; cbn [obind] in E; try discriminate. pose proof (increment_wf _ _ _ X IV) as X'.
        destruct (u_start r1) as [|w|w]; cbn in Y; [discriminate| |].
        -- destruct (increment checks w) as [i| |] eqn:I; cbn [obind] in E; try discriminate. injection E as <-. split; [exact X'|exact (increment_wf _ _ _ Y I)].
        -- cbn [obind] in E. injection E as <-. split; [exact X'|exact Y].
Qed.

(** ** Evaluating the timeline *)
Lemma at_most_iff a b : at_most a b = true <-> prec_le a b.
Proof. unfold at_most, prec_le. destruct (prec_cmp a b); intuition congruence. Qed.
Lemma ple_core a b : prec_le a b <-> ccmp (core_of a) (core_of b) <> Gt.
Proof. unfold prec_le. rewrite prec_cmp_core. reflexivity. Qed.
Lemma ple_trans a b c : prec_le a b -> prec_le b c -> prec_le a c.
Proof. rewrite !ple_core. apply (cle_trans _ CL). Qed.
Lemma plt_not_le a b : prec_lt a b <-> ~ prec_le b a.
Proof.
  unfold prec_lt, prec_le. rewrite !prec_cmp_core. rewrite (cmp_antisym _ CL (core_of b) (core_of a)).
  destruct (ccmp (core_of b) (core_of a)); cbn; split; intros H; try discriminate; try (exfalso; apply H; discriminate); auto.
Qed.
Lemma bottom_le v : version_wf v = true -> prec_le version_0_0_0_pre0 v.
Proof. intros W. apply ple_core. apply (bottom_least (core_of v)). apply version_wf_core, W. Qed.

Definition start_of (r : osv_range) : version := match introduced r with Some v => v | None => version_0_0_0_pre0 end.
Definition evs_of (r : osv_range) : list (ev_kind * version) :=
  (EIntroduced, start_of r) :: match fixed r with Some f => [(EFixed, f)] | None => [] end.

Lemma parse_bottom : parse_version "0.0.0-0" = Some version_0_0_0_pre0. Proof. reflexivity. Qed.
Lemma read_range_events r : osv_wf r -> map read_event (map j_event (range_events r)) = map Some (evs_of r).
Proof.
  intros [W1 W2]. unfold range_events, evs_of, start_of. destruct (introduced r) as [i|], (fixed r) as [f|]; cbn in W1, W2;
    cbn [map app j_event read_event]; rewrite ?parse_print_version by assumption; rewrite ?parse_bottom; reflexivity.
Qed.
Lemma read_all rs : Forall osv_wf rs -> map read_event (map j_event (List.concat (map range_events rs))) = map Some (List.concat (map evs_of rs)).
Proof.
  induction 1 as [|r rs W _ IH]; [reflexivity|]. cbn [map List.concat]. rewrite !map_app, IH, read_range_events by assumption. reflexivity.
Qed.
Lemma all_some_map {A} (l : list A) : all_some (map Some l) = Some l.
Proof. induction l as [|x l IH]; [reflexivity|]. cbn [map all_some]. rewrite IH. reflexivity. Qed.

Definition pairs (rs : list osv_range) := map (fun r => (introduced r, fixed r)) rs.
Lemma pairs_inv r rs : osv_export_ok (pairs (r :: rs)) ->
  Forall (fun b => exists f i, fixed r = Some f /\ introduced b = Some i /\ prec_le f i) rs /\
  (forall i f, introduced r = Some i -> fixed r = Some f -> prec_le i f) /\ osv_export_ok (pairs rs).
Proof.
  intros [O F]. cbn [pairs map] in O, F. inversion O as [|? ? O1 O2]; subst. inversion F as [|? ? F1 F2]; subst.
  split; [|split; [exact F1|split; assumption]]. apply Forall_forall. intros b B. rewrite Forall_forall in O1.
  destruct (O1 (introduced b, fixed b)) as (f & i & E1 & E2 & L); [apply in_map_iff; exists b; auto|]. exists f, i. auto.
Qed.
(** Sorted already. *)
Definition from (v : version) (l : list (ev_kind * version)) : Prop := Forall (fun e => prec_le v (snd e)) l.
Lemma later_from rs v : (forall r, In r rs -> exists i, introduced r = Some i /\ prec_le v i) -> osv_export_ok (pairs rs) ->
  from v (List.concat (map evs_of rs)).
Proof.
  intros H O. apply Forall_forall. intros e E. apply in_concat in E as (l & L & E). apply in_map_iff in L as (r & <- & R).
  destruct (H r R) as (i & Ei & Li). unfold evs_of, start_of in E. rewrite Ei in E. destruct E as [<-|E]; [exact Li|].
  destruct (fixed r) as [f|] eqn:Ef; [|destruct E]. destruct E as [<-|[]]. cbn [snd]. apply (ple_trans v i f Li).
  destruct O as [_ F]. rewrite Forall_forall in F. apply (F (introduced r, fixed r)); [apply in_map_iff; exists r; auto|exact Ei|exact Ef].
Qed.
Lemma insert_first e l : from (snd e) l -> ev_insert e l = e :: l.
Proof. intros F. destruct l as [|x l]; [reflexivity|]. cbn [ev_insert]. inversion F as [|? ? A _]; subst. apply at_most_iff in A. rewrite A. reflexivity. Qed.
Lemma start_le_fixed r f : osv_wf r -> (forall i f, introduced r = Some i -> fixed r = Some f -> prec_le i f) -> fixed r = Some f -> prec_le (start_of r) f.
Proof.
  intros [_ W] H E. rewrite E in W. unfold start_of. destruct (introduced r) as [i|]; [apply (H i f eq_refl E)|apply bottom_le, W].
Qed.
Lemma timeline_sorted rs : Forall osv_wf rs -> osv_export_ok (pairs rs) -> ev_sort (List.concat (map evs_of rs)) = List.concat (map evs_of rs).
Proof.
  induction rs as [|r rs IH]; intros W O; [reflexivity|]. inversion W as [|? ? W1 W2]; subst.
  apply pairs_inv in O as (L & I & O). cbn [map List.concat]. unfold evs_of at 1 3.
  destruct (fixed r) as [f|] eqn:Ef.
  - assert (FF : from f (List.concat (map evs_of rs))).
    { apply later_from; [|exact O]. intros b B. rewrite Forall_forall in L. destruct (L b B) as (f' & i & E1 & E2 & P).
      injection E1 as <-. exists i. auto. }
    pose proof (start_le_fixed r f W1 ltac:(rewrite Ef; exact I) Ef) as SF.
    cbn [app ev_sort fold_right]. fold (ev_sort (List.concat (map evs_of rs))). rewrite (IH W2 O), (insert_first (EFixed, f)) by exact FF.
    apply insert_first. constructor; [exact SF|]. cbn [snd]. revert FF. unfold from. rewrite !Forall_forall. intros FF e E. eapply ple_trans; [exact SF|apply FF, E].
  - destruct rs as [|b rs]; [reflexivity|]. inversion L as [|? ? (f' & i & E1 & _) _]; subst. discriminate.
Qed.
Lemma fold_late v l b : Forall (fun e => ~ prec_le (snd e) v /\ fst e <> ELastAffected) l -> fold_left (ev_step v) l b = b.
Proof.
  revert b. induction l as [|e l IH]; intros b F; [reflexivity|]. inversion F as [|? ? [A D] F']; subst. cbn [fold_left].
  assert (E : ev_step v b e = b).
  { unfold ev_step. rewrite <- at_most_iff in A. apply not_true_is_false in A. destruct e as [[] w]; cbn [fst snd] in *; rewrite ?A; congruence. }
  rewrite E. apply IH, F'.
Qed.
Lemma evs_kinds rs e : In e (List.concat (map evs_of rs)) -> fst e <> ELastAffected.
Proof.
  intros E. apply in_concat in E as (l & L & E). apply in_map_iff in L as (r & <- & _). unfold evs_of in E.
  destruct E as [<-|E]; [discriminate|]. destruct (fixed r); [destruct E as [<-|[]]; discriminate|destruct E].
Qed.
Lemma timeline_verdict v rs : version_wf v = true -> Forall osv_wf rs -> osv_export_ok (pairs rs) ->
  fold_left (ev_step v) (List.concat (map evs_of rs)) false = true <-> in_some_range (pairs rs) v.
Proof.
  intros V. induction rs as [|r rs IH]; intros W O.
  - cbn. split; [discriminate|intros (x & [] & _)].
  - inversion W as [|? ? W1 W2]; subst. apply pairs_inv in O as (L & I & O). cbn [map List.concat]. rewrite fold_left_app.
    assert (SR : in_some_range (pairs (r :: rs)) v <-> in_range (introduced r, fixed r) v \/ in_some_range (pairs rs) v).
    { unfold in_some_range. cbn [pairs map]. split.
      - intros (x & [<-|X] & H); [left; exact H|right; exists x; auto].
      - intros [H|(x & X & H)]; [eexists; split; [left; reflexivity|exact H]|exists x; split; [right; exact X|exact H]]. }
    rewrite SR.
    change (evs_of r) with ((EIntroduced, start_of r) :: match fixed r with Some f => [(EFixed, f)] | None => [] end). cbn [fold_left].
    assert (S0 : ev_step v false (EIntroduced, start_of r) = true <-> forall i, introduced r = Some i -> prec_le i v).
    { unfold ev_step, start_of. cbn [fst snd]. destruct (introduced r) as [i|].
      - destruct (at_most i v) eqn:A; [apply at_most_iff in A|]; split; intros H; auto.
        + intros j [= <-]. exact A.
        + discriminate.
        + assert (at_most i v = true) by (apply at_most_iff, H; reflexivity). congruence.
      - pose proof (bottom_le v V) as B. apply at_most_iff in B. rewrite B. split; [intros _ i; discriminate|reflexivity]. }
    destruct (fixed r) as [f|] eqn:Ef.
    + cbn [fold_left]. change (ev_step v (ev_step v false (EIntroduced, start_of r)) (EFixed, f))
        with (if at_most f v then false else ev_step v false (EIntroduced, start_of r)).
      destruct (at_most f v) eqn:A.
      * rewrite (IH W2 O). split; [auto|]. intros [[_ H]|H]; [|exact H]. exfalso. apply at_most_iff in A.
        specialize (H f eq_refl). apply plt_not_le in H. exact (H A).
      * assert (LT : prec_lt v f) by (apply plt_not_le; intros C; apply at_most_iff in C; congruence).
        assert (LATE : Forall (fun e => ~ prec_le (snd e) v /\ fst e <> ELastAffected) (List.concat (map evs_of rs))).
        { apply Forall_forall. intros e E. split; [|eapply evs_kinds; eauto]. intros C. apply plt_not_le in LT. apply LT.
          assert (FF : from f (List.concat (map evs_of rs))).
          { apply later_from; [|exact O]. intros b B. rewrite Forall_forall in L. destruct (L b B) as (f' & i & E1 & E2 & P).
            injection E1 as <-. exists i. auto. }
          unfold from in FF. rewrite Forall_forall in FF. eapply ple_trans; [apply FF, E|exact C]. }
        rewrite (fold_late _ _ _ LATE), S0. split.
        -- intros H. left. split; [exact H|]. cbn. intros f' [= <-]. exact LT.
        -- intros [[H _]|H]; [exact H|]. exfalso. apply (IH W2 O) in H. rewrite (fold_late _ _ _ LATE) in H. discriminate.
    + destruct rs as [|b rs]; [|inversion L as [|? ? (f' & i & E1 & _) _]; subst; discriminate]. cbn [map List.concat fold_left].
      rewrite S0. split.
      * intros H. left. split; [exact H|]. cbn. discriminate.
      * intros [[H _]|(x & [] & _)]. exact H.
Qed.
