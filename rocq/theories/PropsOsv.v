(** Property theorems C01-C11 (advisory version ranges and the OSV export).
    [checks] is the build profile: [true] with overflow checks, [false] without. *)
From Coq Require Import List NArith Ascii String Bool Permutation.
From Verif Require Import Base SemverModel OsvModel OsvSpec OsvProofs OsvProofs2 OsvProofs3 OsvProofs4 OsvProofs5 OsvProofs6.
Import ListNotations.
Local Open Scope N_scope.

(** Example data: [patched = [">=1.2.3, <2.0.0", ">=2.1.0-rc.1"]], [unaffected = ["<0.9.0"]]. *)
Definition cmpr (o : op) (a b c : N) (q : list string) : comparator := mkComparator o a (Some b) (Some c) q.
Definition ex_patched : list version_req :=
  [[cmpr OpGreaterEq 1 2 3 []; cmpr OpLess 2 0 0 []]; [cmpr OpGreaterEq 2 1 0 ["rc"%string; "1"%string]]].
Definition ex_unaffected : list version_req := [[cmpr OpLess 0 9 0 []]].
Definition ver (a b c : N) (q : list string) : version := mkVersion a b c q [].

(** ** C01 *)
Theorem C01_vulnerable_iff_outside_safe_ranges : forall checks p u vs v,
  reqs_wf (p ++ u) -> no_silent_overflow checks (p ++ u) -> version_wf v = true ->
  versions_new checks p u = Ok vs ->
  exists b, is_vulnerable checks vs v = Ok b /\ (b = true <-> ~ declared_safe (p ++ u) v).
Proof. exact is_vulnerable_correct. Qed.
Print Assumptions C01_vulnerable_iff_outside_safe_ranges.

Example C01_nonvacuous :
  reqs_wf (ex_patched ++ ex_unaffected) /\ no_silent_overflow false (ex_patched ++ ex_unaffected) /\
  versions_new false ex_patched ex_unaffected = Ok (mkVersions ex_patched ex_unaffected) /\
  is_vulnerable false (mkVersions ex_patched ex_unaffected) (ver 1 2 2 []) = Ok true /\
  is_vulnerable false (mkVersions ex_patched ex_unaffected) (ver 1 2 3 []) = Ok false /\
  is_vulnerable false (mkVersions ex_patched ex_unaffected) (ver 2 1 0 ["rc"%string; "0"%string]) = Ok true.
Proof.
  split; [intros r Hr; repeat (destruct Hr as [<-|Hr]; [reflexivity|]); destruct Hr|].
  split.
  { right. intros r c Hr Hc.
    repeat (destruct Hr as [<-|Hr]; [repeat (destruct Hc as [<-|Hc]; [repeat split; intros ? E; inversion E; reflexivity|]); destruct Hc|]).
    destruct Hr. }
  repeat split.
Qed.

(** ** C02 *)
Theorem C02_osv_ranges_ordered_and_disjoint : forall checks p u rs,
  reqs_wf (p ++ u) -> no_silent_overflow checks (p ++ u) ->
  unaffected_to_osv_ranges checks u p = Ok rs ->
  osv_export_ok (map (fun r => (introduced r, fixed r)) rs).
Proof. exact osv_export_shape. Qed.
Print Assumptions C02_osv_ranges_ordered_and_disjoint.

Theorem C02_osv_ranges_cover_exactly_the_vulnerable_versions : forall checks p u rs v,
  reqs_wf (p ++ u) -> no_silent_overflow checks (p ++ u) -> version_wf v = true ->
  unaffected_to_osv_ranges checks u p = Ok rs ->
  in_some_range (map (fun r => (introduced r, fixed r)) rs) v <-> ~ declared_safe (p ++ u) v.
Proof. exact osv_export_complement. Qed.
Print Assumptions C02_osv_ranges_cover_exactly_the_vulnerable_versions.

Example C02_nonvacuous :
  unaffected_to_osv_ranges true ex_unaffected ex_patched =
    Ok [mkOsv (Some (ver 0 9 0 [])) (Some (ver 1 2 3 []));
        mkOsv (Some (ver 2 0 0 [])) (Some (ver 2 1 0 ["rc"%string; "1"%string]))].
Proof. reflexivity. Qed.

(** An exported range may be empty ([introduced = fixed]) and two exported ranges may touch. *)
Theorem C02_strict_ranges_refuted :
  (exists p u r, unaffected_to_osv_ranges false u p = Ok [r] /\ introduced r = fixed r /\ fixed r <> None) /\
  (exists p r1 r2, unaffected_to_osv_ranges false [] p = Ok [r1; r2] /\ fixed r1 = introduced r2).
Proof.
  split.
  - exists [[cmpr OpLessEq 1 0 0 []]], [[cmpr OpGreaterEq 1 0 1 ["0"%string]]]. eexists. split; [vm_compute; reflexivity|].
    split; [reflexivity|discriminate].
  - exists [[cmpr OpGreater 1 0 0 []; cmpr OpLess 1 0 1 ["0"%string]]]. do 2 eexists. split; vm_compute; reflexivity.
Qed.
Print Assumptions C02_strict_ranges_refuted.

(** ** C03 *)
Theorem C03_increment_is_immediate_successor : forall checks v w,
  increment checks v = Ok w -> (checks = true \/ patch v < u64_max \/ pre v <> []) ->
  immediate_successor v w /\ build w = [].
Proof. exact increment_successor. Qed.
Print Assumptions C03_increment_is_immediate_successor.
Theorem C03_increment_total : forall checks v,
  (patch v < u64_max \/ pre v <> []) -> exists w, increment checks v = Ok w.
Proof. exact increment_total. Qed.
Print Assumptions C03_increment_total.
Example C03_nonvacuous :
  increment false (ver 1 2 3 []) = Ok (ver 1 2 4 ["0"%string]) /\
  increment false (ver 1 2 3 ["rc"%string]) = Ok (ver 1 2 3 ["rc"%string; "0"%string]).
Proof. split; reflexivity. Qed.

(** ** C04 *)
Theorem C04_cargo_match_is_not_vulnerable : forall checks p u vs r v,
  reqs_wf (p ++ u) -> no_silent_overflow checks (p ++ u) -> unambiguous_reqs (p ++ u) ->
  version_wf v = true -> versions_new checks p u = Ok vs ->
  In r (p ++ u) -> req_matches r v = true -> is_vulnerable checks vs v = Ok false.
Proof. exact cargo_match_not_vulnerable. Qed.
Print Assumptions C04_cargo_match_is_not_vulnerable.
Theorem C04_release_versions_agree_with_cargo : forall checks p u vs v,
  reqs_wf (p ++ u) -> no_silent_overflow checks (p ++ u) -> unambiguous_reqs (p ++ u) ->
  version_wf v = true -> pre v = [] -> versions_new checks p u = Ok vs ->
  is_vulnerable checks vs v = Ok (negb (existsb (fun r => req_matches r v) (p ++ u))).
Proof. exact release_vulnerable_iff. Qed.
Print Assumptions C04_release_versions_agree_with_cargo.
Example C04_nonvacuous :
  unambiguous_reqs (ex_patched ++ ex_unaffected) /\
  req_matches [cmpr OpGreaterEq 1 2 3 []; cmpr OpLess 2 0 0 []] (ver 1 9 0 []) = true.
Proof.
  split; [|reflexivity]. intros r c Hr Hc _.
  repeat (destruct Hr as [<-|Hr]; [repeat (destruct Hc as [<-|Hc]; [do 2 eexists; split; reflexivity|]); destruct Hc|]).
  destruct Hr.
Qed.

(** ** C05: partially written [>], [<=], [=] do not follow Cargo's reading. *)
Definition gt_1 : comparator := mkComparator OpGreater 1 None None [].
Definition le_1_2 : comparator := mkComparator OpLessEq 1 (Some 2) None [].
Definition eq_1_2 : comparator := mkComparator OpExact 1 (Some 2) None [].
Theorem C05_partial_comparators_agree_with_cargo_refuted :
  (** patched [">1"]: 1.5.0 does not satisfy the requirement for Cargo, yet is reported safe *)
  (versions_new false [[gt_1]] [] = Ok (mkVersions [[gt_1]] []) /\
   req_matches [gt_1] (ver 1 5 0 []) = false /\
   is_vulnerable false (mkVersions [[gt_1]] []) (ver 1 5 0 []) = Ok false) /\
  (** unaffected ["<=1.2"]: 1.2.9 satisfies it for Cargo, yet is reported vulnerable *)
  (versions_new false [] [[le_1_2]] = Ok (mkVersions [] [[le_1_2]]) /\
   req_matches [le_1_2] (ver 1 2 9 []) = true /\
   is_vulnerable false (mkVersions [] [[le_1_2]]) (ver 1 2 9 []) = Ok true) /\
  (** unaffected ["=1.2"]: likewise *)
  (versions_new false [] [[eq_1_2]] = Ok (mkVersions [] [[eq_1_2]]) /\
   req_matches [eq_1_2] (ver 1 2 9 []) = true /\
   is_vulnerable false (mkVersions [] [[eq_1_2]]) (ver 1 2 9 []) = Ok true).
Proof. vm_compute. repeat split. Qed.
Print Assumptions C05_partial_comparators_agree_with_cargo_refuted.

(** What the tool does instead: omitted components of [>], [>=], [<], [<=], [=] are read as zero. *)
Definition zero_filled (c : comparator) : comparator :=
  match c_op c with
  | OpGreater | OpGreaterEq | OpLess | OpLessEq | OpExact =>
      mkComparator (c_op c) (c_major c)
        (Some (match c_minor c with Some m => m | None => 0 end))
        (Some (match c_patch c with Some p => p | None => 0 end)) (c_pre c)
  | _ => c
  end.
Lemma zero_filled_ver c : comp_to_ver (zero_filled c) = comp_to_ver c.
Proof. unfold zero_filled, comp_to_ver. destruct (c_op c) eqn:E; reflexivity. Qed.
Lemma zero_filled_op c : c_op (zero_filled c) = c_op c.
Proof. unfold zero_filled. destruct (c_op c) eqn:E; cbn; rewrite ?E; reflexivity. Qed.
Lemma zero_filled_step checks n st c : comp_step checks n st (zero_filled c) = comp_step checks n st c.
Proof.
  unfold comp_step. destruct st as [s e]. rewrite zero_filled_op, zero_filled_ver.
  destruct (c_op c) eqn:E; try reflexivity; unfold zero_filled; rewrite E; reflexivity.
Qed.
Lemma zero_filled_loop checks n cs : forall st, comp_loop checks n st (map zero_filled cs) = comp_loop checks n st cs.
Proof.
  induction cs as [|c cs IH]; intros st; [reflexivity|]. cbn [map comp_loop]. rewrite zero_filled_step.
  destruct (comp_step checks n st c); cbn [obind]; auto.
Qed.
Lemma zero_filled_urange checks r : urange_of_req checks (map zero_filled r) = urange_of_req checks r.
Proof. unfold urange_of_req. rewrite map_length, zero_filled_loop. reflexivity. Qed.
Lemma zero_filled_omap checks l : omap (urange_of_req checks) (map (map zero_filled) l) = omap (urange_of_req checks) l.
Proof.
  induction l as [|r l IH]; [reflexivity|]. cbn [map omap]. rewrite zero_filled_urange, IH. reflexivity.
Qed.
Theorem C05_omitted_components_read_as_zero : forall checks p u v,
  let p' := map (map zero_filled) p in let u' := map (map zero_filled) u in
  is_ok (versions_new checks p u) = is_ok (versions_new checks p' u') /\
  (versions_new checks p u = Panic <-> versions_new checks p' u' = Panic) /\
  is_vulnerable checks (mkVersions p u) v = is_vulnerable checks (mkVersions p' u') v.
Proof.
  intros checks p u v p' u'.
  assert (E : unaffected_to_osv_ranges checks u' p' = unaffected_to_osv_ranges checks u p).
  { unfold unaffected_to_osv_ranges, p', u'. rewrite !zero_filled_omap. reflexivity. }
  unfold is_vulnerable, ranges_for_advisory, versions_new. cbn [patched unaffected]. rewrite E.
  destruct (unaffected_to_osv_ranges checks u p); cbn [obind is_ok]; repeat split; discriminate.
Qed.
Print Assumptions C05_omitted_components_read_as_zero.

(** ** C06 *)
Theorem C06_only_panic_is_point_range_at_open_bound : forall checks p u,
  reqs_wf (p ++ u) -> below_u64_max (p ++ u) -> versions_new checks p u = Panic ->
  exists r1 r2 lo, In r1 (p ++ u) /\ In r2 (p ++ u) /\ In lo r1 /\ c_op lo = OpGreater /\
    forall v, version_wf v = true -> (req_denotes r2 v <-> prec_eq v (written lo)).
Proof. exact versions_new_panic. Qed.
Print Assumptions C06_only_panic_is_point_range_at_open_bound.
Theorem C06_construction_never_panics_refuted :
  versions_new false [[cmpr OpExact 1 2 3 []]; [cmpr OpGreater 1 2 3 []]] [] = Panic /\
  (** with overflow checks an extreme version number panics as well *)
  versions_new true [[cmpr OpLessEq 1 2 u64_max []]] [] = Panic.
Proof. vm_compute. split; reflexivity. Qed.
Print Assumptions C06_construction_never_panics_refuted.
Theorem C06_profile_independent : forall p u, below_u64_max (p ++ u) ->
  versions_new true p u = versions_new false p u /\
  forall v, is_vulnerable true (mkVersions p u) v = is_vulnerable false (mkVersions p u) v.
Proof. exact profile_indep. Qed.
Print Assumptions C06_profile_independent.
(** Without overflow checks the same input is accepted and a declared-unaffected version is flagged. *)
Theorem C06_silent_wraparound_refuted :
  let r := [cmpr OpLessEq 1 2 u64_max []] in
  versions_new false [] [r] = Ok (mkVersions [] [r]) /\
  req_matches r (ver 1 2 7 []) = true /\
  is_vulnerable false (mkVersions [] [r]) (ver 1 2 7 []) = Ok true.
Proof. vm_compute. repeat split. Qed.
Print Assumptions C06_silent_wraparound_refuted.

(** ** C07 *)
Theorem C07_order_and_placement_irrelevant : forall checks p u p' u' vs,
  reqs_wf (p ++ u) -> Permutation (p ++ u) (p' ++ u') ->
  versions_new checks p u = Ok vs ->
  exists vs', versions_new checks p' u' = Ok vs' /\
    forall v, is_vulnerable checks vs' v = is_vulnerable checks vs v.
Proof. exact versions_perm. Qed.
Print Assumptions C07_order_and_placement_irrelevant.
Example C07_nonvacuous : Permutation (ex_patched ++ ex_unaffected) (ex_unaffected ++ ex_patched).
Proof. apply Permutation_app_comm. Qed.

(** ** C08 *)
Theorem C08_build_metadata_irrelevant : forall checks p u vs v w,
  reqs_wf (p ++ u) -> no_silent_overflow checks (p ++ u) ->
  version_wf v = true -> version_wf w = true ->
  versions_new checks p u = Ok vs -> prec_eq v w ->
  is_vulnerable checks vs v = is_vulnerable checks vs w.
Proof. exact is_vulnerable_build. Qed.
Print Assumptions C08_build_metadata_irrelevant.
Example C08_nonvacuous :
  let v := mkVersion 1 2 3 [] ["a"%string] in let w := mkVersion 1 2 3 [] [] in
  version_wf v = true /\ prec_eq v w /\ version_cmp v w = Gt.
Proof. repeat split. Qed.

(** ** C09 *)
Theorem C09_accepted_ranges_are_disjoint : forall checks p u vs l1 r1 l2 r2 l3 v,
  reqs_wf (p ++ u) -> no_silent_overflow checks (p ++ u) ->
  versions_new checks p u = Ok vs -> p ++ u = l1 ++ r1 :: l2 ++ r2 :: l3 -> version_wf v = true ->
  ~ (req_denotes r1 v /\ req_denotes r2 v).
Proof. exact accepted_disjoint. Qed.
Print Assumptions C09_accepted_ranges_are_disjoint.
Theorem C09_rejected_pair_overlaps_partial : forall checks r1 r2,
  req_wf r1 = true -> req_wf r2 = true -> below_u64_max [r1; r2] ->
  versions_new checks [r1] [] = Ok (mkVersions [r1] []) ->
  versions_new checks [r2] [] = Ok (mkVersions [r2] []) ->
  versions_new checks [r1] [r2] = Err ->
  (exists v, version_wf v = true /\ req_denotes r1 v /\ req_denotes r2 v) \/ boundary_artifact r1 r2.
Proof. exact overlap_rejection. Qed.
Print Assumptions C09_rejected_pair_overlaps_partial.
(** [^0.0.3] (exactly 0.0.3) and [>0.0.3] share no version but are refused. *)
Theorem C09_only_overlaps_rejected_refuted :
  let r1 := [cmpr OpCaret 0 0 3 []] in let r2 := [cmpr OpGreater 0 0 3 []] in
  versions_new false [r1] [] = Ok (mkVersions [r1] []) /\
  versions_new false [r2] [] = Ok (mkVersions [r2] []) /\
  versions_new false [r1] [r2] = Err /\
  (forall v, ~ (req_denotes r1 v /\ req_denotes r2 v)).
Proof.
  repeat split. intros v [H1 H2].
  specialize (H1 _ (or_introl eq_refl)). specialize (H2 _ (or_introl eq_refl)). cbn in H1, H2.
  destruct H1 as [Hle [E1 E]]. specialize (E eq_refl _ eq_refl) as [E2 E]. specialize (E eq_refl _ eq_refl) as E3.
  unfold prec_lt, prec_cmp in H2. cbn in E1, E2, E3, H2. rewrite E1, E2, E3 in H2. cbn in H2.
  destruct (pre v); discriminate.
Qed.
Print Assumptions C09_only_overlaps_rejected_refuted.
Example C09_nonvacuous :
  versions_new false [[cmpr OpGreaterEq 1 0 0 []]] [[cmpr OpLess 2 0 0 []]] = Err /\
  boundary_artifact [cmpr OpCaret 0 0 3 []] [cmpr OpGreater 0 0 3 []].
Proof.
  split; [reflexivity|]. left. exists (cmpr OpGreater 0 0 3 []), (cmpr OpCaret 0 0 3 []).
  repeat split; simpl; auto. right. exists 3. repeat split.
Qed.

(** ** C10 *)
Theorem C10_empty_lists_mean_everything_vulnerable : forall checks v,
  exists vs, versions_new checks [] [] = Ok vs /\ is_vulnerable checks vs v = Ok true /\
    ranges_for_advisory checks vs = Ok [mkOsv None None].
Proof. exact empty_lists. Qed.
Print Assumptions C10_empty_lists_mean_everything_vulnerable.

(** ** C11 *)
Theorem C11_supported_requirement_shapes : forall checks r,
  req_wf r = true -> below_u64_max [r] ->
  (supported_shape r -> versions_new checks [r] [] = Ok (mkVersions [r] [])) /\
  (~ supported_shape r -> versions_new checks [r] [] = Err).
Proof. exact single_accept_iff. Qed.
Print Assumptions C11_supported_requirement_shapes.
Theorem C11_requirement_denotes_interval : forall checks r vs v,
  req_wf r = true -> no_silent_overflow checks [r] -> version_wf v = true ->
  versions_new checks [r] [] = Ok vs ->
  exists b, is_vulnerable checks vs v = Ok b /\ (b = true <-> ~ req_denotes r v).
Proof.
  intros checks r vs v Hwf Hno Hv H.
  destruct (is_vulnerable_correct checks [r] [] vs v) as (b & Hb & Sb); auto.
  - intros r' [<-|[]]. exact Hwf.
  - exists b. split; [exact Hb|]. rewrite Sb. split.
    + intros Hn Hd. apply Hn. exists r. split; [left; reflexivity|exact Hd].
    + intros Hn (r' & [<-|[]] & Hd). auto.
Qed.
Print Assumptions C11_requirement_denotes_interval.
Example C11_nonvacuous :
  supported_shape [cmpr OpLess 2 0 0 []; cmpr OpGreaterEq 1 2 3 []] /\
  ~ supported_shape [cmpr OpCaret 1 0 0 []; cmpr OpLess 1 5 0 []].
Proof.
  split.
  - apply shape_upper_lower; try reflexivity. apply lbu_strict. reflexivity.
  - intros H. inversion H; subst; discriminate.
Qed.
