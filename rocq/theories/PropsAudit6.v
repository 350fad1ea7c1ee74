(** Property theorems C49, C50, C59: fixing, and upgrade hints. *)
From Coq Require Import List NArith Ascii String Bool Arith Lia.
From Verif Require Import Base SemverModel OsvModel OsvSpec OsvProofs4 StrLib VerText IdModel PkgModel DbModel DbSpec DbProofs DbProofs2
  PropsDb UrlModel UrlSpec UrlProofs LockModel LockSpec TreeModel TreeSpec TreeProofs PropsTree PlatData PlatModel PropsPlat IndexModel IndexSpec PropsIndex
  AuditModel AuditSpec AuditProofs PropsAudit.
Import ListNotations.
Local Open Scope string_scope.

(** ** C59 *)
Definition tri_le (a b : version) : Prop :=
  (major a < major b \/ major a = major b /\ (minor a < minor b \/ minor a = minor b /\ patch a <= patch b))%N.
Lemma release_lt a b : pre a = [] -> pre b = [] -> prec_lt a b <->
  (major a < major b \/ major a = major b /\ (minor a < minor b \/ minor a = minor b /\ patch a < patch b))%N.
Proof.
  intros A B. unfold prec_lt, prec_cmp. rewrite A, B. cbn [pre_cmp].
  destruct (N.compare_spec (major a) (major b)) as [H|H|H]; cbn [then_cmp].
  - destruct (N.compare_spec (minor a) (minor b)) as [K|K|K]; cbn [then_cmp].
    + destruct (N.compare_spec (patch a) (patch b)); cbn [then_cmp]; split; try discriminate; intros; try reflexivity; lia.
    + split; [lia|reflexivity].
    + split; [discriminate|lia].
  - split; [lia|reflexivity].
  - split; [discriminate|lia].
Qed.
Lemma tri_total a b : tri_le a b \/ tri_le b a.
Proof. unfold tri_le. lia. Qed.
Lemma tri_trans a b c : tri_le a b -> tri_le b c -> tri_le a c.
Proof. unfold tri_le. lia. Qed.

(** A requirement such as ">1": no candidate is derived from it. *)
Definition bare_greater (c : comparator) : Prop := c_op c = OpGreater /\ c_minor c = None.

Definition zero (o : option N) : N := match o with Some n => n | None => 0%N end.
Definition lower_bounds (c : comparator) : list version :=
  [release (c_major c) (zero (c_minor c)) (zero (c_patch c));
   release (c_major c) (zero (c_minor c)) (zero (c_patch c) + 1);
   release (c_major c) (zero (c_minor c) + 1) 0].
Ltac crush :=
  repeat match goal with H : _ = true |- _ => revert H end;
  repeat (match goal with
  | |- context [N.eqb ?a ?b] => destruct (N.eqb_spec a b); [try subst a|]
  | |- context [N.ltb ?a ?b] => destruct (N.ltb_spec a b)
  | |- context [N.leb ?a ?b] => destruct (N.leb_spec a b)
  end; cbn [negb andb orb]; try (intros; discriminate); try (intros; reflexivity)); intros; try discriminate; try reflexivity; try lia.
Ltac rel := let u := fresh in let E := fresh in intros [? ? ? u ?] E; cbn [pre] in E; subst u;
  cbn [zero major minor patch pre pre_eqb pre_gtb pre_ltb pre_geb pre_cmp] in *; intros.
Lemma comparator_convex c v : comparator_wf c = true -> ~ bare_greater c -> pre v = [] -> matches_impl c v = true ->
  (forall u, pre u = [] -> tri_le u v -> matches_impl c u = true) \/
  exists lo, In lo (lower_bounds c) /\ tri_le lo v /\ forall u, pre u = [] -> tri_le lo u -> tri_le u v -> matches_impl c u = true.
Proof.
  intros W B V H. unfold tri_le. destruct v as [vM vm vp vpre vb]. cbn [pre] in V. subst vpre.
  destruct c as [o cM cm cp cpre]. unfold comparator_wf in W. cbn [c_major c_minor c_patch c_pre] in W.
  unfold lower_bounds, release. cbn [c_major c_minor c_patch].
  destruct o; cbn [matches_impl c_op] in *.
  - (* exact *)
    right. eexists. split; [left; reflexivity|]. destruct cm as [cm|], cp as [cp|], cpre; try (rewrite ?andb_false_r in W; discriminate); clear W B;
      unfold matches_exact in *; cbn [zero major minor patch pre c_major c_minor c_patch c_pre pre_eqb pre_cmp] in *; rewrite ?andb_false_r in H; try discriminate;
      (split; [crush|]; rel; crush).
  - (* greater *)
    destruct cm as [cm|]; [|exfalso; apply B; split; reflexivity]. right.
    destruct cp as [cp|].
    + clear W B. destruct cpre as [|x cpre].
      * eexists. split; [right; left; reflexivity|]. unfold matches_greater in *; cbn [zero major minor patch pre c_major c_minor c_patch c_pre pre_gtb pre_cmp] in *.
        split; [crush|]. rel; crush.
      * eexists. split; [left; reflexivity|]. unfold matches_greater in *; cbn [zero major minor patch pre c_major c_minor c_patch c_pre pre_gtb pre_cmp] in *.
        split; [crush|]. rel; crush.
    + destruct cpre; [|rewrite ?andb_false_r in W; discriminate]. clear W B. eexists. split; [right; right; left; reflexivity|].
      unfold matches_greater in *; cbn [zero major minor patch pre c_major c_minor c_patch c_pre pre_gtb pre_cmp] in *.
      split; [crush|]. rel; crush.
  - (* greater or equal *)
    right. eexists. split; [left; reflexivity|]. destruct cm as [cm|], cp as [cp|], cpre; try (rewrite ?andb_false_r in W; discriminate); clear W B;
      unfold matches_exact, matches_greater in *; cbn [zero major minor patch pre c_major c_minor c_patch c_pre pre_eqb pre_gtb pre_cmp] in *;
      (split; [crush|]; rel; crush).
  - (* less *)
    left. destruct cm as [cm|], cp as [cp|], cpre; try (rewrite ?andb_false_r in W; discriminate); clear W B;
      unfold matches_less in *; cbn [zero major minor patch pre c_major c_minor c_patch c_pre pre_ltb pre_cmp] in *;
      (rel; crush).
  - (* less or equal *)
    left. destruct cm as [cm|], cp as [cp|], cpre; try (rewrite ?andb_false_r in W; discriminate); clear W B;
      unfold matches_exact, matches_less in *; cbn [zero major minor patch pre c_major c_minor c_patch c_pre pre_eqb pre_ltb pre_cmp] in *;
      (rel; crush).
  - (* tilde *)
    right. eexists. split; [left; reflexivity|]. destruct cm as [cm|], cp as [cp|], cpre; try (rewrite ?andb_false_r in W; discriminate); clear W B;
      unfold matches_tilde in *; cbn [zero major minor patch pre c_major c_minor c_patch c_pre pre_geb pre_cmp] in *;
      (split; [crush|]; rel; crush).
  - (* caret *)
    right. eexists. split; [left; reflexivity|]. destruct cm as [cm|], cp as [cp|], cpre; try (rewrite ?andb_false_r in W; discriminate); clear W B;
      unfold matches_caret in *; cbn [zero major minor patch pre c_major c_minor c_patch c_pre pre_geb pre_cmp] in *;
      (split; [crush|]; rel; crush).
  - (* wildcard *)
    right. eexists. split; [left; reflexivity|]. destruct cm as [cm|], cp as [cp|], cpre; try (rewrite ?andb_false_r in W; discriminate); clear W B;
      unfold matches_exact in *; cbn [zero major minor patch pre c_major c_minor c_patch c_pre pre_eqb pre_cmp] in *; rewrite ?andb_false_r in H; try discriminate;
      (split; [crush|]; rel; crush).
Qed.

Lemma u64_succ_small checks n : small n -> u64_succ checks n = Ok (n + 1)%N.
Proof. unfold u64_succ, small. intros H. destruct (N.eqb_spec n u64_max); [lia|reflexivity]. Qed.
Lemma candidates_eq checks r : below_u64_max [r] -> comparator_candidates checks r = Ok (flat_map lower_bounds r).
Proof.
  induction r as [|c r IH]; intros H; [reflexivity|]. cbn [comparator_candidates flat_map].
  destruct (H (c :: r) c (or_introl eq_refl) (or_introl eq_refl)) as (_ & H1 & H2).
  rewrite !u64_succ_small.
  - cbn [obind]. rewrite IH; [reflexivity|]. intros r' c' [<-|[]] Hc. apply (H (c :: r)); [left; reflexivity|right; exact Hc].
  - unfold small. destruct (c_minor c); [apply H1; reflexivity|reflexivity].
  - unfold small. destruct (c_patch c); [apply H2; reflexivity|reflexivity].
Qed.
Lemma newer_iff cur v : build v = [] -> pre v = [] -> version_ltb cur v = true <-> prec_lt cur v.
Proof.
  intros B P. unfold version_ltb, version_cmp, prec_lt. destruct (prec_cmp cur v) eqn:E; cbn [then_cmp]; try (split; [discriminate|discriminate]).
  - rewrite B. destruct (build cur); cbn; split; discriminate.
  - tauto.
Qed.
Lemma candidates_plain checks r cs : comparator_candidates checks r = Ok cs -> forall v, In v cs -> build v = [] /\ pre v = [].
Proof.
  revert cs. induction r as [|c r IH]; intros cs H v Hv; cbn [comparator_candidates] in H.
  - injection H as <-. destruct Hv.
  - destruct (u64_succ checks _); try discriminate. cbn [obind] in H. destruct (u64_succ checks _); try discriminate. cbn [obind] in H.
    destruct (comparator_candidates checks r) as [rest| |] eqn:E; try discriminate. cbn [obind] in H. injection H as <-.
    destruct Hv as [<-|[<-|[<-|Hv]]]; [split; reflexivity..|]. exact (IH rest eq_refl v Hv).
Qed.
(** A requirement is only hinted if a strictly newer version satisfies it (whatever the numbers: also when an addition
    overflows). *)
Theorem C59_hint_is_satisfiable : forall checks r current, permits_newer checks r current = Ok true ->
  exists v, prec_lt current v /\ req_matches r v = true.
Proof.
  intros checks r cur H. unfold permits_newer in H.
  destruct (u64_succ checks (patch cur)) as [p'| |]; try discriminate. cbn [obind] in H.
  destruct (u64_succ checks (minor cur)) as [m'| |]; try discriminate. cbn [obind] in H.
  destruct (u64_succ checks (major cur)) as [j'| |]; try discriminate. cbn [obind] in H.
  destruct (comparator_candidates checks r) as [cs| |] eqn:E; try discriminate. cbn [obind] in H.
  match type of H with Ok ?b = Ok _ => assert (H' : b = true) by congruence end.
  apply existsb_exists in H' as (v & Hv & K). apply andb_true_iff in K as [K1 K2]. exists v. split; [|exact K2].
  assert (B : build v = [] /\ pre v = []).
  { destruct Hv as [<-|[<-|[<-|Hv]]]; [split; reflexivity..|]. exact (candidates_plain checks r cs E v Hv). }
  apply newer_iff; tauto.
Qed.
Print Assumptions C59_hint_is_satisfiable.

Lemma max_exists l : forall x : version, exists u, In u (x :: l) /\ forall y, In y (x :: l) -> tri_le y u.
Proof.
  induction l as [|y l IH]; intros x.
  - exists x. split; [left; reflexivity|]. intros y [<-|[]]. unfold tri_le. lia.
  - destruct (IH y) as (u & Hu & M). destruct (tri_total x u) as [T|T].
    + exists u. split; [right; exact Hu|]. intros z [<-|Hz]; [exact T|exact (M z Hz)].
    + exists x. split; [left; reflexivity|]. intros z [<-|Hz]; [unfold tri_le; lia|]. exact (tri_trans _ _ _ (M z Hz) T).
Qed.
(** A requirement such as ">1" is probed only by the next major version. *)
Definition next_major (v : version) : version := release (major v + 1) 0 0.
Definition next_patch (v : version) : version := release (major v) (minor v) (patch v + 1).
Lemma bare_convex c cur v : comparator_wf c = true -> bare_greater c -> (c_major c <= major cur)%N -> pre v = [] -> matches_impl c v = true ->
  tri_le (next_patch cur) v ->
  exists lo, In lo [next_major cur; next_patch cur] /\ tri_le lo v /\ forall u, pre u = [] -> tri_le lo u -> tri_le u v -> matches_impl c u = true.
Proof.
  intros W [B1 B2] Le V H N. unfold tri_le, next_major, next_patch, release in *. destruct v as [vM vm vp vpre vb]. cbn [pre major minor patch] in *. subst vpre.
  destruct c as [o cM cm cp cpre]. unfold comparator_wf in W. cbn [c_op c_major c_minor c_patch c_pre] in *. subst o cm.
  cbn [matches_impl c_op] in *. destruct cp as [cp|]; [rewrite ?andb_false_r in W; discriminate|]. clear W.
  unfold matches_greater in *. cbn [major minor patch pre c_major c_minor c_patch c_pre pre_gtb pre_cmp] in *.
  destruct (N.eqb_spec cM (major cur)) as [E|E].
  - eexists. split; [left; reflexivity|]. cbn [major minor patch]. split; [crush|]. rel; crush.
  - eexists. split; [right; left; reflexivity|]. cbn [major minor patch]. split; [crush|]. rel; crush.
Qed.
Lemma lower_bounds_exist r cur v : req_wf r = true -> (forall c, In c r -> bare_greater c -> (c_major c <= major cur)%N) -> pre v = [] ->
  forallb (fun c => matches_impl c v) r = true -> tri_le (next_patch cur) v ->
  exists los, (forall lo, In lo los -> In lo (next_patch cur :: next_major cur :: flat_map lower_bounds r) /\ tri_le lo v) /\
    forall u, pre u = [] -> tri_le u v -> (forall lo, In lo los -> tri_le lo u) -> forallb (fun c => matches_impl c u) r = true.
Proof.
  intros W B V H N. induction r as [|c r IH]; [exists []; split; [intros lo []|reflexivity]|].
  unfold req_wf in *. cbn [forallb] in *. apply andb_true_iff in W as [W1 W2]. apply andb_true_iff in H as [H1 H2].
  destruct (IH W2 (fun x Hx => B x (or_intror Hx)) H2) as (los & L1 & L2). clear IH.
  assert (Keep : forall lo, In lo (next_patch cur :: next_major cur :: flat_map lower_bounds r) -> In lo (next_patch cur :: next_major cur :: flat_map lower_bounds (c :: r))).
  { intros lo [I|[I|I]]; [left; exact I|right; left; exact I|]. right. right. cbn [flat_map]. apply in_or_app. right. exact I. }
  assert (C : (forall u, pre u = [] -> tri_le u v -> matches_impl c u = true) \/
    exists lo, In lo (next_patch cur :: next_major cur :: lower_bounds c) /\ tri_le lo v /\ forall u, pre u = [] -> tri_le lo u -> tri_le u v -> matches_impl c u = true).
  { assert (D : bare_greater c \/ ~ bare_greater c).
    { unfold bare_greater. destruct (c_op c), (c_minor c); try (right; intros [? ?]; congruence). left. split; reflexivity. }
    destruct D as [D|D].
    - right. destruct (bare_convex c cur v W1 D (B c (or_introl eq_refl) D) V H1 N) as (lo & I & R). exists lo. split; [|exact R].
      destruct I as [I|[I|[]]]; [right; left; exact I|left; exact I].
    - destruct (comparator_convex c v W1 D V H1) as [C|(lo & I & R)]; [left; exact C|]. right. exists lo. split; [right; right; exact I|exact R]. }
  destruct C as [C|(lo & Hlo & Tlo & C)].
  - exists los. split.
    + intros lo Hlo. destruct (L1 lo Hlo) as [A1 A2]. split; [apply Keep, A1|exact A2].
    + intros u Pu Tu Hu. rewrite (C u Pu Tu). apply (L2 u Pu Tu Hu).
  - exists (lo :: los). split.
    + intros lo' [<-|Hlo']; [split; [|exact Tlo]|].
      * destruct Hlo as [I|[I|I]]; [left; exact I|right; left; exact I|]. right. right. cbn [flat_map]. apply in_or_app. left. exact I.
      * destruct (L1 lo' Hlo') as [A1 A2]. split; [apply Keep, A1|exact A2].
    + intros u Pu Tu Hu. rewrite (C u Pu (Hu lo (or_introl eq_refl)) Tu). apply (L2 u Pu Tu). intros lo' Hlo'. apply Hu. right. exact Hlo'.
Qed.
(** If the installed version is a release and some newer release satisfies the requirement, the requirement is hinted,
    provided a bare ">MAJOR" in it does not name a major version above the installed one, and no number involved is the
    largest 64-bit one. *)
Theorem C59_newer_release_is_hinted : forall checks r current v,
  req_wf r = true -> (forall c, In c r -> bare_greater c -> (c_major c <= major current)%N) -> below_u64_max [r] -> small_version current ->
  pre current = [] -> pre v = [] -> prec_lt current v -> req_matches r v = true ->
  permits_newer checks r current = Ok true.
Proof.
  intros checks r cur v W B O (S1 & S2 & S3) Pc Pv L M. unfold permits_newer.
  rewrite !u64_succ_small by assumption. cbn [obind]. rewrite (candidates_eq checks r O). cbn [obind]. f_equal.
  unfold req_matches in M. rewrite Pv, andb_true_r in M.
  assert (NP : tri_le (next_patch cur) v).
  { apply release_lt in L; [|exact Pc|exact Pv]. unfold tri_le, next_patch, release. cbn [major minor patch]. lia. }
  destruct (lower_bounds_exist r cur v W B Pv M NP) as (los & L1 & L2).
  destruct (max_exists los (release (major cur) (minor cur) (patch cur + 1))) as (u & Hu & Mu).
  apply release_lt in L; [|exact Pc|exact Pv].
  assert (Pu : pre u = [] /\ build u = []).
  { destruct Hu as [<-|Hu]; [split; reflexivity|]. apply L1 in Hu as [[<-|[<-|Hu]] _]; [split; reflexivity..|]. apply in_flat_map in Hu as (c & _ & Hu).
    destruct Hu as [<-|[<-|[<-|[]]]]; split; reflexivity. }
  assert (Tu : tri_le u v).
  { destruct Hu as [<-|Hu]; [|exact (proj2 (L1 u Hu))]. unfold tri_le, release. cbn [major minor patch]. lia. }
  apply existsb_exists. exists u. split.
  { destruct Hu as [<-|Hu]; [left; reflexivity|]. destruct (proj1 (L1 u Hu)) as [<-|[<-|I]]; [left; reflexivity|right; right; left; reflexivity|]. right. right. right. exact I. }
  apply andb_true_iff. split.
  - apply newer_iff; [tauto|tauto|]. apply release_lt; [exact Pc|tauto|].
    specialize (Mu _ (or_introl eq_refl)). unfold tri_le, release in Mu. cbn [major minor patch] in Mu. lia.
  - unfold req_matches. rewrite (proj1 Pu), andb_true_r. apply L2; [tauto|exact Tu|]. intros lo Hlo. apply Mu. right. exact Hlo.
Qed.
Print Assumptions C59_newer_release_is_hinted.

Lemma filter_newer_in checks rs cur : forall l, filter_newer checks rs cur = Ok l ->
  forall r, In r l <-> In r rs /\ permits_newer checks r cur = Ok true.
Proof.
  induction rs as [|x rs IH]; intros l H r; cbn [filter_newer] in H; [injection H as <-; cbn; tauto|].
  destruct (permits_newer checks x cur) as [b| |] eqn:E; try discriminate. cbn [obind] in H.
  destruct (filter_newer checks rs cur) as [l'| |] eqn:E'; try discriminate. cbn [obind] in H. injection H as <-.
  destruct b; cbn [In]; rewrite (IH l' eq_refl r); split; try tauto.
  - intros [<-|K]; tauto.
  - intros [[<-|K] K']; [congruence|tauto].
Qed.
(** What is shown for a finding: the patched ranges if there are any; otherwise unaffected ranges that a newer version
    satisfies; otherwise that there is no fix. *)
Theorem C59_solution_shown : forall checks v s, solution_of checks v = Ok s ->
  match s with
  | UpgradePatched rs => rs = patched (a_versions (v_advisory v)) /\ rs <> []
  | UpgradeUnaffected rs => patched (a_versions (v_advisory v)) = [] /\ rs <> [] /\
      forall r, In r rs -> In r (unaffected (a_versions (v_advisory v))) /\
        exists new, prec_lt (p_version (v_package v)) new /\ req_matches r new = true
  | NoFix => patched (a_versions (v_advisory v)) = []
  end.
Proof.
  intros checks v s H. unfold solution_of in H. destruct (patched (a_versions (v_advisory v))) as [|x rs] eqn:E.
  - destruct (filter_newer checks _ _) as [l| |] eqn:F; try discriminate. cbn [obind] in H. injection H as <-.
    destruct l as [|y l]; [reflexivity|]. split; [reflexivity|]. split; [discriminate|]. intros r Hr.
    apply (filter_newer_in _ _ _ _ F) in Hr as [H1 H2]. split; [exact H1|]. exact (C59_hint_is_satisfiable _ _ _ H2).
  - injection H as <-. split; [reflexivity|discriminate].
Qed.
Print Assumptions C59_solution_shown.

Definition cmp (o : op) (a : N) (b c : option N) : comparator := mkComparator o a b c [].
Example C59_nonvacuous :
  permits_newer true [cmp OpGreaterEq 2 (Some 1%N) None] (release 1 0 0) = Ok true /\
  permits_newer true [cmp OpLess 1 (Some 0%N) None] (release 1 0 0) = Ok false /\
  req_wf [cmp OpGreaterEq 2 (Some 1%N) None] = true /\ prec_lt (release 1 0 0) (release 2 1 5) /\
  req_matches [cmp OpGreaterEq 2 (Some 1%N) None] (release 2 1 5) = true /\
  bare_greater (cmp OpGreater 1 None None) /\ permits_newer true [cmp OpGreater 1 None None] (release 1 7 3) = Ok true.
Proof. repeat split; vm_compute; reflexivity. Qed.
(** Hints that are missed: ">1" seen from 0.5.0 (2.0.0 would do), and "<1.0.1" seen from 1.0.0-alpha (1.0.0 would do). *)
Theorem C59_every_satisfiable_hint_shown_refuted :
  (permits_newer true [cmp OpGreater 1 None None] (release 0 5 0) = Ok false /\
   prec_lt (release 0 5 0) (release 2 0 0) /\ req_matches [cmp OpGreater 1 None None] (release 2 0 0) = true) /\
  (permits_newer true [cmp OpLess 1 (Some 0%N) (Some 1%N)] (mkVersion 1 0 0 ["alpha"] []) = Ok false /\
   prec_lt (mkVersion 1 0 0 ["alpha"] []) (release 1 0 0) /\
   req_matches [cmp OpLess 1 (Some 0%N) (Some 1%N)] (release 1 0 0) = true).
Proof. repeat split; vm_compute; reflexivity. Qed.
Print Assumptions C59_every_satisfiable_hint_shown_refuted.
(** A version with the largest 64-bit number makes a build with overflow checks panic while printing. *)
Theorem C59_overflow_panics_refuted : permits_newer true [cmp OpLess 1 None None] (release 1 0 u64_max) = Panic.
Proof. vm_compute. reflexivity. Qed.
Print Assumptions C59_overflow_panics_refuted.
