(** Property C93: what a version requirement selects. *)
From Coq Require Import List NArith ZArith Ascii String Bool Arith Lia ZifyBool ZifyN.
From Verif Require Import Base SemverModel SemverFacts MatchSpec.
Import ListNotations.
Local Open Scope N_scope.

Definition pk (p q : list string) : Z := match pre_cmp p q with Lt => -1 | Eq => 0 | Gt => 1 end.
Lemma k_eqb p q : pre_eqb p q = (pk p q =? 0)%Z. Proof. unfold pre_eqb, pk. destruct (pre_cmp p q); reflexivity. Qed.
Lemma k_gtb p q : pre_gtb p q = (0 <? pk p q)%Z. Proof. unfold pre_gtb, pk. destruct (pre_cmp p q); reflexivity. Qed.
Lemma k_ltb p q : pre_ltb p q = (pk p q <? 0)%Z. Proof. unfold pre_ltb, pk. destruct (pre_cmp p q); reflexivity. Qed.
Lemma k_geb p q : pre_geb p q = (0 <=? pk p q)%Z. Proof. unfold pre_geb, pk. destruct (pre_cmp p q); reflexivity. Qed.
Lemma k_lt p q : pre_cmp p q = Lt <-> (pk p q < 0)%Z. Proof. unfold pk. destruct (pre_cmp p q); split; intros; try discriminate; try lia; reflexivity. Qed.
Lemma k_eq p q : p = q <-> pk p q = 0%Z.
Proof.
  unfold pk. pose proof (cmp_eq_iff _ pre_cmp_laws p q) as E. destruct (pre_cmp p q); split; intros H; try discriminate; try reflexivity; try (apply E; reflexivity);
    apply E in H; discriminate.
Qed.
Lemma k_sym p q : pk q p = (- pk p q)%Z.
Proof. unfold pk. rewrite (cmp_antisym _ pre_cmp_laws p q). destruct (pre_cmp p q); reflexivity. Qed.
Lemma k_nil q : q <> [] -> pk [] q = 1%Z. Proof. destruct q; [contradiction|reflexivity]. Qed.
Lemma k_nil' p : p <> [] -> pk p [] = (-1)%Z. Proof. intros H. rewrite k_sym, k_nil by exact H. reflexivity. Qed.
Lemma k_refl p : pk p p = 0%Z. Proof. apply k_eq. reflexivity. Qed.
Lemma k_least p : forallb ident_wf p = true -> (0 <= pk p ["0"%string])%Z.
Proof. intros H. rewrite k_sym. unfold pk. pose proof (zero_pre_least p H). destruct (pre_cmp _ p); [lia|lia|contradiction]. Qed.

Ltac crunch :=
  repeat match goal with
  | |- context [if ?b then _ else _] => destruct b eqn:?
  end; cbn [c_op c_major c_minor c_patch c_pre major minor patch pre]; rewrite ?k_lt, ?k_eq, ?k_refl; try lia.
Ltac open_up :=
  unfold matches_impl, selects, selects_pre, matches_exact, matches_greater, matches_less, matches_tilde, matches_caret, from_on, before, same, numbers_before, same_numbers, past, incompatible, bound, release, least;
  cbn [c_op c_major c_minor c_patch c_pre major minor patch pre]; rewrite ?k_eqb, ?k_gtb, ?k_ltb, ?k_geb, ?k_lt, ?k_eq.
Lemma release_selects c v : comparator_wf c = true -> pre v = [] -> (matches_impl c v = true <-> selects c v).
Proof.
  destruct c as [o i mj mk p], v as [a b d q bu]. cbn [pre]. unfold comparator_wf. cbn. intros W ->.
  assert (K0 : pk [] [] = 0%Z) by reflexivity.
  assert (P : (match p with [] => pk [] p = 0 | _ => pk [] p = 1 end)%Z) by (destruct p; reflexivity).
  destruct mj as [j|], mk as [k|]; try (rewrite ?andb_false_r in W; discriminate); destruct o; open_up; rewrite ?(k_sym [] p).
  all: destruct p as [|p0 p]; try (rewrite ?andb_false_r in W; discriminate).
  all: crunch.
Qed.
Lemma pre_selects c v : comparator_wf c = true -> forallb ident_wf (pre v) = true -> pre v <> [] -> (matches_impl c v = true <-> selects_pre c v).
Proof.
  destruct c as [o i mj mk p], v as [a b d q bu]. cbn [pre]. unfold comparator_wf. cbn. intros W Q N.
  pose proof (k_least q Q) as K0. pose proof (k_nil' q N) as K1. pose proof (k_sym q p) as K2. pose proof (k_sym q ["0"%string]) as K3. pose proof (k_sym q []) as K4.
  destruct mj as [j|], mk as [k|]; try (rewrite ?andb_false_r in W; discriminate); destruct o; open_up.
  all: try (destruct p as [|p0 p]; [|rewrite ?andb_false_r in W; discriminate]).
  all: crunch.
Qed.
Lemma pre_named c v : comparator_wf c = true -> (pre_is_compatible c v = true <-> names_numbers c v).
Proof.
  intros W. unfold pre_is_compatible, names_numbers. rewrite !andb_true_iff, N.eqb_eq. destruct (c_minor c) as [j|], (c_patch c) as [k|].
  - rewrite !N.eqb_eq. destruct (c_pre c); (split; [intros (((A & B) & C) & D)|intros (D & A & B & C)]); try discriminate; try (elim D; reflexivity); try congruence.
    + split; [discriminate|]. split; [exact A|]. split; congruence.
    + split; [|reflexivity]. split; [|congruence]. split; [exact A|congruence].
  - split; [intros ((_ & C) & _); discriminate|intros (_ & _ & _ & C); discriminate].
  - split; [intros ((C & _) & _); destruct C; discriminate|intros (_ & _ & C & _); discriminate].
  - split; [intros ((C & _) & _); destruct C; discriminate|intros (_ & _ & C & _); discriminate].
Qed.
Lemma wf_pre v : version_wf v = true -> forallb ident_wf (pre v) = true.
Proof. unfold version_wf. rewrite !andb_true_iff. tauto. Qed.
Lemma wf_in r c : req_wf r = true -> In c r -> comparator_wf c = true.
Proof. intros W. apply (proj1 (forallb_forall _ _) W). Qed.

(** *** C93: a release is selected exactly if it lies in the range of each comparator. *)
Theorem C93_releases : forall r v, req_wf r = true -> pre v = [] -> (req_matches r v = true <-> forall c, In c r -> selects c v).
Proof.
  intros r v W P. unfold req_matches. rewrite P, andb_true_r, forallb_forall. split; intros H c I; apply (release_selects c v (wf_in r c W I) P); auto.
Qed.
(** *** C93: a pre-release is selected exactly if a comparator names a pre-release of the same numbers, and all agree. *)
Theorem C93_prereleases : forall r v, req_wf r = true -> version_wf v = true -> pre v <> [] ->
  (req_matches r v = true <-> (exists c, In c r /\ names_numbers c v) /\ forall c, In c r -> selects_pre c v).
Proof.
  intros r v W V P. unfold req_matches.
  assert (E : (match pre v with [] => true | _ :: _ => existsb (fun c => pre_is_compatible c v) r end) = existsb (fun c => pre_is_compatible c v) r) by (destruct (pre v); [contradiction|reflexivity]).
  rewrite E, andb_true_iff, forallb_forall, existsb_exists. split.
  - intros (A & c & I & C). split; [exists c; split; [exact I|]; apply (pre_named c v (wf_in r c W I)); exact C|].
    intros c' I'. apply (pre_selects c' v (wf_in r c' W I') (wf_pre v V) P). auto.
  - intros ((c & I & C) & A). split; [|exists c; split; [exact I|]; apply (pre_named c v (wf_in r c W I)); exact C].
    intros c' I'. apply (pre_selects c' v (wf_in r c' W I') (wf_pre v V) P). auto.
Qed.
Theorem C93_meets : forall r v, req_wf r = true -> version_wf v = true -> (req_matches r v = true <-> meets r v).
Proof.
  intros r v W V. unfold meets. destruct (list_eq_dec String.string_dec (pre v) []) as [P|P].
  - rewrite (C93_releases r v W P). split; [intros H; left; auto|]. intros [[_ H]|[N _]]; [exact H|contradiction].
  - rewrite (C93_prereleases r v W V P). split; [intros H; right; auto|]. intros [[N _]|[_ H]]; [contradiction|exact H].
Qed.
(** A requirement that names no pre-release selects none. *)
Theorem C93_prereleases_must_be_named : forall r v, (forall c, In c r -> c_pre c = []) -> pre v <> [] -> req_matches r v = false.
Proof.
  intros r v N P. unfold req_matches. apply andb_false_intro2. destruct (pre v); [contradiction|]. apply not_true_iff_false. rewrite existsb_exists.
  intros (c & I & C). unfold pre_is_compatible in C. rewrite (N c I), andb_false_r in C. discriminate.
Qed.
(** What follows the [+] plays no role. *)
Theorem C93_build_plays_no_role : forall r i j k p b b', req_matches r (mkVersion i j k p b) = req_matches r (mkVersion i j k p b').
Proof. reflexivity. Qed.

(** ** No gaps *)
Lemma before_iff v w : before v w <-> prec_cmp v w = Lt.
Proof.
  unfold before, numbers_before, same_numbers, prec_cmp. destruct (N.compare_spec (major v) (major w)) as [A|A|A]; cbn [then_cmp];
    [|split; [reflexivity|left; lia]|split; [intros [X|[X _]]; lia|discriminate]].
  destruct (N.compare_spec (minor v) (minor w)) as [B|B|B]; cbn [then_cmp];
    [|split; [reflexivity|left; lia]|split; [intros [X|[X _]]; lia|discriminate]].
  destruct (N.compare_spec (patch v) (patch w)) as [C|C|C]; cbn [then_cmp];
    [|split; [reflexivity|left; lia]|split; [intros [X|[X _]]; lia|discriminate]].
  split; [intros [X|[_ X]]; [lia|exact X]|intros X; right; split; [lia|exact X]].
Qed.
Lemma same_iff v w : same v w <-> prec_cmp v w = Eq.
Proof.
  rewrite prec_cmp_core, (cmp_eq_iff _ core_cmp_laws). unfold same, same_numbers, core_of. split; [intros ((A & B & C) & D); congruence|].
  intros H. injection H as A B C D. auto.
Qed.
Lemma from_on_iff w v : from_on w v <-> prec_cmp w v <> Gt.
Proof. unfold from_on. rewrite before_iff, same_iff. destruct (prec_cmp w v); split; intros H; try discriminate; auto; [destruct H; discriminate|contradiction]. Qed.
Lemma before_trans u v w : before u v -> before v w -> before u w.
Proof. rewrite !before_iff, !prec_cmp_core. apply (cmp_trans_lt _ core_cmp_laws). Qed.
Lemma same_before u v w : same u v -> before v w -> before u w.
Proof. rewrite same_iff, !before_iff, !prec_cmp_core. intros E. apply (cmp_eq_iff _ core_cmp_laws) in E. rewrite E. exact (fun H => H). Qed.
Lemma before_same u v w : before u v -> same v w -> before u w.
Proof. rewrite same_iff, !before_iff, !prec_cmp_core. intros H E. apply (cmp_eq_iff _ core_cmp_laws) in E. rewrite <- E. exact H. Qed.
Lemma same_trans u v w : same u v -> same v w -> same u w.
Proof. rewrite !same_iff, !prec_cmp_core, !(cmp_eq_iff _ core_cmp_laws). congruence. Qed.
Lemma from_on_trans u v w : from_on u v -> from_on v w -> from_on u w.
Proof.
  intros [A|A] [B|B]; [left; eapply before_trans; eassumption|left; eapply before_same; eassumption|left; eapply same_before; eassumption|right; eapply same_trans; eassumption].
Qed.
Lemma from_on_before u v w : from_on u v -> before v w -> before u w.
Proof. intros [A|A] B; [eapply before_trans|eapply same_before]; eassumption. Qed.
Lemma before_from_on u v w : before u v -> from_on v w -> before u w.
Proof. intros A [B|B]; [eapply before_trans|eapply before_same]; eassumption. Qed.
Lemma from_on_antisym u v : from_on u v -> from_on v u -> same u v.
Proof.
  intros [A|A] B; [|exact A]. assert (C : before u u) by (eapply before_from_on; eassumption). rewrite before_iff, prec_cmp_core, (cmp_refl core_cmp core_cmp_laws) in C. discriminate.
Qed.
Lemma same_between b u v w : same b u -> same b w -> from_on u v -> from_on v w -> same b v.
Proof.
  intros A B C D. apply from_on_antisym.
  - eapply from_on_trans; [right; exact A|exact C].
  - eapply from_on_trans; [exact D|]. right. rewrite same_iff, prec_cmp_core in *. rewrite (cmp_antisym _ core_cmp_laws (core_of b)), B. reflexivity.
Qed.
Lemma selects_between c u v w : from_on u v -> from_on v w -> selects c u -> selects c w -> selects c v.
Proof.
  intros A B. unfold selects. destruct (c_op c), (c_patch c);
    try (intros C D; exact (same_between _ u v w C D A B));
    try (intros [C _] [_ D]; split; [eapply from_on_trans|eapply from_on_before]; eassumption);
    intros C D; eauto using before_from_on, from_on_before, from_on_trans.
Qed.
Lemma selects_pre_between c u v w : from_on u v -> from_on v w -> selects_pre c u -> selects_pre c w -> selects_pre c v.
Proof.
  intros A B. unfold selects_pre. destruct (c_op c), (c_patch c);
    try (intros C D; exact (same_between _ u v w C D A B));
    try (intros [C _] [_ D]; split; [eapply from_on_trans|eapply from_on_before]; eassumption);
    intros C D; eauto using before_from_on, from_on_before, from_on_trans.
Qed.
(** *** C93: a requirement has no gaps: with two releases it selects every release between them, and with two pre-releases of the same
    numbers every one between these. *)
Theorem C93_no_gaps : forall r u v w, req_wf r = true -> from_on u v -> from_on v w -> req_matches r u = true -> req_matches r w = true ->
  (pre u = [] -> pre v = [] -> pre w = [] -> req_matches r v = true) /\ (version_wf u = true -> version_wf v = true -> version_wf w = true -> pre u <> [] -> pre v <> [] -> pre w <> [] -> same_numbers u v -> req_matches r v = true).
Proof.
  intros r u v w W A B Mu Mw. split.
  - intros Pu Pv Pw. rewrite C93_releases in * by assumption. intros c I. eapply selects_between; [exact A|exact B|auto|auto].
  - intros Wu Wv Ww Pu Pv Pw S. rewrite C93_prereleases in * by assumption. destruct Mu as ((c & I & N) & Mu). split.
    + exists c. split; [exact I|]. destruct S as (S1 & S2 & S3). unfold names_numbers in *. rewrite <- S1, <- S2, <- S3. exact N.
    + intros c' I'. eapply selects_pre_between; [exact A|exact B|auto|apply Mw, I'].
Qed.
Print Assumptions C93_releases.
Print Assumptions C93_prereleases.
Print Assumptions C93_meets.
Print Assumptions C93_prereleases_must_be_named.
Print Assumptions C93_no_gaps.
