(** C90: a more severe CVSS v2 vector has no lower base and temporal score; the
    environmental score is an exception. *)
From Coq Require Import List NArith ZArith QArith Qround Qminmax Ascii String Bool Lia Lqa SpecFloat.
From Verif Require Import Base StrLib CvssText CvssSpec CvssTextProofs CvssFloat Cvss3 Cvss2 CvssScoreSpec PropsCvssText PropsCvss3 PropsCvss2 Cvss4Spec CvssMonoSpec Cvss4Mono PropsCvss4Mono.
Import ListNotations.
Local Open Scope string_scope.
Local Open Scope Q_scope.

(** ** Weights *)
Lemma no_less_b_complete order x y : no_less_severe order x y -> no_less_b order x y = true.
Proof.
  intros (l & r & -> & I). induction l as [|z l IH]; cbn [app no_less_b].
  - rewrite String.eqb_refl. apply existsb_exists. exists y. split; [exact I|apply String.eqb_refl].
  - destruct (String.eqb_spec z x) as [->|N]; [|exact IH]. apply existsb_exists. exists y. split; [|apply String.eqb_refl].
    right. apply in_app_iff. right. exact I.
Qed.
Definition stands_for (n : string) (o : option string) : string :=
  match o with Some x => if String.eqb x "ND" then not_defined_v2 n else x | None => not_defined_v2 n end.
Definition ascending_weight (n : string) (w : list (string * Q)) (d hi : Q) : bool :=
  match find (fun p => String.eqb (fst p) n) severity_order_of_v2 with
  | None => false
  | Some (_, order) => forallb (fun x => forallb (fun y => implb (no_less_b order (stands_for n x) (stands_for n y))
      (Qle_bool 0 (weight w d x) && Qle_bool (weight w d x) (weight w d y) && Qle_bool (weight w d y) hi)) (values_of n)) (values_of n)
  end.
Lemma weight_up n w d hi v v' : ascending_weight n w d hi = true -> vector2 v -> vector2 v' -> at_least_as_severe_v2 (metric2 v) (metric2 v') ->
  0 <= weigh (metric2 v) n w d /\ weigh (metric2 v) n w d <= weigh (metric2 v') n w d /\ weigh (metric2 v') n w d <= hi.
Proof.
  unfold ascending_weight. intros T V V' S. destruct (find _ severity_order_of_v2) as [[n' order]|] eqn:F; [|discriminate].
  apply find_some in F as [I E]. cbn [fst] in E. apply String.eqb_eq in E as ->.
  specialize (S n order _ _ I eq_refl eq_refl). apply no_less_b_complete in S. change (effective_v2 (metric2 v) n) with (stands_for n (metric2 v n)) in S.
  change (effective_v2 (metric2 v') n) with (stands_for n (metric2 v' n)) in S.
  rewrite forallb_forall in T. specialize (T _ (value_in v n V)). rewrite forallb_forall in T. specialize (T _ (value_in v' n V')). rewrite S in T. cbn [implb] in T.
  rewrite !andb_true_iff, !Qle_bool_iff in T. rewrite !weigh_weight. tauto.
Qed.

(** ** The equations *)
Lemma times_up a a' b b' : 0 <= a -> a <= a' -> 0 <= b -> b <= b' -> 0 <= a * b /\ a * b <= a' * b'.
Proof. intros. split; nra. Qed.
Lemma expl_up v v' : vector2 v -> vector2 v' -> at_least_as_severe_v2 (metric2 v) (metric2 v') ->
  0 <= exploitability_v2 (metric2 v) /\ exploitability_v2 (metric2 v) <= exploitability_v2 (metric2 v').
Proof.
  intros V V' S. unfold exploitability_v2.
  destruct (weight_up "AV" [("L", 0.395); ("A", 0.646); ("N", 1.0)] 0 1 v v' eq_refl V V' S) as (A1 & A2 & _).
  destruct (weight_up "AC" [("H", 0.35); ("M", 0.61); ("L", 0.71)] 0 1 v v' eq_refl V V' S) as (B1 & B2 & _).
  destruct (weight_up "Au" [("M", 0.45); ("S", 0.56); ("N", 0.704)] 0 1 v v' eq_refl V V' S) as (C1 & C2 & _).
  revert A1 A2 B1 B2 C1 C2. generalize (weigh (metric2 v) "AV" [("L", 0.395); ("A", 0.646); ("N", 1.0)] 0), (weigh (metric2 v') "AV" [("L", 0.395); ("A", 0.646); ("N", 1.0)] 0),
    (weigh (metric2 v) "AC" [("H", 0.35); ("M", 0.61); ("L", 0.71)] 0), (weigh (metric2 v') "AC" [("H", 0.35); ("M", 0.61); ("L", 0.71)] 0),
    (weigh (metric2 v) "Au" [("M", 0.45); ("S", 0.56); ("N", 0.704)] 0), (weigh (metric2 v') "Au" [("M", 0.45); ("S", 0.56); ("N", 0.704)] 0).
  intros a a' b b' c c' A1 A2 B1 B2 C1 C2. destruct (times_up (20 * a) (20 * a') b b') as [D1 D2]; try lra. apply times_up; assumption.
Qed.
(** The common shape of the two impact equations. *)
Definition missed (c i a : Q) : Q := 10.41 * (1 - (1 - c) * (1 - i) * (1 - a)).
Lemma missed_up c i a c' i' a' : 0 <= c -> c <= c' -> c' <= 1 -> 0 <= i -> i <= i' -> i' <= 1 -> 0 <= a -> a <= a' -> a' <= 1 -> 0 <= missed c i a /\ missed c i a <= missed c' i' a'.
Proof.
  intros C1 C2 C3 I1 I2 I3 A1 A2 A3. unfold missed.
  destruct (times_up (1 - c') (1 - c) (1 - i') (1 - i)) as [D1 D2]; try lra.
  destruct (times_up ((1 - c') * (1 - i')) ((1 - c) * (1 - i)) (1 - a') (1 - a)) as [E1 E2]; try lra.
  destruct (times_up (1 - c) 1 (1 - i) 1) as [F1 F2]; try lra. destruct (times_up ((1 - c) * (1 - i)) 1 (1 - a) 1) as [G1 G2]; try lra.
Qed.
Lemma impact_up v v' : vector2 v -> vector2 v' -> at_least_as_severe_v2 (metric2 v) (metric2 v') ->
  0 <= impact_v2 (metric2 v) /\ impact_v2 (metric2 v) <= impact_v2 (metric2 v').
Proof.
  intros V V' S. destruct (weight_up "C" cia_v2 0 1 v v' eq_refl V V' S) as (C1 & C2 & C3). destruct (weight_up "I" cia_v2 0 1 v v' eq_refl V V' S) as (I1 & I2 & I3).
  destruct (weight_up "A" cia_v2 0 1 v v' eq_refl V V' S) as (A1 & A2 & A3). exact (missed_up _ _ _ _ _ _ C1 C2 C3 I1 I2 I3 A1 A2 A3).
Qed.
Lemma required_up v v' n m : (n = "C" /\ m = "CR") \/ (n = "I" /\ m = "IR") \/ (n = "A" /\ m = "AR") -> vector2 v -> vector2 v' -> at_least_as_severe_v2 (metric2 v) (metric2 v') ->
  let p a := weigh a n cia_v2 0 * weigh a m req_v2 1 in 0 <= p (metric2 v) /\ p (metric2 v) <= p (metric2 v') /\ p (metric2 v') <= 1.
Proof.
  intros NM V V' S. cbv zeta.
  assert (A : ascending_weight n cia_v2 0 0.66 = true) by (destruct NM as [[-> _]|[[-> _]|[-> _]]]; reflexivity).
  assert (B : ascending_weight m req_v2 1 1.51 = true) by (destruct NM as [[_ ->]|[[_ ->]|[_ ->]]]; reflexivity).
  destruct (weight_up n cia_v2 0 0.66 v v' A V V' S) as (A1 & A2 & A3). destruct (weight_up m req_v2 1 1.51 v v' B V V' S) as (B1 & B2 & B3).
  destruct (times_up _ _ _ _ A1 A2 B1 B2) as [C1 C2]. split; [exact C1|]. split; [exact C2|].
  destruct (times_up (weigh (metric2 v') n cia_v2 0) 0.66 (weigh (metric2 v') m req_v2 1) 1.51) as [_ D]; [lra|exact A3|lra|exact B3|].
  eapply Qle_trans; [exact D|]. unfold Qle. cbn. lia.
Qed.
Lemma min_up x y : 0 <= x -> x <= y -> 0 <= Qmin 10 x /\ Qmin 10 x <= Qmin 10 y.
Proof. intros X XY. split; [apply Q.min_glb; [unfold Qle; cbn; lia|exact X]|apply Q.min_le_compat_l; exact XY]. Qed.
Lemma adjusted_up v v' : vector2 v -> vector2 v' -> at_least_as_severe_v2 (metric2 v) (metric2 v') ->
  0 <= adjusted_impact_v2 (metric2 v) /\ adjusted_impact_v2 (metric2 v) <= adjusted_impact_v2 (metric2 v').
Proof.
  intros V V' S. destruct (required_up v v' "C" "CR" ltac:(tauto) V V' S) as (C1 & C2 & C3). destruct (required_up v v' "I" "IR" ltac:(tauto) V V' S) as (I1 & I2 & I3).
  destruct (required_up v v' "A" "AR" ltac:(tauto) V V' S) as (A1 & A2 & A3).
  destruct (missed_up _ _ _ _ _ _ C1 C2 C3 I1 I2 I3 A1 A2 A3) as [M1 M2]. exact (min_up _ _ M1 M2).
Qed.
Lemma round_up x y : x <= y -> (round_v2 x <= round_v2 y)%Z.
Proof. intros H. unfold round_v2. apply Qfloor_resp_le. lra. Qed.
Lemma base_up p p' q q' : 0 <= p -> p <= p' -> q <= q' -> (0 <= base_v2 p q)%Z -> (0 <= base_v2 p' q')%Z -> (base_v2 p q <= base_v2 p' q')%Z.
Proof.
  intros P PP QQ B B'. revert B B'. unfold base_v2, f_v2. destruct (Qeq_bool p 0) eqn:E.
  - intros _ B'. transitivity 0%Z; [|exact B']. unfold round_v2. rewrite (Qfloor_comp _ 0.5); [vm_compute; discriminate|]. lra.
  - intros B B'. destruct (Qeq_bool p' 0) eqn:E'.
    + exfalso. apply Qeq_bool_iff in E'. assert (p == 0) by lra. apply Qeq_bool_iff in H. congruence.
    + apply round_up. lra.
Qed.
Lemma tenths_up n m : (n <= m)%Z -> tenths_of n <= tenths_of m.
Proof. intros H. unfold tenths_of. rewrite Zle_Qle in H. lra. Qed.
Lemma tenths_0 n : (0 <= n)%Z -> 0 <= tenths_of n.
Proof. intros H. apply tenths_up in H. eapply Qle_trans; [|exact H]. vm_compute. discriminate. Qed.
Lemma temporal_up v v' b b' : vector2 v -> vector2 v' -> at_least_as_severe_v2 (metric2 v) (metric2 v') -> (0 <= b <= b')%Z ->
  (0 <= temporal_v2 (metric2 v) b <= temporal_v2 (metric2 v') b')%Z.
Proof.
  intros V V' S [B0 B]. pose proof (tenths_0 b B0) as T0. pose proof (tenths_up b b' B) as TB. unfold temporal_v2.
  destruct (weight_up "E" [("U", 0.85); ("POC", 0.9); ("F", 0.95); ("H", 1.0); ("ND", 1.0)] 1 1 v v' eq_refl V V' S) as (A1 & A2 & _).
  destruct (weight_up "RL" [("OF", 0.87); ("TF", 0.90); ("W", 0.95); ("U", 1.0); ("ND", 1.0)] 1 1 v v' eq_refl V V' S) as (C1 & C2 & _).
  destruct (weight_up "RC" [("UC", 0.90); ("UR", 0.95); ("C", 1.0); ("ND", 1.0)] 1 1 v v' eq_refl V V' S) as (D1 & D2 & _).
  destruct (times_up _ _ _ _ T0 TB A1 A2) as [E1 E2]. destruct (times_up _ _ _ _ E1 E2 C1 C2) as [F1 F2]. destruct (times_up _ _ _ _ F1 F2 D1 D2) as [G1 G2].
  split; [|apply round_up; exact G2]. change 0%Z with (round_v2 0). apply round_up. exact G1.
Qed.
Lemma environmental_up v v' t t' : vector2 v -> vector2 v' -> at_least_as_severe_v2 (metric2 v) (metric2 v') -> (0 <= t <= t')%Z -> (t' <= 100)%Z ->
  (environmental_v2 (metric2 v) t <= environmental_v2 (metric2 v') t')%Z.
Proof.
  intros V V' S [B0 B] B1. pose proof (tenths_0 t B0) as T0. pose proof (tenths_up t t' B) as TB. pose proof (tenths_up t' 100 B1) as T1. assert (T100 : tenths_of 100 == 10) by (vm_compute; reflexivity). unfold environmental_v2.
  destruct (weight_up "CDP" [("N", 0); ("L", 0.1); ("LM", 0.3); ("MH", 0.4); ("H", 0.5); ("ND", 0)] 0 0.5 v v' eq_refl V V' S) as (A1 & A2 & A3).
  destruct (weight_up "TD" [("N", 0); ("L", 0.25); ("M", 0.75); ("H", 1.0); ("ND", 1.0)] 1 1 v v' eq_refl V V' S) as (C1 & C2 & _).
  apply round_up. revert A1 A2 A3 C1 C2 T0 TB T1. rewrite T100.
  generalize (weigh (metric2 v) "CDP" [("N", 0); ("L", 0.1); ("LM", 0.3); ("MH", 0.4); ("H", 0.5); ("ND", 0)] 0), (weigh (metric2 v') "CDP" [("N", 0); ("L", 0.1); ("LM", 0.3); ("MH", 0.4); ("H", 0.5); ("ND", 0)] 0),
    (weigh (metric2 v) "TD" [("N", 0); ("L", 0.25); ("M", 0.75); ("H", 1.0); ("ND", 1.0)] 1), (weigh (metric2 v') "TD" [("N", 0); ("L", 0.25); ("M", 0.75); ("H", 1.0); ("ND", 1.0)] 1), (tenths_of t), (tenths_of t').
  intros c c' d d' x x' A1 A2 A3 C1 C2 T0 TB T1.
  destruct (times_up (x + (10 - x) * c) (x' + (10 - x') * c') d d') as [_ R]; try assumption; nra.
Qed.

(** ** The theorems *)
Lemma base_nonnegative_all : forallb (fun i => forallb (fun e => Z.leb 0 (base_v2 (snd i) (snd e))) expls) (nub fq_eqb impacts) = true.
Proof. vm_cast_no_check (eq_refl true). Qed.
Lemma base_nonnegative v : vector2 v -> (0 <= base_v2 (impact_v2 (metric2 v)) (exploitability_v2 (metric2 v)))%Z.
Proof.
  intros V. pose proof (impact_in v V) as I. apply (nub_in fq_eqb) in I; [|exact fq_eqb_eq]. pose proof base_nonnegative_all as T. rewrite forallb_forall in T. specialize (T _ I).
  rewrite forallb_forall in T. specialize (T _ (expl_in v V)). apply Z.leb_le. exact T.
Qed.
Lemma base_order v v' : vector2 v -> vector2 v' -> at_least_as_severe_v2 (metric2 v) (metric2 v') ->
  (0 <= base_v2 (impact_v2 (metric2 v)) (exploitability_v2 (metric2 v)) <= base_v2 (impact_v2 (metric2 v')) (exploitability_v2 (metric2 v')))%Z.
Proof.
  intros V V' S. destruct (impact_up v v' V V' S) as [I1 I2]. destruct (expl_up v v' V V' S) as [_ E].
  pose proof (base_nonnegative v V) as N. pose proof (base_nonnegative v' V') as N'. split; [exact N|]. apply base_up; assumption.
Qed.
(** The base score does not go down. *)
Theorem C90_v2_base v v' : vector2 v -> vector2 v' -> at_least_as_severe_v2 (metric2 v) (metric2 v') -> fle (score2 v) (score2 v') = true.
Proof.
  intros V V' S. destruct (all_scores v V) as ((R & T & _) & _). destruct (all_scores v' V') as ((R' & T' & _) & _). apply (tenths_le _ _ _ _ R R' T T').
  pose proof (base_order v v' V V' S). unfold base_score_v2. lia.
Qed.
(** Nor does the temporal score. *)
Theorem C90_v2_temporal v v' : vector2 v -> vector2 v' -> at_least_as_severe_v2 (metric2 v) (metric2 v') -> fle (temporal_score2 v) (temporal_score2 v') = true.
Proof.
  intros V V' S. destruct (all_scores v V) as (_ & (R & T & _) & _). destruct (all_scores v' V') as (_ & (R' & T' & _) & _). apply (tenths_le _ _ _ _ R R' T T').
  pose proof (temporal_up v v' _ _ V V' S (base_order v v' V V' S)). unfold temporal_score_v2. lia.
Qed.
(** The score of the base equation with the adjusted impact, in tenths. *)
Local Opaque base_v2 temporal_v2 environmental_v2 adjusted_impact_v2 exploitability_v2 impact_v2.
Definition adjusted_base_v2 (a : assignment) : Z := base_v2 (adjusted_impact_v2 a) (exploitability_v2 a).
Lemma in_range_100 n : in_range n = true -> (n <= 100)%Z.
Proof. unfold in_range. intros H. apply andb_true_iff in H as [_ H]. apply Z.leb_le. exact H. Qed.
(** The environmental score does not go down either as long as this is not negative. *)
Theorem C90_v2_environmental v v' : vector2 v -> vector2 v' -> at_least_as_severe_v2 (metric2 v) (metric2 v') ->
  (0 <= adjusted_base_v2 (metric2 v))%Z -> (0 <= adjusted_base_v2 (metric2 v'))%Z -> fle (environmental_score2 v) (environmental_score2 v') = true.
Proof.
  intros V V' S N N'. destruct (all_scores v V) as (_ & _ & (R & T & _)). destruct (all_scores v' V') as (_ & _ & (R' & T' & _)). apply (tenths_le _ _ _ _ R R' T T').
  unfold adjusted_base_v2 in N, N'. destruct (adjusted_up v v' V V' S) as [I1 I2]. destruct (expl_up v v' V V' S) as [_ E].
  pose proof (base_up _ _ _ _ I1 I2 E N N') as B.
  pose proof (temporal_up v v' _ _ V V' S (conj N B)) as TU.
  destruct (temporal_in v' (adjusted_impact2 v') (adjusted_impact_v2 (metric2 v')) V' (in_or_app _ _ _ (or_intror (adjusted_in v' V')))) as [IR _]. cbv zeta in IR.
  apply in_range_100 in IR.
  pose proof (environmental_up v v' _ _ V V' S TU IR) as EU. unfold environmental_score_v2. lia.
Qed.
(** It is not negative if no security requirement is low. *)
Definition no_low_requirement (a : assignment) : Prop := forall n, In n ["CR"; "IR"; "AR"] -> effective_v2 a n <> "L".
Definition q_eqb (x y : Q) : bool := Z.eqb (Qnum x) (Qnum y) && Pos.eqb (Qden x) (Qden y).
Lemma q_eqb_eq x y : q_eqb x y = true -> x = y.
Proof. destruct x as [a b], y as [c d]. unfold q_eqb. cbn. rewrite andb_true_iff, Z.eqb_eq, Pos.eqb_eq. intros [-> ->]. reflexivity. Qed.
Definition high_products (n m : string) : list Q :=
  nub q_eqb (flat_map (fun x => map (fun y => weight cia_v2 0 x * weight req_v2 1 y) (filter (fun o => negb (String.eqb (stands_for m o) "L")) (values_of m))) (values_of n)).
Lemma high_products_in v n m : vector2 v -> effective_v2 (metric2 v) m <> "L" -> In (weigh (metric2 v) n cia_v2 0 * weigh (metric2 v) m req_v2 1) (high_products n m).
Proof.
  intros V N. apply nub_in; [exact q_eqb_eq|]. apply in_flat_map. exists (metric2 v n). split; [apply value_in; exact V|].
  apply in_map_iff. exists (metric2 v m). split; [reflexivity|]. apply filter_In. split; [apply value_in; exact V|].
  change (effective_v2 (metric2 v) m) with (stands_for m (metric2 v m)) in N. apply negb_true_iff. apply String.eqb_neq. exact N.
Qed.
Definition expl_values : list Q := nub q_eqb (map snd expls).
Lemma expl_values_in v : vector2 v -> In (exploitability_v2 (metric2 v)) expl_values.
Proof. intros V. unfold expl_values. apply (nub_in q_eqb _ _ q_eqb_eq). exact (in_map snd _ _ (expl_in v V)). Qed.
Definition all_not_negative (cs is_ as_ es : list Q) : bool :=
  forallb (fun c => forallb (fun i => forallb (fun a => let p := q_adjusted c i a in forallb (fun e => Z.leb 0 (base_v2 p e)) es) as_) is_) cs.
Lemma all_not_negative_in cs is_ as_ es c i a e : all_not_negative cs is_ as_ es = true -> In c cs -> In i is_ -> In a as_ -> In e es -> (0 <= base_v2 (q_adjusted c i a) e)%Z.
Proof.
  unfold all_not_negative. intros T C I A E. rewrite forallb_forall in T. specialize (T _ C). rewrite forallb_forall in T. specialize (T _ I). rewrite forallb_forall in T. specialize (T _ A).
  cbv zeta in T. rewrite forallb_forall in T. specialize (T _ E). apply Z.leb_le in T. exact T.
Qed.
Lemma adjusted_nonnegative_all : all_not_negative (high_products "C" "CR") (high_products "I" "IR") (high_products "A" "AR") expl_values = true.
Proof. vm_cast_no_check (eq_refl true). Qed.
Local Transparent adjusted_impact_v2.
Local Opaque high_products expl_values.
Theorem C90_v2_not_negative v : vector2 v -> no_low_requirement (metric2 v) -> (0 <= adjusted_base_v2 (metric2 v))%Z.
Proof.
  intros V N. pose proof (high_products_in v "C" "CR" V (N "CR" ltac:(cbn; tauto))) as C. pose proof (high_products_in v "I" "IR" V (N "IR" ltac:(cbn; tauto))) as I.
  pose proof (high_products_in v "A" "AR" V (N "AR" ltac:(cbn; tauto))) as A.
  exact (all_not_negative_in _ _ _ _ _ _ _ _ adjusted_nonnegative_all C I A (expl_values_in v V)).
Qed.
Lemma no_low_up a b : at_least_as_severe_v2 a b -> no_low_requirement a -> no_low_requirement b.
Proof.
  intros S N n I E. specialize (N n I). apply N. clear N.
  assert (IN : In (n, ["L"; "M"; "H"]) severity_order_of_v2) by (cbn [In] in I; repeat (destruct I as [<-|I]; [unfold severity_order_of_v2; cbn [In]; tauto|]); contradiction).
  specialize (S n _ _ _ IN eq_refl eq_refl). rewrite E in S. apply (first_no_less _ _ _ S). cbn. intuition discriminate.
Qed.
(** So without low security requirements it never goes down. *)
Theorem C90_v2_environmental_no_low v v' : vector2 v -> vector2 v' -> at_least_as_severe_v2 (metric2 v) (metric2 v') ->
  no_low_requirement (metric2 v) -> fle (environmental_score2 v) (environmental_score2 v') = true.
Proof.
  intros V V' S N. apply C90_v2_environmental; try assumption; apply C90_v2_not_negative; try assumption. exact (no_low_up _ _ S N).
Qed.
(** With one it can: more impact on confidentiality takes the score from 5.0 to
    4.9, and so does a more mature exploit. *)
Definition v2_of (s : string) : slots := match parse2 s with Ok v => v | _ => [] end.
Definition all_no_less (a b : assignment) : bool :=
  forallb (fun p => no_less_b (snd p) (effective_v2 a (fst p)) (effective_v2 b (fst p))) severity_order_of_v2.
Lemma all_no_less_sound a b : all_no_less a b = true -> at_least_as_severe_v2 a b.
Proof.
  unfold all_no_less. rewrite forallb_forall. intros H name order x y I X Y. specialize (H _ I). cbn [fst snd] in H.
  assert (effective_v2 a name = x) as <- by congruence. assert (effective_v2 b name = y) as <- by congruence. apply no_less_b_sound. exact H.
Qed.
Definition lower (s t : string) : Prop := exists v w, parse2 s = Ok v /\ parse2 t = Ok w /\ at_least_as_severe_v2 (metric2 v) (metric2 w) /\
  tenths 50 (environmental_score2 v) /\ tenths 49 (environmental_score2 w).
Local Transparent base_v2 temporal_v2 environmental_v2 adjusted_impact_v2 exploitability_v2 impact_v2.
Theorem C90_v2_environmental_refuted :
  lower "AV:L/AC:H/Au:M/C:N/I:N/A:N/CDP:H/CR:L" "AV:L/AC:H/Au:M/C:P/I:N/A:N/CDP:H/CR:L" /\
  lower "AV:L/AC:H/Au:M/C:P/I:N/A:N/E:U/RL:OF/RC:UC/CDP:H/CR:L" "AV:L/AC:H/Au:M/C:P/I:N/A:N/E:H/RL:OF/RC:UC/CDP:H/CR:L".
Proof.
  split; eexists; eexists; (split; [vm_compute; reflexivity|]); (split; [vm_compute; reflexivity|]); (split; [apply all_no_less_sound; vm_compute; reflexivity|]);
    split; vm_compute; reflexivity.
Qed.
(** The hypotheses are met by vectors with different scores. *)
Theorem C90_nonvacuous : exists v w, parse2 "AV:L/AC:H/Au:M/C:P/I:N/A:N/E:U/RL:OF/RC:UC/CDP:L/TD:M/IR:H" = Ok v /\ parse2 "AV:L/AC:L/Au:M/C:P/I:N/A:C/E:U/RL:OF/RC:UC/CDP:LM/IR:H" = Ok w /\
  at_least_as_severe_v2 (metric2 v) (metric2 w) /\ no_low_requirement (metric2 v) /\
  (tenths 8 (score2 v) /\ tenths 50 (score2 w)) /\ (tenths 5 (temporal_score2 v) /\ tenths 33 (temporal_score2 w)) /\ (tenths 11 (environmental_score2 v) /\ tenths 53 (environmental_score2 w)).
Proof.
  eexists; eexists; (split; [vm_compute; reflexivity|]); (split; [vm_compute; reflexivity|]); (split; [apply all_no_less_sound; vm_compute; reflexivity|]).
  split; [intros n I; cbn [In] in I; repeat (destruct I as [<-|I]; [vm_compute; discriminate|]); contradiction|].
  repeat apply conj; vm_compute; reflexivity.
Qed.
Print Assumptions C90_v2_environmental.
