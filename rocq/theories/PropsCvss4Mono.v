(** C89: a more severe CVSS v4 vector never has a lower score. *)
From Coq Require Import List NArith ZArith QArith Qround Ascii String Bool Lia SpecFloat.
From Verif Require Import Base StrLib CvssText CvssSpec CvssTextProofs CvssFloat Cvss3 Cvss2 Cvss4Data Cvss4 CvssScoreSpec Cvss4Spec PropsCvssText PropsCvss3
  Cvss4Proofs Cvss4Tables Cvss4Score CvssMonoSpec Cvss4Mono PropsCvss4.
Import ListNotations.
Local Open Scope string_scope.
Local Open Scope Z_scope.

Lemma severe_at a b name order : at_least_as_severe_v4 a b -> In (name, order) severity_order_of_v4 -> no_less_severe order (effective a name) (effective b name).
Proof. intros S I. exact (S name order _ _ I eq_refl eq_refl). Qed.
Lemma first_no_less order x y : no_less_severe (x :: order) y x -> ~ In x order -> y = x.
Proof.
  intros (l & r & E & I) N. destruct l as [|z l]; cbn in E; injection E as <- E; [congruence|]. exfalso. apply N. rewrite E. apply in_app_iff. right.
  destruct I as [->|I]; [left; reflexivity|right; exact I].
Qed.
Lemma score_monotone a b s t : proper s -> proper t -> agree (effective a) (val s) -> agree (effective b) (val t) -> at_least_as_severe_v4 a b ->
  exists n m, score_v4 a = Some n /\ score_v4 b = Some m /\ n <= m.
Proof.
  intros P Q A B S. unfold score_v4. rewrite (score_of_ext _ _ A), (score_of_ext _ _ B).
  assert (O : forall name order, In (name, order) severity_order_of_v4 -> In name scored_metrics -> no_less_severe order (val s name) (val t name)).
  { intros name order I J. rewrite <- (A name J), <- (B name J). apply severe_at; assumption. }
  destruct (no_impact4 s) eqn:NS.
  - rewrite (none_score s NS). destruct (no_impact4 t) eqn:NT; [rewrite (none_score t NT); exists 0, 0; repeat split; lia|].
    destruct (score_exact t Q NT) as (m & x & E & R & _). rewrite E. exists 0, m. repeat split; lia.
  - assert (NT : no_impact4 t = false).
    { destruct (no_impact4 t) eqn:NT; [|reflexivity]. exfalso. revert NS NT. unfold no_impact4, none36, none4, p36, p4. rewrite !andb_true_iff, !String.eqb_eq.
      intros NS [[[H1 H2] H3] [[H4 H5] H6]].
      assert (E : forall name order, In (name, "N" :: order) severity_order_of_v4 -> In name scored_metrics -> ~ In "N" order -> val t name = "N" -> String.eqb (val s name) "N" = true).
      { intros name order I J K E. specialize (O _ _ I J). rewrite E in O. apply String.eqb_eq. exact (first_no_less _ _ _ O K). }
      assert (F : forall l : list string, ~ In "N" l <-> existsb (String.eqb "N") l = false).
      { intros l. rewrite <- not_true_iff_false, existsb_exists. split; intros H C; apply H; [destruct C as (x & I & X); apply String.eqb_eq in X as <-; exact I|exists "N"; split; [exact C|reflexivity]]. }
      pose proof (E "VC" ["L"; "H"] ltac:(cbn; tauto) ltac:(cbn; tauto) ltac:(apply F; reflexivity) H1) as G1. pose proof (E "VI" ["L"; "H"] ltac:(cbn; tauto) ltac:(cbn; tauto) ltac:(apply F; reflexivity) H2) as G2.
      pose proof (E "VA" ["L"; "H"] ltac:(cbn; tauto) ltac:(cbn; tauto) ltac:(apply F; reflexivity) H3) as G3. pose proof (E "SC" ["L"; "H"] ltac:(cbn; tauto) ltac:(cbn; tauto) ltac:(apply F; reflexivity) H4) as G4.
      pose proof (E "SI" ["L"; "H"; "S"] ltac:(cbn; tauto) ltac:(cbn; tauto) ltac:(apply F; reflexivity) H5) as G5. pose proof (E "SA" ["L"; "H"; "S"] ltac:(cbn; tauto) ltac:(cbn; tauto) ltac:(apply F; reflexivity) H6) as G6.
      cbn [val] in G1, G2, G3, G4, G5, G6. rewrite G1, G2, G3, G4, G5, G6 in NS. discriminate. }
    rewrite (score_raw s P NS), (score_raw t Q NT). eexists. eexists. split; [reflexivity|]. split; [reflexivity|]. apply Z.div_le_mono; [lia|].
    assert (L : raw s <= raw t); [|lia].
    apply raw_monotone; unfold orders1, orders2, orders36, orders4, l1, l2, l36, l4; repeat apply pw_cons; try apply pw_nil;
      match goal with |- no_less_severe _ (?f s) _ =>
        first [exact (O "AV" _ ltac:(cbn; tauto) ltac:(cbn; tauto))|exact (O "PR" _ ltac:(cbn; tauto) ltac:(cbn; tauto))|exact (O "UI" _ ltac:(cbn; tauto) ltac:(cbn; tauto))
              |exact (O "AC" _ ltac:(cbn; tauto) ltac:(cbn; tauto))|exact (O "AT" _ ltac:(cbn; tauto) ltac:(cbn; tauto))
              |exact (O "VC" _ ltac:(cbn; tauto) ltac:(cbn; tauto))|exact (O "VI" _ ltac:(cbn; tauto) ltac:(cbn; tauto))|exact (O "VA" _ ltac:(cbn; tauto) ltac:(cbn; tauto))
              |exact (O "CR" _ ltac:(cbn; tauto) ltac:(cbn; tauto))|exact (O "IR" _ ltac:(cbn; tauto) ltac:(cbn; tauto))|exact (O "AR" _ ltac:(cbn; tauto) ltac:(cbn; tauto))
              |exact (O "SC" _ ltac:(cbn; tauto) ltac:(cbn; tauto))|exact (O "SI" _ ltac:(cbn; tauto) ltac:(cbn; tauto))|exact (O "SA" _ ltac:(cbn; tauto) ltac:(cbn; tauto))
              |exact (O "E" _ ltac:(cbn; tauto) ltac:(cbn; tauto))] end.
Qed.
(** Making metrics more severe, any number of them, never lowers the score. *)
Theorem C89_v4_monotone v w x y : vector4 v -> vector4 w -> complete required_v4 (metric4 v) -> complete required_v4 (metric4 w) ->
  at_least_as_severe_v4 (metric4 v) (metric4 w) -> score4 v = Ok x -> score4 w = Ok y -> fle x y = true.
Proof.
  intros V W K L S X Y. destruct (scoring_complete v V K) as (s & _ & P & A). destruct (scoring_complete w W L) as (t & _ & Q & B).
  destruct (score_monotone _ _ s t P Q A B S) as (n & m & E & F & LE).
  destruct (C44_score v V K) as (n' & x' & X' & E' & R & T). destruct (C44_score w W L) as (m' & y' & Y' & F' & R' & T').
  assert (n' = n) as -> by congruence. assert (m' = m) as -> by congruence. assert (x' = x) as -> by congruence. assert (y' = y) as -> by congruence.
  apply (tenths_le n m x y R R' T T'). exact LE.
Qed.
(** The same about texts: whatever two texts are read, both vectors have scores
    and these are ordered as the metrics are. *)
Theorem C89_v4_texts s t v w : parse4 s = Ok v -> parse4 t = Ok w -> at_least_as_severe_v4 (metric4 v) (metric4 w) ->
  exists x y, score4 v = Ok x /\ score4 w = Ok y /\ fle x y = true.
Proof.
  intros H H' S. destruct (C43_stable s v H) as (V & K & _). destruct (C43_stable t w H') as (W & L & _).
  destruct (C44_score v V K) as (n & x & X & _). destruct (C44_score w W L) as (m & y & Y & _). exists x, y. split; [exact X|]. split; [exact Y|].
  exact (C89_v4_monotone v w x y V W K L S X Y).
Qed.
(** Nor does it lower the severity. *)
Definition rank_of_band (b : band) : nat := match b with BNone => 0 | BLow => 1 | BMedium => 2 | BHigh => 3 | BCritical => 4 end.
Theorem C89_v4_severity v w x y : vector4 v -> vector4 w -> complete required_v4 (metric4 v) -> complete required_v4 (metric4 w) ->
  at_least_as_severe_v4 (metric4 v) (metric4 w) -> score4 v = Ok x -> score4 w = Ok y ->
  (rank_of_band (rating_band (rating4 x)) <= rank_of_band (rating_band (rating4 y)))%nat.
Proof.
  intros V W K L S X Y. pose proof (C89_v4_monotone v w x y V W K L S X Y) as LE.
  destruct (C44_score v V K) as (n & x' & X' & _ & R & T). destruct (C44_score w W L) as (m & y' & Y' & _ & R' & T').
  assert (x' = x) as -> by congruence. assert (y' = y) as -> by congruence. apply (tenths_le n m x y R R' T T') in LE.
  rewrite (C45_severity v x n V X R T), (C45_severity w y m W Y R' T'). unfold band_of.
  repeat match goal with |- context [if ?b then _ else _] => destruct b eqn:? end; cbn; try lia;
    repeat match goal with H : _ = false |- _ => first [apply Z.eqb_neq in H|apply Z.leb_gt in H] | H : _ = true |- _ => first [apply Z.eqb_eq in H|apply Z.leb_le in H] end; lia.
Qed.
Lemma effective_in v name order : vector4 v -> complete required_v4 (metric4 v) -> In (name, order) severity_order_of_v4 -> In (effective (metric4 v) name) order.
Proof.
  intros V K I. assert (D : In name scored_metrics /\ forall x, In x (values_v4 name) -> In x order).
  { unfold severity_order_of_v4 in I. cbn [In] in I.
    repeat (destruct I as [I|I]; [injection I as <- <-; split; [cbn; tauto|intros x; cbn; tauto]|]). contradiction. }
  destruct D as [D U]. apply U. destruct (scoring_complete v V K) as (s & _ & P & A). rewrite (A name D). exact (P name D).
Qed.
Lemma no_less_refl order x : In x order -> no_less_severe order x x.
Proof. intros I. apply in_split in I as (l & r & ->). exists l, r. split; [reflexivity|left; reflexivity]. Qed.
(** A single base, threat or requirement metric raised, the rest unchanged. *)
Theorem C89_v4_one_metric v w x y name order l p m q r : vector4 v -> vector4 w -> complete required_v4 (metric4 v) ->
  (forall n, n <> name -> metric4 w n = metric4 v n) -> In (name, order) severity_order_of_v4 -> order = (l ++ p :: m ++ q :: r)%list ->
  metric4 v name = Some p -> metric4 w name = Some q -> score4 v = Ok x -> score4 w = Ok y -> fle x y = true.
Proof.
  intros V W K SAME IN EQ X Y SX SY.
  assert (L : complete required_v4 (metric4 w)) by (intros n I; destruct (string_dec n name) as [->|N]; [congruence|rewrite SAME by exact N; apply K; exact I]).
  apply (C89_v4_monotone v w x y V W K L); [|exact SX|exact SY]. intros n o u u' I U U'. assert (effective (metric4 v) n = u) as <- by congruence. assert (effective (metric4 w) n = u') as <- by congruence. clear U U'.
  assert (MN : String.append "M" n <> name).
  { unfold severity_order_of_v4 in IN, I. cbn [In] in IN, I. intros E.
    repeat (destruct IN as [IN|IN]; [injection IN as <- _; discriminate E|]). contradiction. }
  destruct (string_dec n name) as [->|N].
  - assert (o = order) as -> by (clear -I IN; unfold severity_order_of_v4 in *; cbn in I, IN;
      repeat (destruct I as [I|I]; [injection I as <- <-; repeat (destruct IN as [IN|IN]; [first [discriminate IN|injection IN as <-; reflexivity]|]); contradiction|]); contradiction).
    pose proof (effective_in v name order V K IN) as EI. revert EI. unfold effective, given. rewrite (SAME _ MN), X, Y.
    destruct (match metric4 v (String.append "M" name) with Some z => if String.eqb z "X" then None else Some z | None => None end) as [z|]; [intros EI; apply no_less_refl; exact EI|].
    assert (NX : forall z, In z order -> String.eqb z "X" = false).
    { clear -IN. intros z J. unfold severity_order_of_v4 in IN. cbn in IN.
      repeat (destruct IN as [IN|IN]; [injection IN as <- <-; cbn in J; repeat (destruct J as [<-|J]; [reflexivity|]); contradiction|]). contradiction. }
    rewrite (NX p), (NX q) by (rewrite EQ; apply in_app_iff; right; first [left; reflexivity|right; apply in_app_iff; right; left; reflexivity]).
    intros _. exists l, (m ++ q :: r)%list. split; [exact EQ|]. right. apply in_app_iff. right. left. reflexivity.
  - assert (E : effective (metric4 w) n = effective (metric4 v) n) by (unfold effective, given; rewrite (SAME _ MN), (SAME _ N); reflexivity).
    rewrite E. apply no_less_refl. apply effective_in; assumption.
Qed.
(** Leaving out (or giving as X) the exploit maturity or a security requirement
    never lowers the score. *)
Theorem C89_v4_not_defined v w x y name : vector4 v -> vector4 w -> complete required_v4 (metric4 v) ->
  (forall n, n <> name -> metric4 w n = metric4 v n) -> In name ["E"; "CR"; "IR"; "AR"] -> given (metric4 w) name = None ->
  score4 v = Ok x -> score4 w = Ok y -> fle x y = true.
Proof.
  intros V W K SAME IN G SX SY.
  assert (L : complete required_v4 (metric4 w)).
  { intros n I. rewrite SAME; [apply K; exact I|]. intros ->. clear -I IN. cbn in I, IN. intuition (subst; discriminate). }
  apply (C89_v4_monotone v w x y V W K L); [|exact SX|exact SY]. intros n o u u' I U U'. assert (effective (metric4 v) n = u) as <- by congruence. assert (effective (metric4 w) n = u') as <- by congruence. clear U U'.
  assert (MN : String.append "M" n <> name) by (cbn [In] in IN; intros E; rewrite <- E in IN; repeat (destruct IN as [IN|IN]; [discriminate IN|]); contradiction).
  destruct (string_dec n name) as [->|N].
  - pose proof (effective_in v name o V K I) as EI.
    assert (M0 : given (metric4 w) (String.append "M" name) = None).
    { destruct (metric4 w (String.append "M" name)) as [z|] eqn:Z0; [|unfold given; rewrite Z0; reflexivity]. exfalso. pose proof (value_in4 w _ z W Z0) as C. clear -C IN.
      cbn [In] in IN. repeat (destruct IN as [<-|IN]; [exact C|]). contradiction. }
    assert (E : effective (metric4 w) name = if String.eqb name "E" then "A" else "H") by (unfold effective; rewrite M0, G; reflexivity). rewrite E. clear E M0 G.
    assert (TOP : exists l, o = (l ++ [if String.eqb name "E" then "A" else "H"])%list).
    { clear -IN I. cbn [In] in IN. unfold severity_order_of_v4 in I. cbn [In] in I. repeat (destruct IN as [<-|IN];
        [repeat (destruct I as [I|I]; [first [discriminate I|injection I as <-; first [exists ["U"; "P"]; reflexivity|exists ["L"; "M"]; reflexivity]]|]); contradiction|]). contradiction. }
    destruct TOP as (l & EO). set (top := if String.eqb name "E" then "A" else "H") in *. clearbody top. rewrite EO in EI |- *. apply in_app_iff in EI as [EI|[<-|[]]].
    + apply in_split in EI as (a & b & ->). exists a, (b ++ [top])%list. split; [rewrite <- app_assoc; reflexivity|]. right. apply in_app_iff. right. left. reflexivity.
    + apply no_less_refl. apply in_app_iff. right. left. reflexivity.
  - assert (E : effective (metric4 w) n = effective (metric4 v) n) by (unfold effective, given; rewrite (SAME _ MN), (SAME _ N); reflexivity).
    rewrite E. apply no_less_refl. apply effective_in; assumption.
Qed.
(** The hypotheses are met, and the order is not the trivial one: the scores are
    2.0 and 7.3. *)
Fixpoint no_less_b (order : list string) (x y : string) : bool :=
  match order with [] => false | z :: r => if String.eqb z x then existsb (String.eqb y) order else no_less_b r x y end.
Lemma no_less_b_sound order x y : no_less_b order x y = true -> no_less_severe order x y.
Proof.
  induction order as [|z r IH]; cbn [no_less_b]; [discriminate|]. destruct (String.eqb_spec z x) as [->|N].
  - intros H. apply existsb_exists in H as (u & I & E). apply String.eqb_eq in E as ->. exists [], r. split; [reflexivity|exact I].
  - intros H. destruct (IH H) as (l & q & -> & I). exists (z :: l), q. split; [reflexivity|exact I].
Qed.
Theorem C89_nonvacuous : exists s t v w x y, parse4 s = Ok v /\ parse4 t = Ok w /\ at_least_as_severe_v4 (metric4 v) (metric4 w) /\
  score4 v = Ok x /\ score4 w = Ok y /\ x = dec 20 10 /\ y = dec 73 10.
Proof.
  exists "CVSS:4.0/AV:P/AC:H/AT:P/PR:L/UI:P/VC:L/VI:N/VA:L/SC:N/SI:L/SA:L/E:P/CR:H/IR:M/AR:L/MAV:A/MVA:N/MSI:S",
    "CVSS:4.0/AV:N/AC:H/AT:P/PR:L/UI:N/VC:L/VI:H/VA:L/SC:N/SI:L/SA:L/E:P/MSI:S".
  eexists. eexists. eexists. eexists. split; [vm_compute; reflexivity|]. split; [vm_compute; reflexivity|]. split.
  - intros name order u u' I U U'. injection U as <-. injection U' as <-. apply no_less_b_sound.
    unfold severity_order_of_v4 in I. cbn [In] in I. repeat (destruct I as [I|I]; [injection I as <- <-; vm_compute; reflexivity|]). contradiction.
  - split; [vm_compute; reflexivity|]. split; [vm_compute; reflexivity|]. split; [vm_compute; reflexivity|]. vm_compute. reflexivity.
Qed.
