(** C44, C45: CVSS v4 scores, severity and nomenclature. *)
From Coq Require Import List NArith ZArith QArith Qround Ascii String Bool Lia SpecFloat.
From Verif Require Import Base StrLib CvssText CvssSpec CvssTextProofs CvssFloat Cvss3 Cvss2 Cvss4Data Cvss4 CvssScoreSpec Cvss4Spec PropsCvssText PropsCvss3
  Cvss4Proofs Cvss4Tables Cvss4Score.
Import ListNotations.
Local Open Scope string_scope.
Local Open Scope Z_scope.

(** ** The scoring vector has the effective values *)
Definition values_in (n : string) : list string := flat_map (fun m => if String.eqb (fst m) n then snd m else []) metrics_v4.
Lemma value_in4 v n x : vector4 v -> metric4 v n = Some x -> In x (values_in n).
Proof.
  intros [_ L] E. destruct (L n x E) as (t & I & J). apply in_flat_map. exists (n, t). split; [exact I|]. cbn [fst snd]. rewrite String.eqb_refl. exact J.
Qed.
Definition one_in (x : string) (l : list string) : bool := existsb (String.eqb x) l.
Lemma one_in_iff x l : one_in x l = true -> In x l.
Proof. intros H. apply existsb_exists in H as (y & I & E). apply String.eqb_eq in E as ->. exact I. Qed.
Lemma base_values : forallb (fun n => forallb (fun x => negb (String.eqb x "X") && one_in x (values_v4 n)) (values_in n) &&
  forallb (fun x => String.eqb x "X" || one_in x (values_v4 n)) (values_in (String.append "M" n))) required_v4 = true.
Proof. vm_compute. reflexivity. Qed.
Lemma merged v n : vector4 v -> complete required_v4 (metric4 v) -> In n required_v4 ->
  merge4 (field sch4 v n) (field sch4 v (String.append "M" n)) = Ok (effective (metric4 v) n) /\ In (effective (metric4 v) n) (values_v4 n).
Proof.
  intros V K I. pose proof base_values as T. rewrite forallb_forall in T. specialize (T n I). apply andb_true_iff in T as [T1 T2].
  rewrite forallb_forall in T1, T2. specialize (K n I). change (field sch4 v) with (metric4 v).
  destruct (metric4 v n) as [b|] eqn:B; [|contradiction]. specialize (T1 b (value_in4 v n b V B)). apply andb_true_iff in T1 as [T0 T1].
  unfold effective, given. rewrite B. destruct (String.eqb b "X"); [discriminate|].
  destruct (metric4 v (String.append "M" n)) as [m|] eqn:M; cbn [merge4].
  - specialize (T2 m (value_in4 v _ m V M)). destruct (String.eqb m "X"); (split; [reflexivity|apply one_in_iff; assumption]).
  - split; [reflexivity|]. apply one_in_iff. exact T1.
Qed.
Lemma other_values : forallb (fun n => match values_in (String.append "M" n) with [] => true | _ => false end &&
  forallb (fun x => String.eqb x "X" || one_in x (values_v4 n)) (values_in n)) ["E"; "CR"; "IR"; "AR"] = true.
Proof. vm_compute. reflexivity. Qed.
Lemma defaulted v n : vector4 v -> In n ["E"; "CR"; "IR"; "AR"] ->
  default4 (if String.eqb n "E" then "A" else "H") (field sch4 v n) = effective (metric4 v) n /\ In (effective (metric4 v) n) (values_v4 n).
Proof.
  intros V I. pose proof other_values as T. rewrite forallb_forall in T. specialize (T n I). apply andb_true_iff in T as [T1 T2].
  change (field sch4 v) with (metric4 v). unfold effective, given.
  destruct (metric4 v (String.append "M" n)) as [m|] eqn:M.
  { pose proof (value_in4 v _ m V M) as C. destruct (values_in (String.append "M" n)); [destruct C|discriminate]. }
  rewrite forallb_forall in T2.
  assert (D : In (if String.eqb n "E" then "A" else "H") (values_v4 n)) by (cbn [In] in I; repeat destruct I as [<-|I]; try contradiction; cbn; auto).
  destruct (metric4 v n) as [x|] eqn:X; cbn [default4]; [|split; [reflexivity|exact D]].
  specialize (T2 x (value_in4 v n x V X)). destruct (String.eqb x "X"); (split; [reflexivity|]); [exact D|apply one_in_iff; exact T2].
Qed.
Lemma scoring_complete v : vector4 v -> complete required_v4 (metric4 v) ->
  exists s, scoring_of v = Ok s /\ proper s /\ agree (effective (metric4 v)) (val s).
Proof.
  intros V K. set (w := effective (metric4 v)).
  exists (mkS (w "AC") (w "AT") (w "AV") (w "PR") (w "SA") (w "SC") (w "SI") (w "UI") (w "VA") (w "VC") (w "VI") (w "E") (w "AR") (w "CR") (w "IR")).
  assert (A : agree w (val (mkS (w "AC") (w "AT") (w "AV") (w "PR") (w "SA") (w "SC") (w "SI") (w "UI") (w "VA") (w "VC") (w "VI") (w "E") (w "AR") (w "CR") (w "IR")))).
  { intros n I. cbn [In scored_metrics] in I. unfold scored_metrics in I. cbn [In] in I. repeat destruct I as [<-|I]; try contradiction; reflexivity. }
  split; [|split; [|exact A]].
  - unfold scoring_of. cbv zeta.
    pose proof (fun n I => proj1 (merged v n V K I)) as M.
    pose proof (fun n I => proj1 (defaulted v n V I)) as D.
    pose proof (M "AC" ltac:(here)) as E1. pose proof (M "AT" ltac:(here)) as E2. pose proof (M "AV" ltac:(here)) as E3. pose proof (M "PR" ltac:(here)) as E4.
    pose proof (M "SA" ltac:(here)) as E5. pose proof (M "SC" ltac:(here)) as E6. pose proof (M "SI" ltac:(here)) as E7. pose proof (M "UI" ltac:(here)) as E8.
    pose proof (M "VA" ltac:(here)) as E9. pose proof (M "VC" ltac:(here)) as E10. pose proof (M "VI" ltac:(here)) as E11.
    pose proof (D "E" ltac:(here)) as E12. pose proof (D "AR" ltac:(here)) as E13. pose proof (D "CR" ltac:(here)) as E14. pose proof (D "IR" ltac:(here)) as E15.
    cbn [String.append String.eqb Ascii.eqb Bool.eqb] in *.
    rewrite E1. cbn [obind]. rewrite E2. cbn [obind]. rewrite E3. cbn [obind]. rewrite E4. cbn [obind]. rewrite E5. cbn [obind]. rewrite E6. cbn [obind].
    rewrite E7. cbn [obind]. rewrite E8. cbn [obind]. rewrite E9. cbn [obind]. rewrite E10. cbn [obind]. rewrite E11. cbn [obind].
    rewrite E12, E13, E14, E15. reflexivity.
  - intros n I. rewrite <- (A n I).
    assert (C : In n required_v4 \/ In n ["E"; "CR"; "IR"; "AR"]) by (unfold scored_metrics in I; cbn [In] in *; unfold required_v4; cbn [In]; tauto).
    destruct C as [C|C]; [exact (proj2 (merged v n V K C))|exact (proj2 (defaulted v n V C))].
Qed.
Lemma scoring_incomplete v : ~ complete required_v4 (metric4 v) -> scoring_of v = Panic.
Proof.
  intros K. destruct (check4 v) eqn:C; [exfalso; apply K; apply check4_iff; exact C|]. clear K.
  unfold check4, mandatory4 in C. cbn [forallb] in C. unfold is_set in C. unfold scoring_of. cbv zeta.
  destruct (field sch4 v "AC"); [|reflexivity]. cbn [merge4 obind]. 
  destruct (field sch4 v "AT"); [|reflexivity]. cbn [merge4 obind].
  destruct (field sch4 v "AV"); [|reflexivity]. cbn [merge4 obind].
  destruct (field sch4 v "PR"); [|reflexivity]. cbn [merge4 obind].
  destruct (field sch4 v "SA"); [|reflexivity]. cbn [merge4 obind].
  destruct (field sch4 v "SC"); [|reflexivity]. cbn [merge4 obind].
  destruct (field sch4 v "SI"); [|reflexivity]. cbn [merge4 obind].
  destruct (field sch4 v "UI"); [|reflexivity]. cbn [merge4 obind].
  destruct (field sch4 v "VA"); [|reflexivity]. cbn [merge4 obind].
  destruct (field sch4 v "VC"); [|reflexivity]. cbn [merge4 obind].
  destruct (field sch4 v "VI"); [|reflexivity]. discriminate.
Qed.

(** ** C44 *)
Definition no_impact_v4 (a : assignment) : Prop := forall n, In n ["VC"; "VI"; "VA"; "SC"; "SI"; "SA"] -> effective a n = "N".
Lemma none_iff s v : agree (effective (metric4 v)) (val s) -> (no_impact4 s = true <-> no_impact_v4 (metric4 v)).
Proof.
  intros A. unfold no_impact4, none36, none4, p36, p4, no_impact_v4. rewrite !andb_true_iff, !String.eqb_eq. split.
  - intros [[[H1 H2] H3] [[H4 H5] H6]] n I. rewrite (A n) by (revert I; cbn; tauto). cbn [In] in I. repeat destruct I as [<-|I]; try contradiction; assumption.
  - intros H. repeat apply conj.
    + rewrite <- (H "VC") by here. symmetry. exact (A "VC" ltac:(here)).
    + rewrite <- (H "VI") by here. symmetry. exact (A "VI" ltac:(here)).
    + rewrite <- (H "VA") by here. symmetry. exact (A "VA" ltac:(here)).
    + rewrite <- (H "SC") by here. symmetry. exact (A "SC" ltac:(here)).
    + rewrite <- (H "SI") by here. symmetry. exact (A "SI" ltac:(here)).
    + rewrite <- (H "SA") by here. symmetry. exact (A "SA" ltac:(here)).
Qed.
Lemma none_score s : no_impact4 s = true -> score_of (val s) = Some 0.
Proof.
  unfold no_impact4, none36, none4, p36, p4. rewrite !andb_true_iff. intros [[[H1 H2] H3] [[H4 H5] H6]].
  assert (F : forallb (fun n => is (val s) n "N") ["VC"; "VI"; "VA"; "SC"; "SI"; "SA"] = true).
  { apply forallb_forall. intros n I. cbn [In] in I. unfold is. repeat destruct I as [<-|I]; try contradiction; assumption. }
  unfold score_of. rewrite F. reflexivity.
Qed.
Lemma tenths_refl n : 0 <= n <= 100 -> tenths n (dec n 10).
Proof.
  intros R. assert (T : (fun l => forallb (fun p => feq (snd p) (snd p)) l) tenths_up_to_10 = true) by (vm_cast_no_check (eq_refl true)).
  cbv beta in T. rewrite forallb_forall in T. exact (T _ (tenths_in n R)).
Qed.
Lemma all_scores4 v : vector4 v -> complete required_v4 (metric4 v) ->
  exists n x, score4 v = Ok x /\ score_v4 (metric4 v) = Some n /\ 0 <= n <= 100 /\ x = dec n 10 /\ (n = 0 <-> no_impact_v4 (metric4 v)).
Proof.
  intros V K. destruct (scoring_complete v V K) as (s & S & P & A). unfold score4, score_v4. rewrite S. cbn [obind].
  rewrite (score_of_ext _ _ A). pose proof (none_iff s v A) as NI. destruct (no_impact4 s) eqn:N.
  - exists 0, (dec 0 10). rewrite score_unfold, N. cbn [obind]. rewrite (none_score s N).
    split; [f_equal; vm_compute; reflexivity|split; [reflexivity|split; [lia|split; [reflexivity|rewrite <- NI; tauto]]]].
  - destruct (score_exact s P N) as (n & x & E1 & R & E2 & U). exists n, (dec n 10). rewrite E2. cbn [obind].
    split; [|split; [exact E1|split; [lia|split; [reflexivity|rewrite <- NI; split; [lia|discriminate]]]]].
    f_equal. unfold round4. fold (unscaled x). rewrite U. reflexivity.
Qed.
(** The score is the published one computed in exact arithmetic and rounded half
    up to tenths; in particular no table entry is missing and nothing panics. *)
Theorem C44_score v : vector4 v -> complete required_v4 (metric4 v) ->
  exists n x, score4 v = Ok x /\ score_v4 (metric4 v) = Some n /\ 0 <= n <= 100 /\ tenths n x.
Proof.
  intros V K. destruct (all_scores4 v V K) as (n & x & A & B & R & -> & _). exists n, (dec n 10). repeat apply conj; try assumption; try lia.
  apply tenths_refl. exact R.
Qed.
Theorem C44_zero_iff_no_impact v x : vector4 v -> complete required_v4 (metric4 v) -> score4 v = Ok x ->
  (tenths 0 x <-> no_impact_v4 (metric4 v)).
Proof.
  intros V K E. destruct (all_scores4 v V K) as (n & y & A & _ & R & -> & Z0). rewrite E in A. injection A as ->. rewrite <- Z0. split.
  - intros T. apply (tenths_unique n 0 (dec n 10)); [exact R|lia|apply tenths_refl; exact R|exact T].
  - intros ->. apply tenths_refl. lia.
Qed.
(** Whatever the parser accepts can be scored. *)
Theorem C44_parsed s v : parse4 s = Ok v -> exists n x, score4 v = Ok x /\ score_v4 (metric4 v) = Some n /\ 0 <= n <= 100 /\ tenths n x.
Proof. intros H. destruct (C43_stable s v H) as (V & K & _). apply C44_score; assumption. Qed.
(** A vector that was built (or defaulted) without a mandatory metric panics. *)
Theorem C44_total_refuted v : vector4 v -> (score4 v = Panic <-> ~ complete required_v4 (metric4 v)).
Proof.
  intros V. split.
  - intros H K. destruct (C44_score v V K) as (n & x & E & _). congruence.
  - intros K. unfold score4. rewrite (scoring_incomplete v K). reflexivity.
Qed.
Example default_panics : vector4 (empty sch4) /\ score4 (empty sch4) = Panic.
Proof.
  split; [|vm_compute; reflexivity]. split; [reflexivity|]. intros n x H. exfalso. revert H. unfold metric4, sch4, empty. cbn [map field].
  repeat match goal with |- context [String.eqb n ?m] => destruct (String.eqb n m) end; discriminate.
Qed.

(** ** C45 *)
Lemma ratings : (fun l => forallb (fun p => band_eqb (rating_band (rating4 (snd p))) (band_of (fst p))) l) tenths_up_to_10 = true.
Proof. vm_cast_no_check (eq_refl true). Qed.
Theorem C45_severity v x n : vector4 v -> score4 v = Ok x -> 0 <= n <= 100 -> tenths n x -> rating_band (rating4 x) = band_of n.
Proof.
  intros V E R T. assert (K : complete required_v4 (metric4 v)).
  { destruct (check4 v) eqn:C; [apply check4_iff; exact C|]. exfalso.
    assert (P : score4 v = Panic) by (apply C44_total_refuted; [exact V|rewrite <- check4_iff, C; discriminate]). congruence. }
  destruct (all_scores4 v V K) as (m & y & A & _ & R' & -> & _). rewrite E in A. injection A as ->.
  rewrite (tenths_unique n m (dec m 10) R R' T (tenths_refl m R')).
  pose proof ratings as Q. cbv beta in Q. rewrite forallb_forall in Q. specialize (Q _ (tenths_in m R')). apply band_eqb_eq in Q. exact Q.
Qed.
(** Threat and environmental metrics (specification, tables 12 to 18). *)
Definition threat_v4 : list string := ["E"].
Definition environmental_v4 : list string :=
  ["CR"; "IR"; "AR"; "MAV"; "MAC"; "MAT"; "MPR"; "MUI"; "MVC"; "MVI"; "MVA"; "MSC"; "MSI"; "MSA"].
Definition mentions (a : assignment) (l : list string) : Prop := exists n x, In n l /\ a n = Some x.
Definition counts_threat (n : nomenclature) : bool := match n with CvssBT | CvssBTE => true | _ => false end.
Definition counts_environmental (n : nomenclature) : bool := match n with CvssBE | CvssBTE => true | _ => false end.
Lemma set_iff v n : is_set sch4 v n = true <-> exists x, metric4 v n = Some x.
Proof. unfold is_set, metric4. destruct (field sch4 v n) as [x|]; split; intros H; try reflexivity; try discriminate; eauto. destruct H; discriminate. Qed.
(** The name says which groups of metrics the vector mentions. *)
Theorem C45_nomenclature v :
  (counts_threat (nomenclature_of v) = true <-> mentions (metric4 v) threat_v4) /\
  (counts_environmental (nomenclature_of v) = true <-> mentions (metric4 v) environmental_v4).
Proof.
  assert (A : counts_threat (nomenclature_of v) = is_set sch4 v "E") by (unfold nomenclature_of; destruct (is_set sch4 v "E"), (existsb _ _); reflexivity).
  assert (B : counts_environmental (nomenclature_of v) = existsb (is_set sch4 v) ["AR"; "CR"; "IR"; "MAC"; "MAT"; "MAV"; "MPR"; "MSA"; "MSC"; "MSI"; "MUI"; "MVA"; "MVC"; "MVI"])
    by (unfold nomenclature_of; destruct (is_set sch4 v "E"), (existsb _ _); reflexivity).
  rewrite A, B, set_iff, existsb_exists. unfold mentions, threat_v4, environmental_v4. split.
  - split; [intros (x & E); exists "E", x; cbn; auto|intros (n & x & [<-|[]] & E); eauto].
  - split.
    + intros (n & I & E). apply set_iff in E as (x & E). exists n, x. split; [revert I; cbn; tauto|exact E].
    + intros (n & x & I & E). exists n. split; [revert I; cbn; tauto|]. apply set_iff. eauto.
Qed.
(** A metric given as X (not defined) counts too, so the name does not say which
    groups have values other than X. *)
Theorem C45_defined_metrics_refuted : exists s v, parse4 s = Ok v /\ complete required_v4 (metric4 v) /\ counts_threat (nomenclature_of v) = true /\
  (forall n, In n threat_v4 -> given (metric4 v) n = None).
Proof.
  exists "CVSS:4.0/AV:N/AC:L/AT:N/PR:N/UI:N/VC:H/VI:H/VA:H/SC:H/SI:H/SA:H/E:X". eexists. split; [vm_compute; reflexivity|]. split.
  - apply check4_iff. vm_compute. reflexivity.
  - split; [vm_compute; reflexivity|]. intros n [<-|[]]. vm_compute. reflexivity.
Qed.
Theorem C45_nomenclature_text s n : nomenclature_parse s = Ok n <-> s = nomenclature_print n.
Proof.
  split.
  - intros H. assert (C : s = "CVSS-B" \/ s = "CVSS-BE" \/ s = "CVSS-BT" \/ s = "CVSS-BTE").
    { destruct (String.eqb_spec s "CVSS-B"); auto. destruct (String.eqb_spec s "CVSS-BE"); auto. destruct (String.eqb_spec s "CVSS-BT"); auto.
      destruct (String.eqb_spec s "CVSS-BTE"); auto. exfalso. revert H. unfold nomenclature_parse.
      repeat match goal with |- context [match ?x with EmptyString => _ | String _ _ => _ end] => destruct x as [|? ?] | |- context [match ?x with Ascii _ _ _ _ _ _ _ _ => _ end] => destruct x
        | |- context [if ?b then _ else _] => destruct b end; try discriminate; congruence. }
    destruct C as [-> |[-> |[-> | ->]]]; cbn in H; injection H as <-; reflexivity.
  - intros ->. destruct n; reflexivity.
Qed.
(** Any other text is refused, and no text makes the reader panic. *)
Theorem C45_nomenclature_refused s : nomenclature_parse s = Err <-> forall n, s <> nomenclature_print n.
Proof.
  split.
  - intros H n E. apply C45_nomenclature_text in E. rewrite H in E. discriminate.
  - intros H. assert (A := H CvssB). assert (B := H CvssBE). assert (C := H CvssBT). assert (D := H CvssBTE). cbn in A, B, C, D. clear H. unfold nomenclature_parse.
    repeat match goal with |- context [match ?x with EmptyString => _ | String _ _ => _ end] => destruct x as [|? ?] | |- context [match ?x with Ascii _ _ _ _ _ _ _ _ => _ end] => destruct x
      | |- context [if ?b then _ else _] => destruct b end; try reflexivity; congruence.
Qed.

(** Examples; the last is the regression test of cvss/tests/uncovered-v4.rs. *)
Definition tenths_of_text (s : string) : option Z := match parse4 s with Ok v => score_v4 (metric4 v) | _ => None end.
Definition float_of_text (s : string) : option f64 := match parse4 s with Ok v => match score4 v with Ok x => Some x | _ => None end | _ => None end.
Example scores_v4 :
  tenths_of_text "CVSS:4.0/AV:N/AC:L/AT:N/PR:N/UI:N/VC:H/VI:H/VA:H/SC:H/SI:H/SA:H" = Some 100 /\
  float_of_text "CVSS:4.0/AV:N/AC:L/AT:N/PR:N/UI:N/VC:H/VI:H/VA:H/SC:H/SI:H/SA:H" = Some (dec 100 10) /\
  tenths_of_text "CVSS:4.0/AV:L/AC:L/AT:P/PR:L/UI:N/VC:H/VI:H/VA:H/SC:N/SI:N/SA:N" = Some 73 /\
  float_of_text "CVSS:4.0/AV:L/AC:L/AT:P/PR:L/UI:N/VC:H/VI:H/VA:H/SC:N/SI:N/SA:N" = Some (dec 73 10) /\
  tenths_of_text "CVSS:4.0/AV:N/AC:L/AT:N/PR:N/UI:N/VC:N/VI:N/VA:N/SC:N/SI:N/SA:N" = Some 0 /\
  float_of_text "CVSS:4.0/AV:P/AC:H/AT:P/PR:L/UI:P/VC:L/VI:N/VA:L/SC:N/SI:L/SA:L/E:P/CR:H/IR:M/AR:L/MAV:A/MVA:N/MSI:S" = Some (dec 20 10) /\
  float_of_text "CVSS:4.0/AV:N/AC:L/AT:N/PR:N/UI:N/VC:N/VI:H/VA:N/SC:N/SI:N/SA:N/E:P/CR:X/IR:X/AR:X/MAV:X/MAC:X/MAT:X/MPR:X/MUI:X/MVC:X/MVI:X/MVA:X/MSC:X/MSI:X/MSA:X/S:X/AU:X/R:X/V:X/RE:X/U:X" = Some (dec 77 10).
Proof. repeat apply conj; vm_compute; reflexivity. Qed.
