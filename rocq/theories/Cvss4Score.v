(** CVSS v4 scores: the program computes the published score. *)
From Coq Require Import List NArith ZArith QArith Qround Ascii String Bool Lia Lqa SpecFloat.
From Verif Require Import Base StrLib CvssText CvssSpec CvssTextProofs CvssFloat Cvss3 Cvss2 Cvss4Data Cvss4 CvssScoreSpec Cvss4Spec Cvss4Proofs Cvss4Tables.
Import ListNotations.
Local Open Scope string_scope.
Local Open Scope nat_scope.

(** ** The exact side *)
Lemma sum_shift l q : (fold_left Qplus l q == q + sum l)%Q.
Proof.
  unfold sum. revert q. induction l as [|x l IH]; intros q; cbn [fold_left]; [ring|]. rewrite IH, (IH (0 + x)%Q). ring.
Qed.
Lemma sum_app a b : (sum (a ++ b) == sum a + sum b)%Q.
Proof. unfold sum at 1. rewrite fold_left_app, sum_shift. reflexivity. Qed.
(** What a group takes off, times 840. *)
Definition part (exact : Z) (low : option Z) (dist sev : Z) : Z :=
  match low with Some l => ((exact - l) * dist * (840 / sev))%Z | None => 0%Z end.
Lemma sum_proportion exact low dist sev : In sev [1; 2; 4; 5; 6; 7; 8; 10]%Z ->
  (sum (proportion exact low dist sev) == inject_Z (part exact low dist sev) / 840)%Q.
Proof.
  intros I. destruct low as [l|]; cbn [proportion part]; [|reflexivity]. unfold sum. cbn [fold_left].
  rewrite !inject_Z_mult. generalize (inject_Z (exact - l)) (inject_Z dist). intros x y.
  cbn [In] in I. repeat destruct I as [<-|I]; try contradiction;
    match goal with |- context [inject_Z (840 / ?s)] => let v := eval compute in (840 / s)%Z in change (840 / s)%Z with v end; field; try (unfold Qeq; cbn; discriminate).
Qed.
Lemma floor_divide n d : (0 < d)%Z -> Qfloor (inject_Z n / inject_Z d) = (n / d)%Z.
Proof.
  intros H. destruct d as [|d|d]; try lia. rewrite (Qfloor_comp _ (n # d)); [reflexivity|]. unfold Qeq, Qdiv, Qmult, Qinv, inject_Z. cbn. ring.
Qed.
Definition amount (o : option Z) : nat := match o with Some _ => 1 | None => 0 end.
Lemma length_proportion exact low dist sev : List.length (proportion exact low dist sev) = amount low.
Proof. destruct low; reflexivity. Qed.
Lemma existing_amount l : existing (map (option_map (fun n => dec n 10)) l) = Z.of_nat (list_sum (map amount l)).
Proof.
  unfold existing. f_equal. induction l as [|[x|] l IH]; [reflexivity| |]; cbn [map option_map filter list_sum fold_right amount List.length] in *.
  - rewrite IH. reflexivity.
  - rewrite IH. reflexivity.
Qed.
Lemma part_zero exact low : part exact low 0 1 = 0%Z.
Proof. destruct low; cbn [part]; [rewrite Z.mul_0_r|]; reflexivity. Qed.
Lemma exact_floor exact l z e : List.length l = e -> (sum l == inject_Z z / 840)%Q ->
  Qfloor (inject_Z exact - mean l + 0.5) = exact_result exact (Z.of_nat e) z.
Proof.
  intros L S. unfold exact_result. destruct (Z.eqb_spec (Z.of_nat e) 0) as [E|E].
  - destruct l; [|cbn in L; lia]. cbn [mean].
    rewrite (Qfloor_comp _ (inject_Z (2 * exact + 1) / inject_Z 2)); [rewrite floor_divide by lia|].
    + symmetry. apply (Z.div_unique _ _ _ 1); lia.
    + rewrite inject_Z_plus, inject_Z_mult. generalize (inject_Z exact). intros q. unfold inject_Z. field.
  - assert (M : (mean l == inject_Z z / 840 / inject_Z (Z.of_nat e))%Q).
    { destruct l; [cbn in L; lia|]. unfold mean. rewrite L, S. reflexivity. }
    rewrite <- floor_divide by lia. apply Qfloor_comp. rewrite M.
    rewrite !inject_Z_plus, inject_Z_mult. unfold Z.sub. rewrite inject_Z_plus, inject_Z_opp, !inject_Z_mult.
    assert (NE : ~ (inject_Z (Z.of_nat e) == 0)%Q) by (change 0%Q with (inject_Z 0); rewrite inject_Z_injective; exact E).
    clear M. revert NE. generalize (inject_Z (Z.of_nat e)). intros q NE. generalize (inject_Z z) (inject_Z exact). intros x y. unfold inject_Z. field. exact NE.
Qed.
Lemma scored_exact v exact low1 low2 low36 low4 low5 :
  let c := [1; 2; 4; 5; 6; 7; 8; 10]%Z in
  In (depth group1 same1 v) c -> In (depth group2 same2 v) c -> In (depth group36 same36 v) c -> In (depth group4 same4 v) c ->
  scored v exact low1 low2 low36 low4 low5 =
  exact_result exact (existing (map (option_map (fun n => dec n 10)) [low1; low2; low36; low4; low5]))
    (part exact low1 (distance group1 same1 v) (depth group1 same1 v) + part exact low2 (distance group2 same2 v) (depth group2 same2 v)
     + part exact low36 (distance group36 same36 v) (depth group36 same36 v) + part exact low4 (distance group4 same4 v) (depth group4 same4 v)).
Proof.
  cbv zeta. intros D1 D2 D3 D4. unfold scored. rewrite existing_amount. apply exact_floor.
  - rewrite !app_length, !length_proportion. cbn. lia.
  - rewrite !sum_app, !sum_proportion by (assumption || (left; reflexivity)). rewrite part_zero, !inject_Z_plus.
    generalize (inject_Z (part exact low1 (distance group1 same1 v) (depth group1 same1 v))), (inject_Z (part exact low2 (distance group2 same2 v) (depth group2 same2 v))),
      (inject_Z (part exact low36 (distance group36 same36 v) (depth group36 same36 v))), (inject_Z (part exact low4 (distance group4 same4 v) (depth group4 same4 v))).
    intros a b c d. unfold inject_Z. field.
Qed.

(** ** The program's side *)
Lemma bind_vectors {A} k1 k2 k3 k4 k5 k6 (K : list string -> outcome A) :
  (let? max1 := max_composed (Eq1 k1) in let? max2 := max_composed (Eq2 k2) in let? max36 := max_composed (Eq3Eq6 k3 k6) in
   let? max4 := max_composed (Eq4 k4) in let? max5 := max_composed (Eq5 k5) in
   K (flat_map (fun a => flat_map (fun b => flat_map (fun c => flat_map (fun d => map (fun e =>
    String.append a (String.append b (String.append c (String.append d e)))) max5) max4) max36) max2) max1)) =
  (let? l := vectors k1 k2 k3 k4 k5 k6 in K l).
Proof.
  unfold vectors. destruct (max_composed (Eq1 k1)); [|reflexivity|reflexivity]. destruct (max_composed (Eq2 k2)); [|reflexivity|reflexivity].
  destruct (max_composed (Eq3Eq6 k3 k6)); [|reflexivity|reflexivity]. destruct (max_composed (Eq4 k4)); [|reflexivity|reflexivity].
  destruct (max_composed (Eq5 k5)); reflexivity.
Qed.
Definition no_impact4 (s : scoring) : bool := none36 (p36 s) && none4 (p4 s).
Definition from_distances (s : scoring) (value : f64) (d : distances) : outcome f64 :=
  let '(k1, k2, k3, k4, k5, k6) := (eq1 s, eq2 s, eq3 s, eq4 s, eq5 s, eq6 s) in
  let dist1 := fadd (fadd (d_av d) (d_pr d)) (d_ui d) in
  let dist2 := fadd (d_ac d) (d_at d) in
  let dist36 := fadd (fadd (fadd (fadd (fadd (d_vc d) (d_vi d)) (d_va d)) (d_cr d)) (d_ir d)) (d_ar d) in
  let dist4 := fadd (fadd (d_sc d) (d_si d)) (d_sa d) in
  let? sev1 := max_severity (Eq1 k1) in
  let? sev2 := max_severity (Eq2 k2) in
  let? sev36 := max_severity (Eq3Eq6 k3 k6) in
  let? sev4 := max_severity (Eq4 k4) in
  Ok (finish4 value (lookup_global (S k1) k2 k3 k4 k5 k6) (lookup_global k1 (S k2) k3 k4 k5 k6) (float_low36 k1 k2 k3 k4 k5 k6)
        (lookup_global k1 k2 k3 (S k4) k5 k6) (lookup_global k1 k2 k3 k4 (S k5) k6) sev1 sev2 sev36 sev4 dist1 dist2 dist36 dist4).
Lemma score_unfold s : scoring_score s =
  if no_impact4 s then Ok lit_0 else
  let? value := match lookup_global (eq1 s) (eq2 s) (eq3 s) (eq4 s) (eq5 s) (eq6 s) with Some x => Ok x | None => Panic end in
  let? l := vectors (eq1 s) (eq2 s) (eq3 s) (eq4 s) (eq5 s) (eq6 s) in
  let? d := find_max s no_distances l in from_distances s value d.
Proof.
  cbv beta iota zeta delta [scoring_score no_impact4 none36 none4 p36 p4 from_distances float_low36]. rewrite !andb_assoc.
  destruct (_ && _); [reflexivity|].
  generalize (eq1 s) (eq2 s) (eq3 s) (eq4 s) (eq5 s) (eq6 s). intros k1 k2 k3 k4 k5 k6.
  destruct (lookup_global k1 k2 k3 k4 k5 k6) as [value|]; [|reflexivity]. cbn [obind].
  rewrite <- bind_vectors. reflexivity.
Qed.
Lemma severities k1 k2 k3 k4 k5 k6 : In (k1, k2, k3, k4, k5, k6) all_classes ->
  max_severity (Eq1 k1) = Ok (sev1 k1) /\ max_severity (Eq2 k2) = Ok (sev2 k2) /\ max_severity (Eq3Eq6 k3 k6) = Ok (sev36 k3 k6) /\ max_severity (Eq4 k4) = Ok (sev4 k4).
Proof.
  unfold all_classes. rewrite in_flat_map. intros (x1 & I1 & I). apply in_flat_map in I as (x2 & I2 & I). apply in_flat_map in I as (x3 & I3 & I).
  apply in_flat_map in I as (x4 & I4 & I). apply in_map_iff in I as (x5 & E & I5). injection E as <- <- <- <- <- <-. repeat apply conj.
  - repeat destruct I1 as [<-|I1]; try contradiction; reflexivity.
  - repeat destruct I2 as [<-|I2]; try contradiction; reflexivity.
  - repeat destruct I3 as [<-|I3]; try contradiction; reflexivity.
  - repeat destruct I4 as [<-|I4]; try contradiction; reflexivity.
Qed.
Lemma vectors_found s k1 k2 k3 k4 k5 k6 m : In (k1, k2, k3, k4, k5, k6) all_classes ->
  find (fun m => negb (some_negative (distances_to s m))) (composed k1 k2 k3 k4 k5 k6) = Some m ->
  exists l, vectors k1 k2 k3 k4 k5 k6 = Ok l /\ find_max s no_distances l = Ok (distances_to s m).
Proof.
  intros I F. pose proof parsed_all as T. rewrite forallb_forall in T. specialize (T _ I). unfold parsed_ok in T.
  destruct (vectors k1 k2 k3 k4 k5 k6) as [l| |]; try discriminate. exists l. split; [reflexivity|].
  destruct (map_outcome _ l) as [ms| |] eqn:E; try discriminate. apply (list_eqb_eq _ scoring_eqb_eq) in T as ->.
  exact (find_max_found s no_distances l _ m E F).
Qed.
Lemma with_rows_in {A} (rows : A -> list row) l k : In k l -> In (k, rows k) (with_rows rows l).
Proof. intros I. unfold with_rows. apply in_map_iff. exists k. auto. Qed.
Lemma check_all_in l1 l2 l4 l36 k1 r1 k2 r2 k4 r4 k36 r36 k5 : check_all l1 l2 l4 l36 = true ->
  In (k1, r1) l1 -> In (k2, r2) l2 -> In (k4, r4) l4 -> In (k36, r36) l36 -> In k5 [0; 1; 2] ->
  check_macro k1 k2 (fst k36) k4 k5 (snd k36) r1 r2 r36 r4 = true.
Proof.
  unfold check_all. intros T I1 I2 I4 I3 I5. rewrite forallb_forall in T. specialize (T _ I3). rewrite forallb_forall in T. specialize (T _ I1).
  rewrite forallb_forall in T. specialize (T _ I2). rewrite forallb_forall in T. specialize (T _ I4). rewrite forallb_forall in T. exact (T _ I5).
Qed.
Lemma checked_macro k1 k2 k3 k4 k5 k6 : In (k1, k2, k3, k4, k5, k6) all_classes ->
  check_macro k1 k2 k3 k4 k5 k6 (rows1 k1) (rows2 k2) (rows36 k3 k6) (rows4 k4) = true.
Proof.
  unfold all_classes. rewrite in_flat_map. intros (x1 & I1 & I). apply in_flat_map in I as (x2 & I2 & I). apply in_flat_map in I as (x3 & I3 & I).
  apply in_flat_map in I as (x4 & I4 & I). apply in_map_iff in I as (x5 & E & I5). injection E as <- <- <- <- <- <-.
  exact (check_all_in _ _ _ _ _ _ _ _ _ _ _ _ _ checked4 (with_rows_in rows1 _ _ I1) (with_rows_in rows2 _ _ I2) (with_rows_in rows4 _ _ I4)
    (with_rows_in (fun k => rows36 (fst k) (snd k)) _ _ I3) I5).
Qed.
Lemma class_depths s :
  depth group1 same1 (val s) = sev1 (eq1 s) /\ depth group2 same2 (val s) = sev2 (eq2 s) /\
  depth group36 same36 (val s) = sev36 (eq3 s) (eq6 s) /\ depth group4 same4 (val s) = sev4 (eq4 s).
Proof.
  pose proof (classes_in s) as I. pose proof depths as T. rewrite forallb_forall in T. specialize (T _ I). unfold depths_ok in T.
  apply andb_true_iff in T as [T T3]. apply andb_true_iff in T as [T1 T2]. apply Z.eqb_eq in T1, T2, T3.
  assert (I3 : In (eq3 s, eq6 s) [(0, 0); (0, 1); (1, 0); (1, 1); (2, 1)]).
  { unfold all_classes in I. apply in_flat_map in I as (x1 & I1 & I). apply in_flat_map in I as (x2 & I2 & I). apply in_flat_map in I as (x3 & I3 & I).
    apply in_flat_map in I as (x4 & I4 & I). apply in_map_iff in I as (x5 & E & I5). injection E as _ _ <- _ _ <-. destruct x3; exact I3. }
  pose proof depths36 as U. rewrite forallb_forall in U. specialize (U _ I3). cbn [fst snd] in U. apply Z.eqb_eq in U.
  repeat apply conj.
  - exact T1.
  - exact T2.
  - exact U.
  - exact T3.
Qed.
Lemma depths_divide s : let c := [1; 2; 4; 5; 6; 7; 8; 10]%Z in
  In (sev1 (eq1 s)) c /\ In (sev2 (eq2 s)) c /\ In (sev36 (eq3 s) (eq6 s)) c /\ In (sev4 (eq4 s)) c.
Proof.
  cbv zeta. generalize (eq1 s) (eq2 s) (eq3 s) (eq4 s) (eq6 s). intros k1 k2 k3 k4 k6. repeat apply conj.
  - destruct k1 as [|[|]]; cbn; tauto.
  - destruct k2 as [|[|]]; cbn; tauto.
  - destruct k3 as [|[|]], k6 as [|[|]]; cbn; tauto.
  - destruct k4 as [|[|]]; cbn; tauto.
Qed.
(** Distances of the vector to the highest one, by group. *)
Lemma rows_of s a b c d : proper s -> 
  find (ok1 (p1 s)) (highest1 (eq1 s)) = Some a -> find (ok2 (p2 s)) (highest2 (eq2 s)) = Some b ->
  find (ok36 (p36 s)) (highest36 (eq3 s) (eq6 s)) = Some c -> find (ok4 (p4 s)) (highest4 (eq4 s)) = Some d ->
  In (dist1 (p1 s) a, distance group1 same1 (val s), true) (rows1 (eq1 s)) /\
  In (dist2 (p2 s) b, distance group2 same2 (val s), true) (rows2 (eq2 s)) /\
  In (dist36 (p36 s) c, distance group36 same36 (val s), none36 (p36 s)) (rows36 (eq3 s) (eq6 s)) /\
  In (dist4 (p4 s) d, distance group4 same4 (val s), none4 (p4 s)) (rows4 (eq4 s)).
Proof.
  intros P A B C D. destruct (all_in s P) as (I1 & I2 & I3 & I4). repeat apply conj.
  - refine (rows_in all1 _ _ _ _ (fun _ => true) _ (p1 s) a I1 _ A). exact (Nat.eqb_refl (eq1 s)).
  - refine (rows_in all2 _ _ _ _ (fun _ => true) _ (p2 s) b I2 _ B). exact (Nat.eqb_refl (eq2 s)).
  - refine (rows_in all36 _ _ _ _ none36 _ (p36 s) c I3 _ C). 
    change (Nat.eqb (eq3 s) (eq3 s) && Nat.eqb (eq6 s) (eq6 s) = true). rewrite !Nat.eqb_refl. reflexivity.
  - refine (rows_in all4 _ _ _ _ none4 _ (p4 s) d I4 _ D). exact (Nat.eqb_refl (eq4 s)).
Qed.
Lemma option_eqb_eq {A} (eqb : A -> A -> bool) x y : (forall a b, eqb a b = true -> a = b) -> option_eqb eqb x y = true -> x = y.
Proof. intros E H. destruct x, y; try discriminate; [f_equal; apply E; exact H|reflexivity]. Qed.
Lemma finish_terms value exact l1 l2 l36 l4 l5 s1 s2 s36 s4 d1 d2 d36 d4 z1 z2 z36 z4 b1 b2 b36 b4 :
  let f := option_map (fun n => dec n 10) in
  let r := plus (plus (plus (term value exact l1 s1 (d1, z1, b1)) (term value exact l2 s2 (d2, z2, b2))) (term value exact l36 s36 (d36, z36, b36))) (term value exact l4 s4 (d4, z4, b4)) in
  finish4 value (f l1) (f l2) (f l36) (f l4) (f l5) s1 s2 s36 s4 d1 d2 d36 d4 =
  float_result value l5 (existing (map f [l1; l2; l36; l4; l5])) (fst (fst r)) /\
  snd (fst r) = (part exact l1 z1 s1 + part exact l2 z2 s2 + part exact l36 z36 s36 + part exact l4 z4 s4)%Z /\ snd r = b1 && b2 && b36 && b4.
Proof.
  cbv zeta. repeat apply conj; [|reflexivity|reflexivity]. unfold finish4, float_result, term, plus. cbn [fst snd].
  unfold option_map. destruct l1, l2, l36, l4, l5; reflexivity.
Qed.
Theorem score_exact s : proper s -> no_impact4 s = false ->
  exists n x, score_of (val s) = Some n /\ (1 <= n <= 100)%Z /\ scoring_score s = Ok x /\ unscaled x = fint n.
Proof.
  intros P NI. destruct (all_in s P) as (I1 & I2 & I3 & I4).
  destruct (find_found _ _ _ found1 I1) as (a & A). destruct (find_found _ _ _ found2 I2) as (b & B).
  destruct (find_found _ _ _ found36 I3) as (c & C). destruct (find_found _ _ _ found4 I4) as (d & D).
  change (eq1 (of1 (p1 s))) with (eq1 s) in A. change (eq2 (of2 (p2 s))) with (eq2 s) in B.
  change (eq3 (of36 (p36 s))) with (eq3 s) in C. change (eq6 (of36 (p36 s))) with (eq6 s) in C. change (eq4 (of4 (p4 s))) with (eq4 s) in D.
  destruct (vectors_found s _ _ _ _ _ _ _ (classes_in s) (find_composed s _ _ _ _ (eq5 s) _ a b c d A B C D)) as (l & L & F).
  destruct (rows_of s a b c d P A B C D) as (R1 & R2 & R3 & R4).
  pose proof (checked_macro _ _ _ _ _ _ (classes_in s)) as K. unfold check_macro in K.
  destruct (severities _ _ _ _ _ _ (classes_in s)) as (S1 & S2 & S3 & S4).
  destruct (class_depths s) as (D1 & D2 & D3 & D4). destruct (depths_divide s) as (V1 & V2 & V3 & V4).
  rewrite score_unfold, NI, L, lookup_macro.
  unfold score_of. change (forallb _ _) with (is (val s) "VC" "N" && (is (val s) "VI" "N" && (is (val s) "VA" "N" && (is (val s) "SC" "N" && (is (val s) "SI" "N" && (is (val s) "SA" "N" && true)))))).
  assert (NI' : is (val s) "VC" "N" && (is (val s) "VI" "N" && (is (val s) "VA" "N" && (is (val s) "SC" "N" && (is (val s) "SI" "N" && (is (val s) "SA" "N" && true))))) = false).
  { change (String.eqb (s_vc s) "N" && (String.eqb (s_vi s) "N" && (String.eqb (s_va s) "N" && (String.eqb (s_sc s) "N" && (String.eqb (s_si s) "N" && (String.eqb (s_sa s) "N" && true))))) = false).
    etransitivity; [|exact NI]. unfold no_impact4, none36, none4, p36, p4. rewrite andb_true_r, !andb_assoc. reflexivity. }
  rewrite NI'. rewrite <- eq1_class, <- eq2_class, <- eq3_class, <- eq4_class, <- eq5_class, <- eq6_class.
  destruct (macro (eq1 s) (eq2 s) (eq3 s) (eq4 s) (eq5 s) (eq6 s)) as [exact|]; [|discriminate].
  cbn [option_map obind]. rewrite F. cbn [obind]. fold (exact_low36 (eq1 s) (eq2 s) (eq3 s) (eq4 s) (eq5 s) (eq6 s)).
  apply andb_true_iff in K as [K1 K2]. apply (option_eqb_eq _ _ _ sf_eqb_eq) in K1. 
  unfold from_distances. rewrite S1, S2, S3, S4. cbn [obind]. rewrite K1, !lookup_macro.
  rewrite scored_exact by (rewrite ?D1, ?D2, ?D3, ?D4; assumption). rewrite D1, D2, D3, D4.
  set (low1 := macro (S (eq1 s)) _ _ _ _ _) in *. set (low2 := macro _ (S (eq2 s)) _ _ _ _) in *. set (low36 := exact_low36 _ _ _ _ _ _) in *.
  set (low4 := macro _ _ _ (S (eq4 s)) _ _) in *. set (low5 := macro _ _ _ _ (S (eq5 s)) _) in *.
  clearbody low1 low2 low36 low4 low5.
  set (value := dec exact 10) in *. clearbody value.
  rewrite forallb_forall in K2.
  specialize (K2 _ (plus_all_in _ _ _ _ (plus_all_in _ _ _ _ (plus_all_in _ _ _ _ (terms_in value exact low1 (sev1 (eq1 s)) _ _ R1) (terms_in value exact low2 (sev2 (eq2 s)) _ _ R2))
    (terms_in value exact low36 (sev36 (eq3 s) (eq6 s)) _ _ R3)) (terms_in value exact low4 (sev4 (eq4 s)) _ _ R4))).
  pose proof (finish_terms value exact low1 low2 low36 low4 low5 (sev1 (eq1 s)) (sev2 (eq2 s)) (sev36 (eq3 s) (eq6 s)) (sev4 (eq4 s))
    (dist1 (p1 s) a) (dist2 (p2 s) b) (dist36 (p36 s) c) (dist4 (p4 s) d)
    (distance group1 same1 (val s)) (distance group2 same2 (val s)) (distance group36 same36 (val s)) (distance group4 same4 (val s))
    true true (none36 (p36 s)) (none4 (p4 s))) as FT. cbv zeta in FT.
  set (r := plus _ _) in *. clearbody r. destruct r as [[f z] nb]. cbn [fst snd] in FT. destruct FT as (F1 & F2 & F3).
  unfold check_row in K2. cbn [andb] in F3. fold (no_impact4 s) in F3. rewrite F3, NI in K2. cbv zeta in K2. rewrite F2 in K2.
  apply andb_true_iff in K2 as [K2 K3]. apply andb_true_iff in K2 as [K2 K4]. apply Z.leb_le in K2, K4. apply sf_eqb_eq in K3.
  eexists. eexists. split; [reflexivity|]. split; [split; [exact K2|exact K4]|]. split; [|exact K3].
  f_equal. rewrite <- F1.
  destruct a as [[a1 a2] a3], b as [b1 b2], c as [[[[[c1 c2] c3] c4] c5] c6], d as [[d1 d2] d3]. reflexivity.
Qed.
