(** CVSS v4 scores do not go down when metrics get more severe: the computation. *)
From Coq Require Import List NArith ZArith QArith Qround Ascii String Bool Lia SpecFloat.
From Verif Require Import Base StrLib CvssText CvssSpec CvssTextProofs CvssFloat Cvss3 Cvss2 Cvss4Data Cvss4 CvssScoreSpec Cvss4Spec PropsCvss3
  Cvss4Proofs Cvss4Tables Cvss4Score CvssMonoSpec.
Import ListNotations.
Local Open Scope string_scope.
Local Open Scope nat_scope.

(** ** Steps in one metric are enough *)
Fixpoint adjacent (orders : list (list string)) : list (list string * list string) :=
  match orders with
  | [] => []
  | o :: r => (flat_map (fun x => map (fun p => (x :: fst p, x :: snd p)) (adjacent r)) o
              ++ flat_map (fun p => map (fun t => (fst p :: t, snd p :: t)) (product r)) (combine o (tl o)))%list
  end.
Lemma combine_tl {A} (l r : list A) x y : In (x, y) (combine (l ++ x :: y :: r) (tl (l ++ x :: y :: r))).
Proof.
  induction l as [|a l IH]; [left; reflexivity|]. destruct l as [|b l]; [right; left; reflexivity|]. cbn [app tl combine] in *. right. exact IH.
Qed.
Lemma climb {A} (R : A -> A -> Prop) (f : string -> A) : (forall a, R a a) -> (forall a b c, R a b -> R b c -> R a c) ->
  forall order, (forall p, In p (combine order (tl order)) -> R (f (fst p)) (f (snd p))) ->
  forall x y, no_less_severe order x y -> R (f x) (f y).
Proof.
  intros RE TR order H x y (l & r & E & I). revert l x E I. induction r as [|z r IH]; intros l x E I.
  - destruct I as [<-|[]]. apply RE.
  - destruct I as [<-|I]; [apply RE|]. apply TR with (f z).
    + apply (H (x, z)). rewrite E. apply combine_tl.
    + apply (IH (l ++ [x])%list); [rewrite <- app_assoc; exact E|exact I].
Qed.
Inductive pointwise : list (list string) -> list string -> list string -> Prop :=
| pw_nil : pointwise [] [] []
| pw_cons o r x y v w : no_less_severe o x y -> pointwise r v w -> pointwise (o :: r) (x :: v) (y :: w).
Lemma no_less_in o x y : no_less_severe o x y -> In x o /\ In y o.
Proof. intros (l & r & -> & I). split; apply in_app_iff; right; [left; reflexivity|exact I]. Qed.
Lemma pointwise_in orders v w : pointwise orders v w -> In v (product orders) /\ In w (product orders).
Proof.
  intros H. rewrite !product_in. induction H as [|o r x y v w N _ [IH1 IH2]]; [split; constructor|].
  apply no_less_in in N as [N1 N2]. split; constructor; assumption.
Qed.
Lemma climb_all {A} (R : A -> A -> Prop) : (forall a, R a a) -> (forall a b c, R a b -> R b c -> R a c) ->
  forall orders (f : list string -> A), (forall p, In p (adjacent orders) -> R (f (fst p)) (f (snd p))) ->
  forall v w, pointwise orders v w -> R (f v) (f w).
Proof.
  intros RE TR orders f H v w P. revert f H. induction P as [|o r x y v w N P IH]; intros f H; [apply RE|].
  pose proof (no_less_in _ _ _ N) as [NX NY]. apply TR with (f (x :: w)).
  - apply (IH (fun u => f (x :: u))). intros p I. apply (H (x :: fst p, x :: snd p)). cbn [adjacent]. apply in_app_iff. left.
    apply in_flat_map. exists x. split; [exact NX|]. apply in_map_iff. exists p. auto.
  - apply (climb R (fun z => f (z :: w)) RE TR o); [|exact N]. intros p I. apply (H (fst p :: w, snd p :: w)). cbn [adjacent]. apply in_app_iff. right.
    apply in_flat_map. exists p. split; [exact I|]. apply in_map_iff. exists w. split; [reflexivity|]. apply (pointwise_in _ _ _ P).
Qed.

(** ** The score as a linear function of the distances, for every MacroVector *)
(** 50400 times the score in tenths is [c0 - c1 z1 - c2 z2 - c36 z36 - c4 z4]. *)
Definition coef : Type := Z * Z * Z * Z * Z.
Definition share (n : nat) : Z := match n with O => 0 | S O => 60 | S (S O) => 30 | S (S (S O)) => 20 | S (S (S (S O))) => 15 | _ => 12 end%Z.
Definition takes (value w sev : Z) (low : option Z) : Z := match low with Some l => (w * ((value - l) * (840 / sev)))%Z | None => 0%Z end.
Definition coef_of (k1 k2 k3 k4 k5 k6 : nat) : coef :=
  match macro k1 k2 k3 k4 k5 k6 with
  | None => (0, 0, 0, 0, 0)%Z
  | Some value =>
      let low1 := macro (S k1) k2 k3 k4 k5 k6 in
      let low2 := macro k1 (S k2) k3 k4 k5 k6 in
      let low36 := exact_low36 k1 k2 k3 k4 k5 k6 in
      let low4 := macro k1 k2 k3 (S k4) k5 k6 in
      let low5 := macro k1 k2 k3 k4 (S k5) k6 in
      let w := share (list_sum (map amount [low1; low2; low36; low4; low5])) in
      (50400 * value, takes value w (sev1 k1) low1, takes value w (sev2 k2) low2, takes value w (sev36 k3 k6) low36, takes value w (sev4 k4) low4)%Z
  end.
Definition linear (c : coef) (z1 z2 z36 z4 : Z) : Z := let '(c0, c1, c2, c36, c4) := c in (c0 - c1 * z1 - c2 * z2 - c36 * z36 - c4 * z4)%Z.
Definition raw (s : scoring) : Z :=
  linear (coef_of (eq1 s) (eq2 s) (eq3 s) (eq4 s) (eq5 s) (eq6 s))
    (distance group1 same1 (val s)) (distance group2 same2 (val s)) (distance group36 same36 (val s)) (distance group4 same4 (val s)).
Lemma exact_result_share value e z : e <= 5 -> (e = 0 -> z = 0%Z) -> exact_result value (Z.of_nat e) z = ((50400 * value - share e * z + 25200) / 50400)%Z.
Proof.
  intros L Z0. unfold exact_result. destruct e as [|[|[|[|[|[|]]]]]]; try lia; cbn [share].
  - rewrite (Z0 eq_refl). cbn [Z.of_nat Z.eqb]. apply (Z.div_unique _ _ _ 25200); lia.
  - change (Z.eqb (Z.of_nat 1) 0) with false. cbn iota. change (Z.of_nat 1) with 1%Z.
    rewrite <- (Z.div_mul_cancel_l (1680 * 1 * value - 2 * z + 840 * 1) (1680 * 1) 30) by lia. f_equal; ring.
  - change (Z.eqb (Z.of_nat 2) 0) with false. cbn iota. change (Z.of_nat 2) with 2%Z.
    rewrite <- (Z.div_mul_cancel_l (1680 * 2 * value - 2 * z + 840 * 2) (1680 * 2) 15) by lia. f_equal; ring.
  - change (Z.eqb (Z.of_nat 3) 0) with false. cbn iota. change (Z.of_nat 3) with 3%Z.
    rewrite <- (Z.div_mul_cancel_l (1680 * 3 * value - 2 * z + 840 * 3) (1680 * 3) 10) by lia. f_equal; ring.
  - change (Z.eqb (Z.of_nat 4) 0) with false. cbn iota. change (Z.of_nat 4) with 4%Z.
    assert (E : ((50400 * value - 15 * z + 25200) * 2 / (50400 * 2) = (50400 * value - 15 * z + 25200) / 50400)%Z) by (apply Z.div_mul_cancel_r; lia).
    rewrite <- E. rewrite <- (Z.div_mul_cancel_l (1680 * 4 * value - 2 * z + 840 * 4) (1680 * 4) 15) by lia. f_equal; ring.
  - change (Z.eqb (Z.of_nat 5) 0) with false. cbn iota. change (Z.of_nat 5) with 5%Z.
    rewrite <- (Z.div_mul_cancel_l (1680 * 5 * value - 2 * z + 840 * 5) (1680 * 5) 6) by lia. f_equal; ring.
Qed.
Lemma amount_le o : amount o <= 1. Proof. destruct o; cbn; lia. Qed.
Lemma part_takes value w low z sev : (takes value w sev low * z = w * part value low z sev)%Z.
Proof. destruct low as [l|]; cbn [takes part]; ring. Qed.
Lemma score_raw s : proper s -> no_impact4 s = false -> score_of (val s) = Some ((raw s + 25200) / 50400)%Z.
Proof.
  intros P NI. destruct (score_exact s P NI) as (n & x & E & _). rewrite E. f_equal. revert E.
  destruct (class_depths s) as (D1 & D2 & D3 & D4). destruct (depths_divide s) as (V1 & V2 & V3 & V4).
  unfold score_of.
  assert (NI' : forallb (fun n => is (val s) n "N") ["VC"; "VI"; "VA"; "SC"; "SI"; "SA"] = false).
  { change (String.eqb (s_vc s) "N" && (String.eqb (s_vi s) "N" && (String.eqb (s_va s) "N" && (String.eqb (s_sc s) "N" && (String.eqb (s_si s) "N" && (String.eqb (s_sa s) "N" && true))))) = false).
    etransitivity; [|exact NI]. unfold no_impact4, none36, none4, p36, p4. rewrite andb_true_r, !andb_assoc. reflexivity. }
  rewrite NI'. rewrite <- eq1_class, <- eq2_class, <- eq3_class, <- eq4_class, <- eq5_class, <- eq6_class.
  unfold raw, coef_of.
  destruct (macro (eq1 s) (eq2 s) (eq3 s) (eq4 s) (eq5 s) (eq6 s)) as [value|]; [|discriminate].
  cbn [option_map]. fold (exact_low36 (eq1 s) (eq2 s) (eq3 s) (eq4 s) (eq5 s) (eq6 s)).
  rewrite scored_exact by (rewrite ?D1, ?D2, ?D3, ?D4; assumption). rewrite D1, D2, D3, D4. rewrite existing_amount.
  set (low1 := macro (S (eq1 s)) _ _ _ _ _) in *. set (low2 := macro _ (S (eq2 s)) _ _ _ _) in *. set (low36 := exact_low36 _ _ _ _ _ _) in *.
  set (low4 := macro _ _ _ (S (eq4 s)) _ _) in *. set (low5 := macro _ _ _ _ (S (eq5 s)) _) in *.
  clearbody low1 low2 low36 low4 low5. intros E. injection E as <-. cbn [linear].
  rewrite exact_result_share.
  - f_equal. rewrite !part_takes. set (w := share _). clearbody w. ring.
  - pose proof (amount_le low1). pose proof (amount_le low2). pose proof (amount_le low36). pose proof (amount_le low4). pose proof (amount_le low5). cbn. lia.
  - destruct low1, low2, low36, low4, low5; cbn; try lia; reflexivity.
Qed.

(** ** The groups *)
Definition orders1 := [["P"; "L"; "A"; "N"]; ["H"; "L"; "N"]; ["A"; "P"; "N"]].
Definition orders2 := [["H"; "L"]; ["P"; "N"]].
Definition orders36 := [["N"; "L"; "H"]; ["N"; "L"; "H"]; ["N"; "L"; "H"]; ["L"; "M"; "H"]; ["L"; "M"; "H"]; ["L"; "M"; "H"]].
Definition orders4 := [["N"; "L"; "H"]; ["N"; "L"; "H"; "S"]; ["N"; "L"; "H"; "S"]].
Definition low_of1 (k : nat) : Z := match k with O => 0 | S O => 1 | _ => 3 end%Z.
Definition low_of2 (k : nat) : Z := match k with O => 0 | _ => 1 end%Z.
Definition low_of4 (k : nat) : Z := match k with O => 0 | S O => 2 | _ => 5 end%Z.
(** Classes 3 and 6 together. *)
Definition number36 (k3 k6 : nat) : nat := match k3, k6 with 0, 0 => 0 | 0, _ => 1 | 1, 0 => 2 | 1, _ => 3 | _, _ => 4 end.
Definition class36 (i : nat) : nat * nat := match i with 0 => (0, 0) | 1 => (0, 1) | 2 => (1, 0) | 3 => (1, 1) | _ => (2, 1) end.
Definition low_of36 (i : nat) : Z := match i with O => 0 | S O => 3 | S (S O) => 1 | _ => 3 end%Z.
Definition sev_of36 (i : nat) : Z := sev36 (fst (class36 i)) (snd (class36 i)).
Definition key : Type := nat * Z.
Definition key1 (l : list string) : key :=
  match l with [av; pr; ui] => let s := of1 (av, pr, ui) in (eq1 s, (steps group1 (val s) - low_of1 (eq1 s))%Z) | _ => (0, 0%Z) end.
Definition key2 (l : list string) : key :=
  match l with [ac; at_] => let s := of2 (ac, at_) in (eq2 s, (steps group2 (val s) - low_of2 (eq2 s))%Z) | _ => (0, 0%Z) end.
Definition key36 (l : list string) : key :=
  match l with
  | [vc; vi; va; cr; ir; ar] =>
      let s := of36 (vc, vi, va, cr, ir, ar) in let i := number36 (eq3 s) (eq6 s) in (i, (steps group36 (val s) - low_of36 i)%Z)
  | _ => (0, 0%Z)
  end.
Definition key4 (l : list string) : key :=
  match l with [sc; si; sa] => let s := of4 (sc, si, sa) in (eq4 s, (steps group4 (val s) - low_of4 (eq4 s))%Z) | _ => (0, 0%Z) end.
Lemma lows : (map (fun k => least (steps1 k)) [0; 1; 2], map (fun k => least (steps2 k)) [0; 1], map (fun k => least (steps4 k)) [0; 1; 2],
  map (fun i => least (steps36 (fst (class36 i)) (snd (class36 i)))) [0; 1; 2; 3; 4])
  = (map low_of1 [0; 1; 2], map low_of2 [0; 1], map low_of4 [0; 1; 2], map low_of36 [0; 1; 2; 3; 4]).
Proof. vm_compute. reflexivity. Qed.
Lemma map_eq_in {A B} (f g : A -> B) l : map f l = map g l -> forall x, In x l -> f x = g x.
Proof. induction l as [|a l IH]; intros E x I; [destruct I|]. injection E as E1 E2. destruct I as [<-|I]; [exact E1|apply IH; assumption]. Qed.
Definition l1 (s : scoring) : list string := [s_av s; s_pr s; s_ui s].
Definition l2 (s : scoring) : list string := [s_ac s; s_at s].
Definition l36 (s : scoring) : list string := [s_vc s; s_vi s; s_va s; s_cr s; s_ir s; s_ar s].
Definition l4 (s : scoring) : list string := [s_sc s; s_si s; s_sa s].
Lemma classes_range s : In (eq1 s) [0; 1; 2] /\ In (eq2 s) [0; 1] /\ In (eq4 s) [0; 1; 2] /\ In (eq5 s) [0; 1; 2] /\
  In (number36 (eq3 s) (eq6 s)) [0; 1; 2; 3; 4] /\ class36 (number36 (eq3 s) (eq6 s)) = (eq3 s, eq6 s).
Proof.
  pose proof (classes_in s) as I. unfold all_classes in I. rewrite in_flat_map in I. destruct I as (x1 & I1 & I). apply in_flat_map in I as (x2 & I2 & I).
  apply in_flat_map in I as (x3 & I3 & I). apply in_flat_map in I as (x4 & I4 & I). apply in_map_iff in I as (x5 & E & I5). injection E as <- <- <- <- <- <-.
  repeat apply conj; try assumption; repeat destruct I3 as [<-|I3]; try contradiction; cbn; auto 8.
Qed.
Lemma keys s : key1 (l1 s) = (eq1 s, distance group1 same1 (val s)) /\ key2 (l2 s) = (eq2 s, distance group2 same2 (val s)) /\
  key36 (l36 s) = (number36 (eq3 s) (eq6 s), distance group36 same36 (val s)) /\ key4 (l4 s) = (eq4 s, distance group4 same4 (val s)).
Proof.
  destruct (classes_range s) as (I1 & I2 & I4 & I5 & I36 & C36).
  assert (L1 : map (fun k => least (steps1 k)) [0; 1; 2] = map low_of1 [0; 1; 2]) by exact (f_equal (fun p => fst (fst (fst p))) lows).
  assert (L2 : map (fun k => least (steps2 k)) [0; 1] = map low_of2 [0; 1]) by exact (f_equal (fun p => snd (fst (fst p))) lows).
  assert (L4 : map (fun k => least (steps4 k)) [0; 1; 2] = map low_of4 [0; 1; 2]) by exact (f_equal (fun p => snd (fst p)) lows).
  assert (L36 : map (fun i => least (steps36 (fst (class36 i)) (snd (class36 i)))) [0; 1; 2; 3; 4] = map low_of36 [0; 1; 2; 3; 4]) by exact (f_equal snd lows).
  unfold distance. rewrite class_steps1, class_steps2, class_steps36, class_steps4.
  rewrite <- eq1_class, <- eq2_class, <- eq3_class, <- eq4_class, <- eq6_class. cbn [key1 key2 key36 key4 l1 l2 l36 l4]. cbv zeta.
  rewrite (map_eq_in _ _ _ L1 _ I1), (map_eq_in _ _ _ L2 _ I2), (map_eq_in _ _ _ L4 _ I4).
  pose proof (map_eq_in _ _ _ L36 _ I36) as E. cbv beta in E. rewrite C36 in E. cbn [fst snd] in E. rewrite E. repeat apply conj; reflexivity.
Qed.

(** ** The comparison *)
Inductive range := Fixed (z z' : Z) | Free (m : Z).
Definition within (r : range) (z z' : Z) : Prop := match r with Fixed a b => z = a /\ z' = b | Free m => z = z' /\ (0 <= z <= m)%Z end.
Definition slack (c c' : Z) (r : range) : Z := match r with Fixed z z' => (c * z - c' * z')%Z | Free m => Z.min 0 ((c - c') * m) end.
Lemma slack_le c c' r z z' : within r z z' -> (slack c c' r <= c * z - c' * z')%Z.
Proof.
  destruct r as [a b|m]; cbn [within slack].
  - intros [-> ->]. lia.
  - intros [<- R]. destruct (Z.le_gt_cases c' c); nia.
Qed.
Definition up (c c' : coef) (r1 r2 r36 r4 : range) : bool :=
  let '(a0, a1, a2, a36, a4) := c in let '(b0, b1, b2, b36, b4) := c' in
  Z.leb 0 (b0 - a0 + slack a1 b1 r1 + slack a2 b2 r2 + slack a36 b36 r36 + slack a4 b4 r4).
Lemma up_sound c c' r1 r2 r36 r4 z1 z2 z36 z4 z1' z2' z36' z4' : up c c' r1 r2 r36 r4 = true ->
  within r1 z1 z1' -> within r2 z2 z2' -> within r36 z36 z36' -> within r4 z4 z4' ->
  (linear c z1 z2 z36 z4 <= linear c' z1' z2' z36' z4')%Z.
Proof.
  destruct c as [[[[a0 a1] a2] a36] a4], c' as [[[[b0 b1] b2] b36] b4]. cbn [up linear]. intros U W1 W2 W3 W4. apply Z.leb_le in U.
  pose proof (slack_le a1 b1 _ _ _ W1). pose proof (slack_le a2 b2 _ _ _ W2). pose proof (slack_le a36 b36 _ _ _ W3). pose proof (slack_le a4 b4 _ _ _ W4). lia.
Qed.
Definition coef5 (k1 k2 i k4 k5 : nat) : coef := coef_of k1 k2 (fst (class36 i)) k4 k5 (snd (class36 i)).
Definition key_eqb (a b : key * key) : bool :=
  Nat.eqb (fst (fst a)) (fst (fst b)) && Z.eqb (snd (fst a)) (snd (fst b)) && Nat.eqb (fst (snd a)) (fst (snd b)) && Z.eqb (snd (snd a)) (snd (snd b)).
Lemma key_eqb_eq a b : key_eqb a b = true -> a = b.
Proof.
  destruct a as [[a1 a2] [a3 a4]], b as [[b1 b2] [b3 b4]]. unfold key_eqb. cbn [fst snd]. rewrite !andb_true_iff, !Nat.eqb_eq, !Z.eqb_eq.
  intros [[[-> ->] ->] ->]. reflexivity.
Qed.
Definition changes (f : list string -> key) (orders : list (list string)) : list (key * key) :=
  nub key_eqb (map (fun p => (f (fst p), f (snd p))) (adjacent orders)).
Lemma changes_in f orders p : In p (adjacent orders) -> In (f (fst p), f (snd p)) (changes f orders).
Proof. intros I. apply nub_in; [exact key_eqb_eq|]. apply in_map_iff. exists p. auto. Qed.
Definition free2 k := Free (sev2 k - 1).
Definition free1 k := Free (sev1 k - 1).
Definition free36 i := Free (sev_of36 i - 1).
Definition free4 k := Free (sev4 k - 1).
(** All changes of a group, in all contexts. *)
Definition over (ks : list nat) (c : nat -> coef) (ch : list (key * key)) (test : coef -> coef -> range -> bool) : bool :=
  let table := map (fun k => (k, c k)) ks in
  forallb (fun p => let '((k, z), (k', z')) := p in
    match find (fun e => Nat.eqb (fst e) k) table, find (fun e => Nat.eqb (fst e) k') table with
    | Some e, Some e' => test (snd e) (snd e') (Fixed z z')
    | _, _ => false
    end) ch.
Lemma find_table ks (c : nat -> coef) k e : find (fun e => Nat.eqb (fst e) k) (map (fun k => (k, c k)) ks) = Some e -> snd e = c k.
Proof.
  intros F. apply find_some in F as [I E]. apply in_map_iff in I as (x & <- & _). cbn [fst snd] in *. apply Nat.eqb_eq in E as ->. reflexivity.
Qed.
Lemma over_in ks c ch test k z k' z' : over ks c ch test = true -> In ((k, z), (k', z')) ch -> test (c k) (c k') (Fixed z z') = true.
Proof.
  unfold over. cbv zeta. intros H I. rewrite forallb_forall in H. specialize (H _ I). cbn beta iota in H.
  destruct (find _ _) as [e|] eqn:E; [|discriminate]. destruct (find (fun e => Nat.eqb (fst e) k') _) as [e'|] eqn:E'; [|discriminate].
  apply find_table in E, E'. rewrite E, E' in H. exact H.
Qed.
Definition every {A} (l : list A) (p : A -> bool) : bool := forallb p l.
Lemma every_in {A} (l : list A) p x : every l p = true -> In x l -> p x = true.
Proof. unfold every. rewrite forallb_forall. auto. Qed.
Definition n3 := [0; 1; 2]. Definition n2 := [0; 1]. Definition n5 := [0; 1; 2; 3; 4].
Definition check1 (ch : list (key * key)) : bool := every n2 (fun k2 => every n5 (fun i => every n3 (fun k4 => every n3 (fun k5 =>
  over n3 (fun k => coef5 k k2 i k4 k5) ch (fun a b r => up a b r (free2 k2) (free36 i) (free4 k4)))))).
Definition check2 (ch : list (key * key)) : bool := every n3 (fun k1 => every n5 (fun i => every n3 (fun k4 => every n3 (fun k5 =>
  over n2 (fun k => coef5 k1 k i k4 k5) ch (fun a b r => up a b (free1 k1) r (free36 i) (free4 k4)))))).
Definition check36 (ch : list (key * key)) : bool := every n3 (fun k1 => every n2 (fun k2 => every n3 (fun k4 => every n3 (fun k5 =>
  over n5 (fun i => coef5 k1 k2 i k4 k5) ch (fun a b r => up a b (free1 k1) (free2 k2) r (free4 k4)))))).
Definition check4 (ch : list (key * key)) : bool := every n3 (fun k1 => every n2 (fun k2 => every n5 (fun i => every n3 (fun k5 =>
  over n3 (fun k => coef5 k1 k2 i k k5) ch (fun a b r => up a b (free1 k1) (free2 k2) (free36 i) r))))).
Definition check5 (coef5 : nat -> nat -> nat -> nat -> nat -> coef) : bool := every n3 (fun k1 => every n2 (fun k2 => every n5 (fun i => every n3 (fun k4 =>
  let c := coef5 k1 k2 i k4 in let t u v := up u v (free1 k1) (free2 k2) (free36 i) (free4 k4) in t (c 2) (c 1) && t (c 1) (c 0))))).
(** The same, without computing anything. *)
Lemma check1_in ch k2 i k4 k5 k z k' z' : check1 ch = true -> In k2 n2 -> In i n5 -> In k4 n3 -> In k5 n3 -> In ((k, z), (k', z')) ch ->
  up (coef5 k k2 i k4 k5) (coef5 k' k2 i k4 k5) (Fixed z z') (free2 k2) (free36 i) (free4 k4) = true.
Proof.
  intros T G2 G3 G4 G5 J. unfold check1 in T. pose proof (every_in _ _ _ T G2) as T1. pose proof (every_in _ _ _ T1 G3) as T2. pose proof (every_in _ _ _ T2 G4) as T3. pose proof (every_in _ _ _ T3 G5) as T4.
  exact (over_in _ _ _ _ _ _ _ _ T4 J).
Qed.
Lemma check2_in ch k1 i k4 k5 k z k' z' : check2 ch = true -> In k1 n3 -> In i n5 -> In k4 n3 -> In k5 n3 -> In ((k, z), (k', z')) ch ->
  up (coef5 k1 k i k4 k5) (coef5 k1 k' i k4 k5) (free1 k1) (Fixed z z') (free36 i) (free4 k4) = true.
Proof.
  intros T G2 G3 G4 G5 J. unfold check2 in T. pose proof (every_in _ _ _ T G2) as T1. pose proof (every_in _ _ _ T1 G3) as T2. pose proof (every_in _ _ _ T2 G4) as T3. pose proof (every_in _ _ _ T3 G5) as T4.
  exact (over_in _ _ _ _ _ _ _ _ T4 J).
Qed.
Lemma check36_in ch k1 k2 k4 k5 k z k' z' : check36 ch = true -> In k1 n3 -> In k2 n2 -> In k4 n3 -> In k5 n3 -> In ((k, z), (k', z')) ch ->
  up (coef5 k1 k2 k k4 k5) (coef5 k1 k2 k' k4 k5) (free1 k1) (free2 k2) (Fixed z z') (free4 k4) = true.
Proof.
  intros T G2 G3 G4 G5 J. unfold check36 in T. pose proof (every_in _ _ _ T G2) as T1. pose proof (every_in _ _ _ T1 G3) as T2. pose proof (every_in _ _ _ T2 G4) as T3. pose proof (every_in _ _ _ T3 G5) as T4.
  exact (over_in _ _ _ _ _ _ _ _ T4 J).
Qed.
Lemma check4_in ch k1 k2 i k5 k z k' z' : check4 ch = true -> In k1 n3 -> In k2 n2 -> In i n5 -> In k5 n3 -> In ((k, z), (k', z')) ch ->
  up (coef5 k1 k2 i k k5) (coef5 k1 k2 i k' k5) (free1 k1) (free2 k2) (free36 i) (Fixed z z') = true.
Proof.
  intros T G2 G3 G4 G5 J. unfold check4 in T. pose proof (every_in _ _ _ T G2) as T1. pose proof (every_in _ _ _ T1 G3) as T2. pose proof (every_in _ _ _ T2 G4) as T3. pose proof (every_in _ _ _ T3 G5) as T4.
  exact (over_in _ _ _ _ _ _ _ _ T4 J).
Qed.
Lemma check5_in c k1 k2 i k4 : check5 c = true -> In k1 n3 -> In k2 n2 -> In i n5 -> In k4 n3 ->
  up (c k1 k2 i k4 2) (c k1 k2 i k4 1) (free1 k1) (free2 k2) (free36 i) (free4 k4) = true /\
  up (c k1 k2 i k4 1) (c k1 k2 i k4 0) (free1 k1) (free2 k2) (free36 i) (free4 k4) = true.
Proof.
  intros T G2 G3 G4 G5. unfold check5 in T. pose proof (every_in _ _ _ T G2) as T1. pose proof (every_in _ _ _ T1 G3) as T2. pose proof (every_in _ _ _ T2 G4) as T3. pose proof (every_in _ _ _ T3 G5) as T4.
  cbv zeta in T4. apply andb_true_iff in T4. exact T4.
Qed.
Definition changes1 := changes key1 orders1. Definition changes2 := changes key2 orders2.
Definition changes36 := changes key36 orders36. Definition changes4 := changes key4 orders4.
Lemma checked1 : check1 changes1 = true. Proof. vm_cast_no_check (eq_refl true). Qed.
Lemma checked2 : check2 changes2 = true. Proof. vm_cast_no_check (eq_refl true). Qed.
Lemma checked36 : check36 changes36 = true. Proof. vm_cast_no_check (eq_refl true). Qed.
Lemma checked_4 : check4 changes4 = true. Proof. vm_cast_no_check (eq_refl true). Qed.
Lemma checked5 : check5 coef5 = true. Proof. vm_cast_no_check (eq_refl true). Qed.
Lemma changes1_in p : In p (adjacent orders1) -> In (key1 (fst p), key1 (snd p)) changes1.
Proof. exact (changes_in key1 orders1 p). Qed.
Lemma changes2_in p : In p (adjacent orders2) -> In (key2 (fst p), key2 (snd p)) changes2.
Proof. exact (changes_in key2 orders2 p). Qed.
Lemma changes36_in p : In p (adjacent orders36) -> In (key36 (fst p), key36 (snd p)) changes36.
Proof. exact (changes_in key36 orders36 p). Qed.
Lemma changes4_in p : In p (adjacent orders4) -> In (key4 (fst p), key4 (snd p)) changes4.
Proof. exact (changes_in key4 orders4 p). Qed.
Global Opaque changes1 changes2 changes36 changes4.
(** ** Distances are within the depths *)
Definition inside (sev : nat -> Z) (k : key) : bool := Z.leb 0 (snd k) && Z.leb (snd k) (sev (fst k) - 1).
Lemma inside_all : forallb (fun l => inside sev1 (key1 l)) (product orders1) && forallb (fun l => inside sev2 (key2 l)) (product orders2) &&
  forallb (fun l => inside sev_of36 (key36 l)) (product orders36) && forallb (fun l => inside sev4 (key4 l)) (product orders4) = true.
Proof. vm_cast_no_check (eq_refl true). Qed.
Definition legal (s : scoring) : Prop :=
  In (l1 s) (product orders1) /\ In (l2 s) (product orders2) /\ In (l36 s) (product orders36) /\ In (l4 s) (product orders4).
(** A state of scoring: the classes and distances of the groups. *)
Definition state (a1 a2 a36 a4 : key) (k5 : nat) : Z := linear (coef5 (fst a1) (fst a2) (fst a36) (fst a4) k5) (snd a1) (snd a2) (snd a36) (snd a4).
Definition good (ks : list nat) (sev : nat -> Z) (a : key) : Prop := In (fst a) ks /\ (0 <= snd a <= sev (fst a) - 1)%Z.
Lemma state_of s : legal s -> raw s = state (key1 (l1 s)) (key2 (l2 s)) (key36 (l36 s)) (key4 (l4 s)) (eq5 s) /\
  good n3 sev1 (key1 (l1 s)) /\ good n2 sev2 (key2 (l2 s)) /\ good n5 sev_of36 (key36 (l36 s)) /\ good n3 sev4 (key4 (l4 s)) /\ In (eq5 s) n3.
Proof.
  intros (J1 & J2 & J36 & J4). pose proof inside_all as T. rewrite !andb_true_iff, !forallb_forall in T. destruct T as [[[T1 T2] T3] T4].
  specialize (T1 _ J1). specialize (T2 _ J2). specialize (T3 _ J36). specialize (T4 _ J4). clear J1 J2 J36 J4.
  destruct (classes_range s) as (I1 & I2 & I4 & I5 & I36 & C36). destruct (keys s) as (K1 & K2 & K36 & K4). rewrite K1, K2, K36, K4 in *.
  unfold inside in *. cbn [fst snd] in *. rewrite !andb_true_iff, !Z.leb_le in T1, T2, T3, T4.
  unfold good, state, coef5. cbn [fst snd]. rewrite C36. cbn [fst snd]. split; [reflexivity|]. repeat apply conj; try assumption; try apply T1; try apply T2; try apply T3; try apply T4.
Qed.
Global Opaque coef5.
Definition le1 (a b : key) : Prop := forall a2 a36 a4 k5, good n2 sev2 a2 -> good n5 sev_of36 a36 -> good n3 sev4 a4 -> In k5 n3 -> (state a a2 a36 a4 k5 <= state b a2 a36 a4 k5)%Z.
Definition le2 (a b : key) : Prop := forall a1 a36 a4 k5, good n3 sev1 a1 -> good n5 sev_of36 a36 -> good n3 sev4 a4 -> In k5 n3 -> (state a1 a a36 a4 k5 <= state a1 b a36 a4 k5)%Z.
Definition le36 (a b : key) : Prop := forall a1 a2 a4 k5, good n3 sev1 a1 -> good n2 sev2 a2 -> good n3 sev4 a4 -> In k5 n3 -> (state a1 a2 a a4 k5 <= state a1 a2 b a4 k5)%Z.
Definition le4 (a b : key) : Prop := forall a1 a2 a36 k5, good n3 sev1 a1 -> good n2 sev2 a2 -> good n5 sev_of36 a36 -> In k5 n3 -> (state a1 a2 a36 a k5 <= state a1 a2 a36 b k5)%Z.
Definition le5 (k k' : nat) : Prop := forall a1 a2 a36 a4, good n3 sev1 a1 -> good n2 sev2 a2 -> good n5 sev_of36 a36 -> good n3 sev4 a4 -> (state a1 a2 a36 a4 k <= state a1 a2 a36 a4 k')%Z.
Lemma free_within m z : (0 <= z <= m)%Z -> within (Free m) z z. Proof. cbn. auto. Qed.
Lemma group_le1 v w : pointwise orders1 v w -> le1 (key1 v) (key1 w).
Proof.
  apply (climb_all le1); [intros a ? ? ? ? _ _ _ _; lia|intros a b c H1 H2 a2 a36 a4 k5 G2 G3 G4 G5; specialize (H1 a2 a36 a4 k5 G2 G3 G4 G5); specialize (H2 a2 a36 a4 k5 G2 G3 G4 G5); lia|].
  intros p I. pose proof (changes1_in _ I) as J. destruct (key1 (fst p)) as [k z], (key1 (snd p)) as [k' z']. intros a2 a36 a4 k5 [G2 R2] [G3 R3] [G4 R4] G5.
  pose proof (check1_in _ _ _ _ _ _ _ _ _ checked1 G2 G3 G4 G5 J) as U. apply (up_sound _ _ _ _ _ _ _ _ _ _ _ _ _ _ U); [split; reflexivity|apply free_within; assumption..].
Qed.
Lemma group_le2 v w : pointwise orders2 v w -> le2 (key2 v) (key2 w).
Proof.
  apply (climb_all le2); [intros a ? ? ? ? _ _ _ _; lia|intros a b c H1 H2 a1 a36 a4 k5 G2 G3 G4 G5; specialize (H1 a1 a36 a4 k5 G2 G3 G4 G5); specialize (H2 a1 a36 a4 k5 G2 G3 G4 G5); lia|].
  intros p I. pose proof (changes2_in _ I) as J. destruct (key2 (fst p)) as [k z], (key2 (snd p)) as [k' z']. intros a1 a36 a4 k5 [G2 R2] [G3 R3] [G4 R4] G5.
  pose proof (check2_in _ _ _ _ _ _ _ _ _ checked2 G2 G3 G4 G5 J) as U. apply (up_sound _ _ _ _ _ _ _ _ _ _ _ _ _ _ U); first [split; reflexivity|apply free_within; assumption].
Qed.
Lemma group_le36 v w : pointwise orders36 v w -> le36 (key36 v) (key36 w).
Proof.
  apply (climb_all le36); [intros a ? ? ? ? _ _ _ _; lia|intros a b c H1 H2 a1 a2 a4 k5 G2 G3 G4 G5; specialize (H1 a1 a2 a4 k5 G2 G3 G4 G5); specialize (H2 a1 a2 a4 k5 G2 G3 G4 G5); lia|].
  intros p I. pose proof (changes36_in _ I) as J. destruct (key36 (fst p)) as [k z], (key36 (snd p)) as [k' z']. intros a1 a2 a4 k5 [G2 R2] [G3 R3] [G4 R4] G5.
  pose proof (check36_in _ _ _ _ _ _ _ _ _ checked36 G2 G3 G4 G5 J) as U. apply (up_sound _ _ _ _ _ _ _ _ _ _ _ _ _ _ U); first [split; reflexivity|apply free_within; assumption].
Qed.
Lemma group_le4 v w : pointwise orders4 v w -> le4 (key4 v) (key4 w).
Proof.
  apply (climb_all le4); [intros a ? ? ? ? _ _ _ _; lia|intros a b c H1 H2 a1 a2 a36 k5 G2 G3 G4 G5; specialize (H1 a1 a2 a36 k5 G2 G3 G4 G5); specialize (H2 a1 a2 a36 k5 G2 G3 G4 G5); lia|].
  intros p I. pose proof (changes4_in _ I) as J. destruct (key4 (fst p)) as [k z], (key4 (snd p)) as [k' z']. intros a1 a2 a36 k5 [G2 R2] [G3 R3] [G4 R4] G5.
  pose proof (check4_in _ _ _ _ _ _ _ _ _ checked_4 G2 G3 G4 G5 J) as U. apply (up_sound _ _ _ _ _ _ _ _ _ _ _ _ _ _ U); first [split; reflexivity|apply free_within; assumption].
Qed.
Definition key5 (e : string) : nat := if String.eqb e "A" then 0 else if String.eqb e "P" then 1 else 2.
Lemma group_le5 x y : no_less_severe ["U"; "P"; "A"] x y -> le5 (key5 x) (key5 y).
Proof.
  apply (climb le5 key5); [intros a ? ? ? ? _ _ _ _; lia|intros a b c H1 H2 a1 a2 a36 a4 G2 G3 G4 G5; specialize (H1 a1 a2 a36 a4 G2 G3 G4 G5); specialize (H2 a1 a2 a36 a4 G2 G3 G4 G5); lia|].
  assert (S : le5 2 1 /\ le5 1 0).
  { split; intros a1 a2 a36 a4 [G2 R2] [G3 R3] [G4 R4] [G5 R5]; destruct (check5_in _ _ _ _ _ checked5 G2 G3 G4 G5) as [U1 U2].
    - apply (up_sound _ _ _ _ _ _ _ _ _ _ _ _ _ _ U1); apply free_within; assumption.
    - apply (up_sound _ _ _ _ _ _ _ _ _ _ _ _ _ _ U2); apply free_within; assumption. }
  intros p [<-|[<-|[]]].
  - change (le5 2 1). exact (proj1 S).
  - change (le5 1 0). exact (proj2 S).
Qed.
(** Everything together. *)
Lemma raw_monotone s t : pointwise orders1 (l1 s) (l1 t) -> pointwise orders2 (l2 s) (l2 t) -> pointwise orders36 (l36 s) (l36 t) -> pointwise orders4 (l4 s) (l4 t) ->
  no_less_severe ["U"; "P"; "A"] (s_e s) (s_e t) -> (raw s <= raw t)%Z.
Proof.
  intros P1 P2 P36 P4 P5.
  assert (L : legal s /\ legal t).
  { unfold legal. pose proof (pointwise_in _ _ _ P1). pose proof (pointwise_in _ _ _ P2). pose proof (pointwise_in _ _ _ P36). pose proof (pointwise_in _ _ _ P4). tauto. }
  destruct L as [LS LT]. destruct (state_of s LS) as (-> & A1 & A2 & A36 & A4 & A5). destruct (state_of t LT) as (-> & B1 & B2 & B36 & B4 & B5).
  pose proof (group_le1 _ _ P1 _ _ _ _ A2 A36 A4 A5) as E1. pose proof (group_le2 _ _ P2 _ _ _ _ B1 A36 A4 A5) as E2.
  pose proof (group_le36 _ _ P36 _ _ _ _ B1 B2 A4 A5) as E3. pose proof (group_le4 _ _ P4 _ _ _ _ B1 B2 B36 A5) as E4.
  pose proof (group_le5 _ _ P5 _ _ _ _ B1 B2 B36 B4) as E5. change (key5 (s_e s)) with (eq5 s) in E5. change (key5 (s_e t)) with (eq5 t) in E5. lia.
Qed.
