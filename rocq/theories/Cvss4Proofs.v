(** Lemmas about CVSS v4 scoring: how the score decomposes by groups of metrics. *)
From Coq Require Import List NArith ZArith QArith Qround Ascii String Bool Lia SpecFloat.
From Verif Require Import Base StrLib CvssText CvssSpec CvssTextProofs CvssFloat Cvss3 Cvss2 Cvss4Data Cvss4 CvssScoreSpec Cvss4Spec.
Import ListNotations.
Local Open Scope string_scope.
Local Open Scope nat_scope.

(** ** Scoring vectors as valuations *)
Definition val (s : scoring) : valuation := fun n =>
  match n with
  | "AV" => s_av s | "AC" => s_ac s | "AT" => s_at s | "PR" => s_pr s | "UI" => s_ui s
  | "VC" => s_vc s | "VI" => s_vi s | "VA" => s_va s | "SC" => s_sc s | "SI" => s_si s | "SA" => s_sa s
  | "E" => s_e s | "CR" => s_cr s | "IR" => s_ir s | "AR" => s_ar s | _ => ""
  end.
Definition scored_metrics : list string := ["AV"; "AC"; "AT"; "PR"; "UI"; "VC"; "VI"; "VA"; "SC"; "SI"; "SA"; "E"; "CR"; "IR"; "AR"].
Definition values_v4 (n : string) : list string := if String.eqb n "E" then ["A"; "P"; "U"] else severity_order_v4 n.
(** All values are those of the metrics. *)
Definition proper (s : scoring) : Prop := forall n, In n scored_metrics -> In (val s n) (values_v4 n).

Lemma eq1_class s : eq1 s = class1 (val s). Proof. reflexivity. Qed.
Lemma eq2_class s : eq2 s = class2 (val s). Proof. reflexivity. Qed.
Lemma eq3_class s : eq3 s = class3 (val s). Proof. reflexivity. Qed.
Lemma eq4_class s : eq4 s = class4 (val s). Proof. reflexivity. Qed.
Lemma eq5_class s : eq5 s = class5 (val s). Proof. reflexivity. Qed.
Lemma eq6_class s : eq6 s = class6 (val s). Proof. reflexivity. Qed.

(** ** The specification depends on these metrics only *)
Definition agree (v w : valuation) : Prop := forall n, In n scored_metrics -> v n = w n.
Lemma is_ext v w n x : agree v w -> In n scored_metrics -> is v n x = is w n x.
Proof. intros A I. unfold is. rewrite (A n I). reflexivity. Qed.
Ltac here := cbn; tauto.
Lemma class1_ext v w : agree v w -> class1 v = class1 w.
Proof. intros A. unfold class1. rewrite !(is_ext v w _ _ A) by here. reflexivity. Qed.
Lemma class2_ext v w : agree v w -> class2 v = class2 w.
Proof. intros A. unfold class2. rewrite !(is_ext v w _ _ A) by here. reflexivity. Qed.
Lemma class3_ext v w : agree v w -> class3 v = class3 w.
Proof. intros A. unfold class3. rewrite !(is_ext v w _ _ A) by here. reflexivity. Qed.
Lemma class4_ext v w : agree v w -> class4 v = class4 w.
Proof. intros A. unfold class4. rewrite !(is_ext v w _ _ A) by here. reflexivity. Qed.
Lemma class5_ext v w : agree v w -> class5 v = class5 w.
Proof. intros A. unfold class5. rewrite !(is_ext v w _ _ A) by here. reflexivity. Qed.
Lemma class6_ext v w : agree v w -> class6 v = class6 w.
Proof. intros A. unfold class6. rewrite !(is_ext v w _ _ A) by here. reflexivity. Qed.
Lemma steps_ext names v w : (forall n, In n names -> v n = w n) -> steps names v = steps names w.
Proof.
  unfold steps. induction names as [|n r IH]; intros H; [reflexivity|]. cbn [fold_right]. rewrite (H n) by (left; reflexivity).
  rewrite IH by (intros m I; apply H; right; exact I). reflexivity.
Qed.
(** The steps within a class, by the number of the class. *)
Definition steps1 (k : nat) : list Z := map (steps group1) (filter (fun w => Nat.eqb k (class1 w)) (valuations group1)).
Definition steps2 (k : nat) : list Z := map (steps group2) (filter (fun w => Nat.eqb k (class2 w)) (valuations group2)).
Definition steps36 (k3 k6 : nat) : list Z := map (steps group36) (filter (fun w => Nat.eqb k3 (class3 w) && Nat.eqb k6 (class6 w)) (valuations group36)).
Definition steps4 (k : nat) : list Z := map (steps group4) (filter (fun w => Nat.eqb k (class4 w)) (valuations group4)).
Lemma class_steps1 v : class_steps group1 same1 v = steps1 (class1 v). Proof. reflexivity. Qed.
Lemma class_steps2 v : class_steps group2 same2 v = steps2 (class2 v). Proof. reflexivity. Qed.
Lemma class_steps36 v : class_steps group36 same36 v = steps36 (class3 v) (class6 v). Proof. reflexivity. Qed.
Lemma class_steps4 v : class_steps group4 same4 v = steps4 (class4 v). Proof. reflexivity. Qed.
Lemma score_of_ext v w : agree v w -> score_of v = score_of w.
Proof.
  intros A. unfold score_of, scored, distance, depth.
  rewrite !class_steps1, !class_steps2, !class_steps36, !class_steps4.
  rewrite (class1_ext v w A), (class2_ext v w A), (class3_ext v w A), (class4_ext v w A), (class5_ext v w A), (class6_ext v w A).
  rewrite (steps_ext group1 v w), (steps_ext group2 v w), (steps_ext group36 v w), (steps_ext group4 v w).
  - cbn [forallb]. rewrite !(is_ext v w _ _ A) by here. reflexivity.
  - intros n I. apply A. revert I. cbn. tauto.
  - intros n I. apply A. revert I. cbn. tauto.
  - intros n I. apply A. revert I. cbn. tauto.
  - intros n I. apply A. revert I. cbn. tauto.
Qed.

(** ** Finding the highest vector *)
Lemma find_and {A} (b : bool) (q : A -> bool) l : find (fun x => b && q x) l = if b then find q l else None.
Proof. destruct b; [reflexivity|]. induction l; [reflexivity|exact IHl]. Qed.
Lemma find_flat_map {A B} (P : B -> bool) (F : A -> list B) (p : A -> bool) (g : A -> B) xs :
  (forall x, find P (F x) = if p x then Some (g x) else None) -> find P (flat_map F xs) = option_map g (find p xs).
Proof.
  intros H. induction xs as [|x xs IH]; [reflexivity|]. cbn [flat_map find].
  assert (E : forall l m, find P (l ++ m)%list = match find P l with Some y => Some y | None => find P m end).
  { clear. induction l as [|y l IH]; intros m; [reflexivity|]. cbn. destruct (P y); [reflexivity|apply IH]. }
  rewrite E, H. destruct (p x); [reflexivity|exact IH].
Qed.
Lemma find_max_found v cur l ms m : map_outcome (fun s => from_max_composed (trim_slashes s)) l = Ok ms ->
  find (fun m => negb (some_negative (distances_to v m))) ms = Some m -> find_max v cur l = Ok (distances_to v m).
Proof.
  revert cur ms. induction l as [|s l IH]; intros cur ms H F; cbn in H.
  - injection H as <-. discriminate.
  - destruct (from_max_composed (trim_slashes s)) as [x| |] eqn:E; cbn in H; try discriminate.
    destruct (map_outcome _ l) as [xs| |] eqn:E'; cbn in H; try discriminate. injection H as <-.
    cbn [find_max]. rewrite E. cbn [obind]. cbn [find] in F. destruct (some_negative (distances_to v x)); cbn in F.
    + apply (IH _ xs eq_refl F).
    + injection F as <-. reflexivity.
Qed.
(** Highest vectors by group. *)
Definition t1 : Type := string * string * string.
Definition t2 : Type := string * string.
Definition t36 : Type := string * string * string * string * string * string.
Definition highest1 (k : nat) : list t1 :=
  match k with
  | 0 => [("N", "N", "N")] | 1 => [("A", "N", "N"); ("N", "L", "N"); ("N", "N", "P")] | 2 => [("P", "N", "N"); ("A", "L", "P")] | _ => [] end.
Definition highest2 (k : nat) : list t2 := match k with 0 => [("L", "N")] | 1 => [("H", "N"); ("L", "P")] | _ => [] end.
Definition highest36 (k3 k6 : nat) : list t36 :=
  match k3, k6 with
  | 0, 0 => [("H", "H", "H", "H", "H", "H")]
  | 0, 1 => [("H", "H", "L", "M", "M", "H"); ("H", "H", "H", "M", "M", "M")]
  | 1, 0 => [("L", "H", "H", "H", "H", "H"); ("H", "L", "H", "H", "H", "H")]
  | 1, 1 => [("L", "H", "L", "H", "M", "H"); ("L", "H", "H", "H", "M", "M"); ("H", "L", "H", "M", "H", "M"); ("H", "L", "L", "M", "H", "H"); ("L", "L", "H", "H", "H", "M")]
  | 2, 1 => [("L", "L", "L", "H", "H", "H")]
  | _, _ => []
  end.
Definition highest4 (k : nat) : list t1 := match k with 0 => [("H", "S", "S")] | 1 => [("H", "H", "H")] | 2 => [("L", "L", "L")] | _ => [] end.
Definition highest5 (k : nat) : string := match k with 0 => "A" | 1 => "P" | _ => "U" end.
Definition compose (a : t1) (b : t2) (c : t36) (d : t1) (e : string) : scoring :=
  let '(av, pr, ui) := a in let '(ac, at_) := b in let '(vc, vi, va, cr, ir, ar) := c in let '(sc, si, sa) := d in
  mkS ac at_ av pr sa sc si ui va vc vi e ar cr ir.
Definition composed (k1 k2 k3 k4 k5 k6 : nat) : list scoring :=
  flat_map (fun a => flat_map (fun b => flat_map (fun c => flat_map (fun d => [compose a b c d (highest5 k5)]) (highest4 k4)) (highest36 k3 k6)) (highest2 k2)) (highest1 k1).
Definition neg (level : string -> f64) (x y : string) : bool := flt (fsub (level x) (level y)) lit_0.
Definition ok1 (v : t1) (a : t1) : bool :=
  let '(av, pr, ui) := v in let '(av', pr', ui') := a in
  negb (neg level_av av av') && negb (neg level_pr pr pr') && negb (neg level_ui ui ui').
Definition ok2 (v : t2) (a : t2) : bool :=
  let '(ac, at_) := v in let '(ac', at') := a in negb (neg level_ac ac ac') && negb (neg level_at at_ at').
Definition ok36 (v a : t36) : bool :=
  let '(vc, vi, va, cr, ir, ar) := v in let '(vc', vi', va', cr', ir', ar') := a in
  negb (neg level_v vc vc') && negb (neg level_v vi vi') && negb (neg level_v va va') &&
  negb (neg level_r cr cr') && negb (neg level_r ir ir') && negb (neg level_r ar ar').
Definition ok4 (v a : t1) : bool :=
  let '(sc, si, sa) := v in let '(sc', si', sa') := a in
  negb (neg level_sc sc sc') && negb (neg level_s si si') && negb (neg level_s sa sa').
Definition p1 (s : scoring) : t1 := (s_av s, s_pr s, s_ui s).
Definition p2 (s : scoring) : t2 := (s_ac s, s_at s).
Definition p36 (s : scoring) : t36 := (s_vc s, s_vi s, s_va s, s_cr s, s_ir s, s_ar s).
Definition p4 (s : scoring) : t1 := (s_sc s, s_si s, s_sa s).
Lemma negative_split s a b c d e : negb (some_negative (distances_to s (compose a b c d e))) = ok1 (p1 s) a && (ok2 (p2 s) b && (ok36 (p36 s) c && ok4 (p4 s) d)).
Proof.
  destruct a as [[av pr] ui], b as [ac at_], c as [[[[[vc vi] va] cr] ir] ar], d as [[sc si] sa].
  unfold some_negative, distances_to, ok1, ok2, ok36, ok4, p1, p2, p36, p4, compose. cbn [d_av d_pr d_ui d_ac d_at d_vc d_vi d_va d_sc d_si d_sa d_cr d_ir d_ar s_av s_pr s_ui s_ac s_at s_vc s_vi s_va s_sc s_si s_sa s_cr s_ir s_ar].
  fold (neg level_av (s_av s) av). fold (neg level_pr (s_pr s) pr). fold (neg level_ui (s_ui s) ui). fold (neg level_ac (s_ac s) ac). fold (neg level_at (s_at s) at_).
  fold (neg level_v (s_vc s) vc). fold (neg level_v (s_vi s) vi). fold (neg level_v (s_va s) va). fold (neg level_sc (s_sc s) sc). fold (neg level_s (s_si s) si). fold (neg level_s (s_sa s) sa).
  fold (neg level_r (s_cr s) cr). fold (neg level_r (s_ir s) ir). fold (neg level_r (s_ar s) ar).
  generalize (neg level_av (s_av s) av), (neg level_pr (s_pr s) pr), (neg level_ui (s_ui s) ui), (neg level_ac (s_ac s) ac), (neg level_at (s_at s) at_),
    (neg level_v (s_vc s) vc), (neg level_v (s_vi s) vi), (neg level_v (s_va s) va), (neg level_sc (s_sc s) sc), (neg level_s (s_si s) si), (neg level_s (s_sa s) sa),
    (neg level_r (s_cr s) cr), (neg level_r (s_ir s) ir), (neg level_r (s_ar s) ar).
  intros x1 x2 x3 x4 x5 x6 x7 x8 x9 x10 x11 x12 x13 x14.
  rewrite !negb_orb, !andb_assoc. destruct x1, x2, x3, x4, x5; cbn [negb andb]; try reflexivity. destruct x6, x7, x8; cbn [negb andb]; try reflexivity.
  destruct x9, x10, x11, x12, x13, x14; reflexivity.
Qed.
Lemma find_composed s k1 k2 k3 k4 k5 k6 a b c d :
  find (ok1 (p1 s)) (highest1 k1) = Some a -> find (ok2 (p2 s)) (highest2 k2) = Some b ->
  find (ok36 (p36 s)) (highest36 k3 k6) = Some c -> find (ok4 (p4 s)) (highest4 k4) = Some d ->
  find (fun m => negb (some_negative (distances_to s m))) (composed k1 k2 k3 k4 k5 k6) = Some (compose a b c d (highest5 k5)).
Proof.
  intros A B C D. unfold composed. set (P := fun m => negb (some_negative (distances_to s m))). set (e := highest5 k5).
  rewrite (find_flat_map P _ (ok1 (p1 s)) (fun a => compose a b c d e)); [rewrite A; reflexivity|]. intros a'.
  rewrite (find_flat_map P _ (fun b' => ok1 (p1 s) a' && ok2 (p2 s) b') (fun b => compose a' b c d e));
    [rewrite find_and, B; destruct (ok1 (p1 s) a'); reflexivity|]. intros b'.
  rewrite (find_flat_map P _ (fun c' => (ok1 (p1 s) a' && ok2 (p2 s) b') && ok36 (p36 s) c') (fun c => compose a' b' c d e));
    [rewrite find_and, C; destruct (ok1 (p1 s) a' && ok2 (p2 s) b'); reflexivity|]. intros c'.
  rewrite (find_flat_map P _ (fun d' => ((ok1 (p1 s) a' && ok2 (p2 s) b') && ok36 (p36 s) c') && ok4 (p4 s) d') (fun d => compose a' b' c' d e));
    [rewrite find_and, D; destruct ((ok1 (p1 s) a' && ok2 (p2 s) b') && ok36 (p36 s) c'); reflexivity|]. intros d'.
  cbn [find]. unfold P. rewrite negative_split, !andb_assoc. destruct (_ && _); reflexivity.
Qed.

(** The strings of [max_composed] read back as these vectors. *)
Definition all_classes : list (nat * nat * nat * nat * nat * nat) :=
  flat_map (fun k1 => flat_map (fun k2 => flat_map (fun k36 => flat_map (fun k4 => map (fun k5 => (k1, k2, fst k36, k4, k5, snd k36)) [0; 1; 2]) [0; 1; 2])
    [(0, 0); (0, 1); (1, 0); (1, 1); (2, 1)]) [0; 1]) [0; 1; 2].
Definition vectors (k1 k2 k3 k4 k5 k6 : nat) : outcome (list string) :=
  let? max1 := max_composed (Eq1 k1) in
  let? max2 := max_composed (Eq2 k2) in
  let? max36 := max_composed (Eq3Eq6 k3 k6) in
  let? max4 := max_composed (Eq4 k4) in
  let? max5 := max_composed (Eq5 k5) in
  Ok (flat_map (fun a => flat_map (fun b => flat_map (fun c => flat_map (fun d => map (fun e =>
    String.append a (String.append b (String.append c (String.append d e)))) max5) max4) max36) max2) max1).
Definition scoring_eqb (s t : scoring) : bool :=
  forallb (fun f => String.eqb (f s) (f t)) [s_ac; s_at; s_av; s_pr; s_sa; s_sc; s_si; s_ui; s_va; s_vc; s_vi; s_e; s_ar; s_cr; s_ir].
Lemma scoring_eqb_eq s t : scoring_eqb s t = true -> s = t.
Proof.
  destruct s as [a1 a2 a3 a4 a5 a6 a7 a8 a9 a10 a11 a12 a13 a14 a15], t as [b1 b2 b3 b4 b5 b6 b7 b8 b9 b10 b11 b12 b13 b14 b15].
  unfold scoring_eqb. cbn [forallb s_ac s_at s_av s_pr s_sa s_sc s_si s_ui s_va s_vc s_vi s_e s_ar s_cr s_ir].
  rewrite !andb_true_iff, !String.eqb_eq. intros H. decompose [and] H. subst. reflexivity.
Qed.
Fixpoint list_eqb {A} (eqb : A -> A -> bool) (a b : list A) : bool :=
  match a, b with [], [] => true | x :: a, y :: b => eqb x y && list_eqb eqb a b | _, _ => false end.
Lemma list_eqb_eq {A} (eqb : A -> A -> bool) : (forall x y, eqb x y = true -> x = y) -> forall a b, list_eqb eqb a b = true -> a = b.
Proof.
  intros E. induction a as [|x a IH]; intros [|y b] H; cbn in H; try discriminate; [reflexivity|].
  apply andb_true_iff in H as [H1 H2]. rewrite (E _ _ H1), (IH _ H2). reflexivity.
Qed.
Definition parsed_ok (k : nat * nat * nat * nat * nat * nat) : bool :=
  let '(k1, k2, k3, k4, k5, k6) := k in
  match vectors k1 k2 k3 k4 k5 k6 with
  | Ok l => match map_outcome (fun s => from_max_composed (trim_slashes s)) l with Ok ms => list_eqb scoring_eqb ms (composed k1 k2 k3 k4 k5 k6) | _ => false end
  | _ => false
  end.
Lemma parsed_all : forallb parsed_ok all_classes = true.
Proof. vm_cast_no_check (eq_refl true). Qed.
Lemma classes_in s : In (eq1 s, eq2 s, eq3 s, eq4 s, eq5 s, eq6 s) all_classes.
Proof.
  assert (A : In (eq1 s) [0; 1; 2]) by (unfold eq1; repeat match goal with |- context [if ?b then _ else _] => destruct b end; cbn; auto).
  assert (B : In (eq2 s) [0; 1]) by (unfold eq2; repeat match goal with |- context [if ?b then _ else _] => destruct b end; cbn; auto).
  assert (D : In (eq4 s) [0; 1; 2]) by (unfold eq4; repeat match goal with |- context [if ?b then _ else _] => destruct b end; cbn; auto).
  assert (F : In (eq5 s) [0; 1; 2]) by (unfold eq5; repeat match goal with |- context [if ?b then _ else _] => destruct b end; cbn; auto).
  assert (C : In (eq3 s, eq6 s) [(0, 0); (0, 1); (1, 0); (1, 1); (2, 1)]).
  { unfold eq3, eq6. destruct (String.eqb (s_vc s) "H"), (String.eqb (s_vi s) "H"), (String.eqb (s_va s) "H");
      cbn [andb orb]; rewrite ?andb_false_r, ?andb_true_r; cbn [andb orb];
      repeat match goal with |- context [if ?b then _ else _] => destruct b end; cbn; auto 8. }
  unfold all_classes. apply in_flat_map. exists (eq1 s). split; [exact A|]. apply in_flat_map. exists (eq2 s). split; [exact B|].
  apply in_flat_map. exists (eq3 s, eq6 s). split; [exact C|]. apply in_flat_map. exists (eq4 s). split; [exact D|].
  apply in_map_iff. exists (eq5 s). split; [reflexivity|exact F].
Qed.
