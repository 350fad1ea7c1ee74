(** CVSS v4 scores: the computation for every MacroVector. *)
From Coq Require Import List NArith ZArith QArith Qround Ascii String Bool Lia SpecFloat.
From Verif Require Import Base StrLib CvssText CvssSpec CvssTextProofs CvssFloat Cvss3 Cvss2 Cvss4Data Cvss4 CvssScoreSpec Cvss4Spec Cvss4Proofs.
Import ListNotations.
Local Open Scope string_scope.
Local Open Scope nat_scope.

(** ** Tables by group *)
Definition of1 (a : t1) : scoring := compose a ("L", "N") ("H", "H", "H", "H", "H", "H") ("H", "H", "H") "A".
Definition of2 (a : t2) : scoring := compose ("N", "N", "N") a ("H", "H", "H", "H", "H", "H") ("H", "H", "H") "A".
Definition of36 (a : t36) : scoring := compose ("N", "N", "N") ("L", "N") a ("H", "H", "H") "A".
Definition of4 (a : t1) : scoring := compose ("N", "N", "N") ("L", "N") ("H", "H", "H", "H", "H", "H") a "A".
Definition pairs {A B} (l : list A) (m : list B) : list (A * B) := flat_map (fun x => map (pair x) m) l.
Lemma pairs_in {A B} (l : list A) (m : list B) x y : In x l -> In y m -> In (x, y) (pairs l m).
Proof. intros I J. apply in_flat_map. exists x. split; [exact I|]. apply in_map. exact J. Qed.
Definition all1 : list t1 := pairs (pairs (values_v4 "AV") (values_v4 "PR")) (values_v4 "UI").
Definition all2 : list t2 := pairs (values_v4 "AC") (values_v4 "AT").
Definition all36 : list t36 :=
  pairs (pairs (pairs (pairs (pairs (values_v4 "VC") (values_v4 "VI")) (values_v4 "VA")) (values_v4 "CR")) (values_v4 "IR")) (values_v4 "AR").
Definition all4 : list t1 := pairs (pairs (values_v4 "SC") (values_v4 "SI")) (values_v4 "SA").
Lemma all_in s : proper s -> In (p1 s) all1 /\ In (p2 s) all2 /\ In (p36 s) all36 /\ In (p4 s) all4.
Proof.
  intros P. unfold p1, p2, p36, p4, all1, all2, all36, all4.
  repeat apply conj; repeat apply pairs_in.
  - exact (P "AV" ltac:(here)).
  - exact (P "PR" ltac:(here)).
  - exact (P "UI" ltac:(here)).
  - exact (P "AC" ltac:(here)).
  - exact (P "AT" ltac:(here)).
  - exact (P "VC" ltac:(here)).
  - exact (P "VI" ltac:(here)).
  - exact (P "VA" ltac:(here)).
  - exact (P "CR" ltac:(here)).
  - exact (P "IR" ltac:(here)).
  - exact (P "AR" ltac:(here)).
  - exact (P "SC" ltac:(here)).
  - exact (P "SI" ltac:(here)).
  - exact (P "SA" ltac:(here)).
Qed.
Definition found {A} (o : option A) : bool := match o with Some _ => true | None => false end.
Lemma found1 : forallb (fun a => found (find (ok1 a) (highest1 (eq1 (of1 a))))) all1 = true.
Proof. vm_cast_no_check (eq_refl true). Qed.
Lemma found2 : forallb (fun a => found (find (ok2 a) (highest2 (eq2 (of2 a))))) all2 = true.
Proof. vm_cast_no_check (eq_refl true). Qed.
Lemma found36 : forallb (fun a => found (find (ok36 a) (highest36 (eq3 (of36 a)) (eq6 (of36 a))))) all36 = true.
Proof. vm_cast_no_check (eq_refl true). Qed.
Lemma found4 : forallb (fun a => found (find (ok4 a) (highest4 (eq4 (of4 a))))) all4 = true.
Proof. vm_cast_no_check (eq_refl true). Qed.
Lemma find_found {A B} (f : A -> option B) l a : forallb (fun a => found (f a)) l = true -> In a l -> exists h, f a = Some h.
Proof. rewrite forallb_forall. intros H I. specialize (H a I). cbv beta in H. destruct (f a); [eauto|discriminate]. Qed.

(** Distances, added as the program adds them. *)
Definition dist1 (v a : t1) : f64 :=
  let '(av, pr, ui) := v in let '(av', pr', ui') := a in
  fadd (fadd (fsub (level_av av) (level_av av')) (fsub (level_pr pr) (level_pr pr'))) (fsub (level_ui ui) (level_ui ui')).
Definition dist2 (v a : t2) : f64 :=
  let '(ac, at_) := v in let '(ac', at') := a in fadd (fsub (level_ac ac) (level_ac ac')) (fsub (level_at at_) (level_at at')).
Definition dist36 (v a : t36) : f64 :=
  let '(vc, vi, va, cr, ir, ar) := v in let '(vc', vi', va', cr', ir', ar') := a in
  fadd (fadd (fadd (fadd (fadd (fsub (level_v vc) (level_v vc')) (fsub (level_v vi) (level_v vi'))) (fsub (level_v va) (level_v va')))
    (fsub (level_r cr) (level_r cr'))) (fsub (level_r ir) (level_r ir'))) (fsub (level_r ar) (level_r ar')).
Definition dist4 (v a : t1) : f64 :=
  let '(sc, si, sa) := v in let '(sc', si', sa') := a in
  fadd (fadd (fsub (level_sc sc) (level_sc sc')) (fsub (level_s si) (level_s si'))) (fsub (level_s sa) (level_s sa')).

Definition row : Type := f64 * Z * bool.
Definition row_eqb (x y : row) : bool :=
  Z.eqb (snd (fst x)) (snd (fst y)) && sf_eqb (fst (fst x)) (fst (fst y)) && Bool.eqb (snd x) (snd y).
Lemma row_eqb_eq x y : row_eqb x y = true -> x = y.
Proof.
  destruct x as [[x1 x2] x3], y as [[y1 y2] y3]. unfold row_eqb. cbn [fst snd]. rewrite !andb_true_iff. intros [[B A] C].
  apply sf_eqb_eq in A as ->. apply Z.eqb_eq in B as ->. apply eqb_prop in C as ->. reflexivity.
Qed.
(** The distances that occur in a class, in floating point and in steps, and
    whether the values mean no impact. *)
Definition rows {A} (all : list A) (inside : A -> bool) (highest : A -> option A) (dist : A -> A -> f64) (count : A -> Z) (none : A -> bool) (low : Z) : list row :=
  nub row_eqb (flat_map (fun a => if inside a then match highest a with Some h => [(dist a h, (count a - low)%Z, none a)] | None => [] end else []) all).
Lemma rows_in {A} all inside highest dist count none low (a h : A) : In a all -> inside a = true -> highest a = Some h ->
  In (dist a h, (count a - low)%Z, none a) (rows all inside highest dist count none low).
Proof.
  intros I J H. apply nub_in; [exact row_eqb_eq|]. apply in_flat_map. exists a. split; [exact I|]. rewrite J, H. left. reflexivity.
Qed.
Definition none36 (a : t36) : bool := let '(vc, vi, va, _, _, _) := a in String.eqb vc "N" && String.eqb vi "N" && String.eqb va "N".
Definition none4 (a : t1) : bool := let '(sc, si, sa) := a in String.eqb sc "N" && String.eqb si "N" && String.eqb sa "N".
Definition rows1 (k : nat) : list row :=
  rows all1 (fun a => Nat.eqb (eq1 (of1 a)) k) (fun a => find (ok1 a) (highest1 k)) dist1 (fun a => steps group1 (val (of1 a))) (fun _ => true) (least (steps1 k)).
Definition rows2 (k : nat) : list row :=
  rows all2 (fun a => Nat.eqb (eq2 (of2 a)) k) (fun a => find (ok2 a) (highest2 k)) dist2 (fun a => steps group2 (val (of2 a))) (fun _ => true) (least (steps2 k)).
Definition rows36 (k3 k6 : nat) : list row :=
  rows all36 (fun a => Nat.eqb (eq3 (of36 a)) k3 && Nat.eqb (eq6 (of36 a)) k6) (fun a => find (ok36 a) (highest36 k3 k6)) dist36
       (fun a => steps group36 (val (of36 a))) none36 (least (steps36 k3 k6)).
Definition rows4 (k : nat) : list row :=
  rows all4 (fun a => Nat.eqb (eq4 (of4 a)) k) (fun a => find (ok4 a) (highest4 k)) dist4 (fun a => steps group4 (val (of4 a))) none4 (least (steps4 k)).

(** Depths of the classes. *)
Definition sev1 (k : nat) : Z := match k with O => 1 | S O => 4 | _ => 5 end%Z.
Definition sev2 (k : nat) : Z := match k with O => 1 | _ => 2 end%Z.
Definition sev36 (k3 k6 : nat) : Z := match k3, k6 with O, O => 7 | O, S _ => 6 | S O, _ => 8 | _, _ => 10 end%Z.
Definition sev4 (k : nat) : Z := match k with O => 6 | S O => 5 | _ => 4 end%Z.
Definition depth_of (l : list Z) : Z := (greatest l - least l + 1)%Z.
Definition depths_ok (k : nat * nat * nat * nat * nat * nat) : bool :=
  let '(k1, k2, k3, k4, k5, k6) := k in
  Z.eqb (depth_of (steps1 k1)) (sev1 k1) && Z.eqb (depth_of (steps2 k2)) (sev2 k2) && Z.eqb (depth_of (steps4 k4)) (sev4 k4).
Lemma depths : forallb depths_ok all_classes = true.
Proof. vm_cast_no_check (eq_refl true). Qed.
Lemma depths36 : forallb (fun k => Z.eqb (depth_of (steps36 (fst k) (snd k))) (sev36 (fst k) (snd k))) [(0, 0); (0, 1); (1, 0); (1, 1); (2, 1)] = true.
Proof. vm_cast_no_check (eq_refl true). Qed.

(** ** The scores of a MacroVector and the next lower ones *)
Lemma lookup_macro a b c d e f : lookup_global a b c d e f = option_map (fun n => dec n 10) (macro a b c d e f).
Proof. unfold lookup_global, macro. destruct (find _ _) as [[k n]|]; reflexivity. Qed.
Definition float_low36 (k1 k2 k3 k4 k5 k6 : nat) : option f64 :=
  if Nat.eqb k3 1 && Nat.eqb k6 1 then lookup_global k1 k2 (S k3) k4 k5 k6
  else if Nat.eqb k3 0 && Nat.eqb k6 1 then lookup_global k1 k2 (S k3) k4 k5 k6
  else if Nat.eqb k3 1 && Nat.eqb k6 0 then lookup_global k1 k2 k3 k4 k5 (S k6)
  else if Nat.eqb k3 0 && Nat.eqb k6 0 then
    let left := lookup_global k1 k2 k3 k4 k5 (S k6) in
    let right := lookup_global k1 k2 (S k3) k4 k5 k6 in
    if option_gt left right then left else right
  else lookup_global k1 k2 (S k3) k4 k5 k6.
Definition exact_low36 (k1 k2 k3 k4 k5 k6 : nat) : option Z :=
  match k3, k6 with
  | 0, 0 => higher (macro k1 k2 0 k4 k5 1) (macro k1 k2 1 k4 k5 0)
  | 0, 1 => macro k1 k2 1 k4 k5 1
  | 1, 0 => macro k1 k2 1 k4 k5 1
  | 1, 1 => macro k1 k2 2 k4 k5 1
  | _, _ => None
  end.
Definition option_eqb {A} (eqb : A -> A -> bool) (x y : option A) : bool :=
  match x, y with Some a, Some b => eqb a b | None, None => true | _, _ => false end.
(** The float and the exact amount that a group takes off, the latter times 840. *)
Definition term (value : f64) (exact : Z) (low : option Z) (sev : Z) (r : row) : row :=
  let '(d, z, b) := r in
  (normalized (option_map (fun n => fsub value (dec n 10)) low) d (fmul (fint sev) lit_0_1),
   match low with Some l => ((exact - l) * z * (840 / sev))%Z | None => 0%Z end, b).
Definition plus (x y : row) : row := let '(f, z, b) := x in let '(g, w, c) := y in (fadd f g, (z + w)%Z, b && c).
Definition plus_all (l m : list row) : list row := nub row_eqb (flat_map (fun x => map (plus x) m) l).
Lemma plus_all_in l m x y : In x l -> In y m -> In (plus x y) (plus_all l m).
Proof. intros I J. apply nub_in; [exact row_eqb_eq|]. apply in_flat_map. exists x. split; [exact I|]. apply in_map. exact J. Qed.
Definition terms (value : f64) (exact : Z) (low : option Z) (sev : Z) (l : list row) : list row := nub row_eqb (map (term value exact low sev) l).
Lemma terms_in value exact low sev l r : In r l -> In (term value exact low sev r) (terms value exact low sev l).
Proof. intros I. apply nub_in; [exact row_eqb_eq|]. apply in_map. exact I. Qed.
Definition float_result (value : f64) (low5 : option Z) (e : Z) (f : f64) : f64 :=
  let n5 := match option_map (fun n => fsub value (dec n 10)) low5 with Some a => fmul a lit_0 | None => lit_0 end in
  fsub value (if Z.eqb e 0 then lit_0 else fdiv (fadd f n5) (fint e)).
Definition exact_result (exact e z : Z) : Z := (if Z.eqb e 0 then exact else (1680 * e * exact - 2 * z + 840 * e) / (1680 * e))%Z.
Definition unscaled (x : f64) : f64 := fround (fmul (fadd (clamp4 x) lit_1e_6) lit_10).
Definition check_row (value : f64) (exact : Z) (low5 : option Z) (e : Z) (r : row) : bool :=
  let '(f, z, b) := r in
  if b : bool then true else
  let n := exact_result exact e z in
  (Z.leb 1 n && Z.leb n 100 && sf_eqb (unscaled (float_result value low5 e f)) (fint n))%bool.
Definition check_macro (k1 k2 k3 k4 k5 k6 : nat) (r1 r2 r36 r4 : list row) : bool :=
  match macro k1 k2 k3 k4 k5 k6 with
  | None => false
  | Some exact =>
      let value := dec exact 10 in
      let low1 := macro (S k1) k2 k3 k4 k5 k6 in
      let low2 := macro k1 (S k2) k3 k4 k5 k6 in
      let low36 := exact_low36 k1 k2 k3 k4 k5 k6 in
      let low4 := macro k1 k2 k3 (S k4) k5 k6 in
      let low5 := macro k1 k2 k3 k4 (S k5) k6 in
      let e := existing (map (option_map (fun n => dec n 10)) [low1; low2; low36; low4; low5]) in
      (option_eqb sf_eqb (float_low36 k1 k2 k3 k4 k5 k6) (option_map (fun n => dec n 10) low36) &&
      forallb (check_row value exact low5 e)
        (plus_all (plus_all (plus_all (terms value exact low1 (sev1 k1) r1) (terms value exact low2 (sev2 k2) r2))
          (terms value exact low36 (sev36 k3 k6) r36)) (terms value exact low4 (sev4 k4) r4)))%bool
  end.
Definition with_rows {A} (rows : A -> list row) (l : list A) : list (A * list row) := map (fun k => (k, rows k)) l.
Definition check_all (all1 all2 all4 : list (nat * list row)) (all36 : list (nat * nat * list row)) : bool :=
  forallb (fun x36 => forallb (fun x1 => forallb (fun x2 => forallb (fun x4 => forallb (fun k5 =>
    check_macro (fst x1) (fst x2) (fst (fst x36)) (fst x4) k5 (snd (fst x36)) (snd x1) (snd x2) (snd x36) (snd x4)) [0; 1; 2]) all4) all2) all1) all36.
Lemma checked4 : check_all (with_rows rows1 [0; 1; 2]) (with_rows rows2 [0; 1]) (with_rows rows4 [0; 1; 2])
  (with_rows (fun k => rows36 (fst k) (snd k)) [(0, 0); (0, 1); (1, 0); (1, 1); (2, 1)]) = true.
Proof. vm_cast_no_check (eq_refl true). Qed.
