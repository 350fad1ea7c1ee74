(** IEEE 754 binary64 arithmetic, for the CVSS scores. The operations are those
    of Coq's [SpecFloat] at precision 53 and maximal exponent 1024 (round to
    nearest, ties to even), which is what Rust's [f64] operators are specified
    to do on every supported target. *)
From Coq Require Import List ZArith QArith Bool Lia SpecFloat.
Import ListNotations.
Local Open Scope Z_scope.

Definition f64 := spec_float.
Definition fadd (a b : f64) : f64 := SFadd 53 1024 a b.
Definition fsub (a b : f64) : f64 := SFsub 53 1024 a b.
Definition fmul (a b : f64) : f64 := SFmul 53 1024 a b.
Definition fdiv (a b : f64) : f64 := SFdiv 53 1024 a b.
Definition flt (a b : f64) : bool := SFltb a b.
Definition fle (a b : f64) : bool := SFleb a b.
Definition feq (a b : f64) : bool := SFeqb a b.
Definition fabs (a : f64) : f64 := SFabs a.
(** An integer of magnitude at most 2^53, exactly. *)
Definition fint (z : Z) : f64 := binary_normalize 53 1024 z 0 false.
(** A decimal literal n/d in the source. With n and d at most 2^53 the division
    is correctly rounded, so this is the double nearest to n/d. *)
Definition dec (n d : Z) : f64 := fdiv (fint n) (fint d).

(** [f64::min] and [f64::max] (standard library). Which zero is returned for
    zeros of opposite sign is unspecified in Rust; the theorems only speak of
    the numeric value. *)
Definition fmin (a b : f64) : f64 :=
  match a, b with S754_nan, _ => b | _, S754_nan => a | _, _ => if flt b a then b else a end.
Definition fmax (a b : f64) : f64 :=
  match a, b with S754_nan, _ => b | _, S754_nan => a | _, _ => if flt a b then b else a end.

(** [x as u64] (standard library): truncation, saturating, NaN to 0. *)
Definition as_u64 (x : f64) : Z :=
  match x with
  | S754_zero _ | S754_nan => 0
  | S754_infinity s => if s then 0 else 2 ^ 64 - 1
  | S754_finite true _ _ => 0
  | S754_finite false m e => Z.min (2 ^ 64 - 1) (if 0 <=? e then Z.pos m * 2 ^ e else Z.pos m / 2 ^ (- e))
  end.
(** [f64::floor]. *)
Definition ffloor (x : f64) : f64 :=
  match x with
  | S754_finite s m e =>
      if 0 <=? e then x else
      let q := (if s then - Z.pos m else Z.pos m) / 2 ^ (- e) in
      if q =? 0 then S754_zero s else fint q
  | _ => x
  end.
(** [f64::round]: half away from zero. *)
Definition fround (x : f64) : f64 :=
  match x with
  | S754_finite s m e =>
      if 0 <=? e then x else
      let q := (2 * Z.pos m + 2 ^ (- e)) / 2 ^ (- e + 1) in
      if q =? 0 then S754_zero s else fint (if s then - q else q)
  | _ => x
  end.

(** [x] raised to the fifteenth power, correctly rounded. *)
Definition pow15 (x : f64) : f64 :=
  match x with
  | S754_finite s m e => binary_normalize 53 1024 (if s then - Z.pos m ^ 15 else Z.pos m ^ 15) (15 * e) s
  | S754_zero s => S754_zero s
  | S754_infinity s => S754_infinity s
  | S754_nan => S754_nan
  end.
(** At most two units in the last place away. *)
Definition near (r p : f64) : Prop :=
  r = p \/ r = SFsucc 53 1024 p \/ r = SFpred 53 1024 p \/
  r = SFsucc 53 1024 (SFsucc 53 1024 p) \/ r = SFpred 53 1024 (SFpred 53 1024 p).
Definition candidates (p : f64) : list f64 :=
  [p; SFsucc 53 1024 p; SFpred 53 1024 p; SFsucc 53 1024 (SFsucc 53 1024 p); SFpred 53 1024 (SFpred 53 1024 p)].
Lemma near_candidates r p : near r p <-> In r (candidates p).
Proof. unfold near, candidates. cbn. intuition. Qed.

(** [f64] numerically equal to n tenths (the double nearest to n/10). *)
Definition tenths (n : Z) (x : f64) : Prop := feq x (dec n 10) = true.

(** ** Facts *)
Lemma feq_cases x y : feq x y = true -> x = y \/ exists s t, x = S754_zero s /\ y = S754_zero t.
Proof.
  unfold feq, SFeqb, SFcompare.
  destruct x as [s|s| |s m e], y as [t|t| |t n f]; try discriminate; try (destruct s; discriminate); try (destruct t; discriminate); eauto.
  - destruct s, t; try discriminate; auto.
  - destruct s, t; try discriminate.
    all: destruct (Z.compare_spec e f) as [->|?|?]; try discriminate.
    all: destruct (Pos.compare_cont Eq m n) eqn:E; try discriminate; change (Pos.compare m n = Eq) in E; apply Pos.compare_eq in E as ->; auto.
Qed.
Lemma feq_compare_l x d y : feq x d = true -> SFcompare x y = SFcompare d y.
Proof. intros H. apply feq_cases in H as [->|(s & t & -> & ->)]; reflexivity. Qed.
Lemma feq_compare_r x d y : feq x d = true -> SFcompare y x = SFcompare y d.
Proof. intros H. apply feq_cases in H as [->|(s & t & -> & ->)]; reflexivity. Qed.
Definition range (n : nat) : list Z := map Z.of_nat (seq 0 n).
Lemma range_in n z : 0 <= z < Z.of_nat n -> In z (range n).
Proof. intros H. apply in_map_iff. exists (Z.to_nat z). rewrite in_seq. lia. Qed.
Definition tenths_up_to_10 : list (Z * f64) := map (fun n => (n, dec n 10)) (range 101).
Lemma tenths_in n : 0 <= n <= 100 -> In (n, dec n 10) tenths_up_to_10.
Proof. intros H. unfold tenths_up_to_10. apply in_map_iff. exists n. split; [reflexivity|apply range_in; lia]. Qed.
Lemma tenths_table :
  (fun l => forallb (fun p => forallb (fun q => Bool.eqb (fle (snd p) (snd q)) (fst p <=? fst q)) l) l) tenths_up_to_10 = true.
Proof. vm_cast_no_check (eq_refl true). Qed.
Lemma tenths_dec_le n m : 0 <= n <= 100 -> 0 <= m <= 100 -> fle (dec n 10) (dec m 10) = (n <=? m).
Proof.
  intros A B. pose proof tenths_table as T. cbv beta in T. rewrite forallb_forall in T. specialize (T _ (tenths_in n A)).
  rewrite forallb_forall in T. specialize (T _ (tenths_in m B)). cbn [fst snd] in T. apply eqb_prop in T. exact T.
Qed.
Lemma tenths_le n m x y : 0 <= n <= 100 -> 0 <= m <= 100 -> tenths n x -> tenths m y -> (fle x y = true <-> n <= m).
Proof.
  intros A B X Y. unfold fle, SFleb. rewrite (feq_compare_l _ _ _ X), (feq_compare_r _ _ _ Y).
  change (fle (dec n 10) (dec m 10) = true <-> n <= m). rewrite tenths_dec_le by assumption. apply Z.leb_le.
Qed.
(** A score has only one value in tenths. *)
Lemma tenths_unique n m x : 0 <= n <= 100 -> 0 <= m <= 100 -> tenths n x -> tenths m x -> n = m.
Proof.
  intros A B X Y. assert (R : fle x x = true) by (apply (tenths_le n n x x A A X X); lia).
  pose proof (proj1 (tenths_le n m x x A B X Y) R). pose proof (proj1 (tenths_le m n x x B A Y X) R). lia.
Qed.

(** ** Tables without repetitions *)
Definition sf_eqb (x y : f64) : bool :=
  match x, y with
  | S754_zero s, S754_zero t | S754_infinity s, S754_infinity t => Bool.eqb s t
  | S754_nan, S754_nan => true
  | S754_finite s m e, S754_finite t n f => Bool.eqb s t && Pos.eqb m n && Z.eqb e f
  | _, _ => false
  end.
Lemma sf_eqb_eq x y : sf_eqb x y = true -> x = y.
Proof.
  destruct x, y; cbn; try discriminate; intros H; repeat match goal with H : _ && _ = true |- _ => apply andb_true_iff in H as [? ?] end;
    repeat match goal with H : Bool.eqb _ _ = true |- _ => apply eqb_prop in H as -> | H : Pos.eqb _ _ = true |- _ => apply Pos.eqb_eq in H as -> | H : Z.eqb _ _ = true |- _ => apply Z.eqb_eq in H as -> end; reflexivity.
Qed.
Lemma sf_eqb_refl x : sf_eqb x x = true.
Proof. destruct x; cbn; rewrite ?eqb_reflx, ?Pos.eqb_refl, ?Z.eqb_refl; reflexivity. Qed.
Definition q_eqb (x y : Q) : bool := Z.eqb (Qnum x) (Qnum y) && Pos.eqb (Qden x) (Qden y).
Lemma q_eqb_eq x y : q_eqb x y = true -> x = y.
Proof. destruct x, y. unfold q_eqb. cbn. intros H. apply andb_true_iff in H as [A B]. apply Z.eqb_eq in A as ->. apply Pos.eqb_eq in B as ->. reflexivity. Qed.
Definition fq_eqb (x y : f64 * Q) : bool := sf_eqb (fst x) (fst y) && q_eqb (snd x) (snd y).
Lemma fq_eqb_eq x y : fq_eqb x y = true -> x = y.
Proof. destruct x, y. unfold fq_eqb. cbn. intros H. apply andb_true_iff in H as [A B]. apply sf_eqb_eq in A as ->. apply q_eqb_eq in B as ->. reflexivity. Qed.
Fixpoint nub {A} (eqb : A -> A -> bool) (l : list A) : list A :=
  match l with [] => [] | x :: r => let r' := nub eqb r in if existsb (eqb x) r' then r' else x :: r' end.
Lemma nub_in {A} (eqb : A -> A -> bool) l x : (forall a b, eqb a b = true -> a = b) -> In x l -> In x (nub eqb l).
Proof.
  intros E. induction l as [|y l IH]; cbn; [tauto|]. intros [->|I].
  - destruct (existsb (eqb x) (nub eqb l)) eqn:X; [|left; reflexivity]. apply existsb_exists in X as (z & I & Z0). apply E in Z0 as ->. exact I.
  - destruct (existsb (eqb y) (nub eqb l)); [|right]; apply IH; exact I.
Qed.
