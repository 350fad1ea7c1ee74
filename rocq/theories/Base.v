(** Shared foundations: outcomes, comparison laws, lexicographic orders.
    Nothing in this file models repository code except where cited. *)
From Coq Require Import List NArith ZArith Ascii String Lia Bool Permutation Sorted Arith.
Import ListNotations.

(** Result of a Rust call: normal value, [Result::Err], or a panic. *)
Inductive outcome (A : Type) : Type :=
| Ok (a : A)
| Err
| Panic.
Arguments Ok {A} a.
Arguments Err {A}.
Arguments Panic {A}.

(** Rust's [?] operator. *)
Definition obind {A B} (x : outcome A) (f : A -> outcome B) : outcome B :=
  match x with Ok a => f a | Err => Err | Panic => Panic end.
Notation "'let?' x ':=' a 'in' b" := (obind a (fun x => b))
  (at level 200, x name, a at level 100, b at level 200).

(** [iter().map(f).collect::<Result<Vec<_>,_>>()]: stops at the first failure. *)
Fixpoint omap {A B} (f : A -> outcome B) (l : list A) : outcome (list B) :=
  match l with
  | [] => Ok []
  | x :: xs => let? y := f x in let? ys := omap f xs in Ok (y :: ys)
  end.

Definition is_ok {A} (x : outcome A) : bool := match x with Ok _ => true | _ => false end.
Definition of_option {A} (x : option A) : outcome A :=
  match x with Some a => Ok a | None => Err end.

(** Laws of a Rust [Ord::cmp]. *)
Record cmp_laws {A} (c : A -> A -> comparison) : Prop := {
  cmp_eq_iff : forall x y, c x y = Eq <-> x = y;
  cmp_antisym : forall x y, c y x = CompOpp (c x y);
  cmp_trans_lt : forall x y z, c x y = Lt -> c y z = Lt -> c x z = Lt
}.

Definition then_cmp (a : comparison) (b : comparison) : comparison :=
  match a with Eq => b | _ => a end.

Fixpoint list_cmp {A} (c : A -> A -> comparison) (l r : list A) : comparison :=
  match l, r with
  | [], [] => Eq
  | [], _ => Lt
  | _, [] => Gt
  | x :: xs, y :: ys => then_cmp (c x y) (list_cmp c xs ys)
  end.

Section Laws.
  Context {A : Type} (c : A -> A -> comparison) (L : cmp_laws c).

  Lemma cmp_refl x : c x x = Eq.
  Proof. apply (cmp_eq_iff c L); reflexivity. Qed.

  Lemma cmp_eq x y : c x y = Eq -> x = y.
  Proof. apply (cmp_eq_iff c L). Qed.

  Lemma cmp_gt_lt x y : c x y = Gt <-> c y x = Lt.
  Proof. rewrite (cmp_antisym c L x y). destruct (c x y); simpl; split; congruence. Qed.

  Lemma cmp_lt_gt x y : c x y = Lt <-> c y x = Gt.
  Proof. rewrite (cmp_antisym c L x y). destruct (c x y); simpl; split; congruence. Qed.

  Definition cle x y := c x y <> Gt.
  Definition clt x y := c x y = Lt.

  Lemma cle_refl x : cle x x.
  Proof. unfold cle; rewrite cmp_refl; discriminate. Qed.
  Lemma cle_lt_eq x y : cle x y <-> clt x y \/ x = y.
  Proof.
    unfold cle, clt. destruct (c x y) eqn:E; split; intros H; try tauto; try congruence.
    - right; apply cmp_eq; exact E.
    - destruct H as [H|H]; [congruence|]. subst. rewrite cmp_refl in E; congruence.
  Qed.
  Lemma clt_trans x y z : clt x y -> clt y z -> clt x z.
  Proof. apply (cmp_trans_lt c L). Qed.
  Lemma clt_irrefl x : ~ clt x x.
  Proof. unfold clt; rewrite cmp_refl; discriminate. Qed.
  Lemma cle_lt_trans x y z : cle x y -> clt y z -> clt x z.
  Proof. rewrite cle_lt_eq. intros [H|H] Hz; [eapply clt_trans; eauto|subst; auto]. Qed.
  Lemma clt_le_trans x y z : clt x y -> cle y z -> clt x z.
  Proof. rewrite cle_lt_eq. intros Hx [H|H]; [eapply clt_trans; eauto|subst; auto]. Qed.
  Lemma clt_le x y : clt x y -> cle x y.
  Proof. unfold clt, cle; congruence. Qed.
  Lemma cle_trans x y z : cle x y -> cle y z -> cle x z.
  Proof.
    rewrite (cle_lt_eq x y). intros [H|H] Hz; [|subst; auto].
    apply clt_le. eapply clt_le_trans; eauto.
  Qed.
  Lemma not_cle x y : ~ cle x y <-> clt y x.
  Proof.
    unfold cle, clt. rewrite <- cmp_gt_lt. destruct (c x y); split; intros H; try congruence;
      exfalso; apply H; discriminate.
  Qed.
  Lemma not_clt x y : ~ clt x y <-> cle y x.
  Proof.
    unfold cle, clt. rewrite (cmp_antisym c L x y).
    destruct (c x y); simpl; split; intros H; try congruence;
      exfalso; apply H; reflexivity.
  Qed.
  Lemma clt_or_cle x y : clt x y \/ cle y x.
  Proof.
    destruct (c x y) eqn:E; [right|left; exact E|right].
    - apply not_clt. unfold clt; congruence.
    - apply not_clt. unfold clt; congruence.
  Qed.
  Lemma cle_antisym x y : cle x y -> cle y x -> x = y.
  Proof.
    rewrite cle_lt_eq. intros [H|H] Hy; [|exact H].
    exfalso. apply (clt_irrefl x). eapply clt_le_trans; eauto.
  Qed.
End Laws.

Lemma N_cmp_laws : cmp_laws N.compare.
Proof.
  constructor; intros.
  - apply N.compare_eq_iff.
  - apply N.compare_antisym.
  - rewrite N.compare_lt_iff in *. lia.
Qed.

Lemma Nat_cmp_laws : cmp_laws Nat.compare.
Proof.
  constructor; intros.
  - apply Nat.compare_eq_iff.
  - apply Nat.compare_antisym.
  - rewrite Nat.compare_lt_iff in *. lia.
Qed.

Lemma list_cmp_laws {A} (c : A -> A -> comparison) : cmp_laws c -> cmp_laws (list_cmp c).
Proof.
  intros L. constructor.
  - induction x as [|x xs IH]; destruct y as [|y ys]; simpl; split; intros H; try congruence.
    + unfold then_cmp in H. destruct (c x y) eqn:E; try congruence.
      apply (cmp_eq c L) in E. apply IH in H. congruence.
    + injection H as -> ->. rewrite (cmp_refl c L). simpl. apply IH; reflexivity.
  - induction x as [|x xs IH]; destruct y as [|y ys]; simpl; try reflexivity.
    rewrite (cmp_antisym c L x y), IH. destruct (c x y); reflexivity.
  - induction x as [|x xs IH]; destruct y as [|y ys]; destruct z as [|z zs]; simpl; try congruence.
    unfold then_cmp. intros H1 H2.
    destruct (c x y) eqn:E1; destruct (c y z) eqn:E2; try congruence.
    + apply (cmp_eq c L) in E1; apply (cmp_eq c L) in E2; subst.
      rewrite (cmp_refl c L). eapply IH; eauto.
    + apply (cmp_eq c L) in E1; subst. rewrite E2. reflexivity.
    + apply (cmp_eq c L) in E2; subst. rewrite E1. reflexivity.
    + rewrite (cmp_trans_lt c L x y z); auto.
Qed.

(** Pull-back of an order along an injective key. *)
Lemma map_cmp_laws {A B} (f : A -> B) (c : B -> B -> comparison) :
  (forall x y, f x = f y -> x = y) -> cmp_laws c -> cmp_laws (fun x y => c (f x) (f y)).
Proof.
  intros Hf L. constructor; intros.
  - rewrite (cmp_eq_iff c L). split; [apply Hf|intros ->; reflexivity].
  - apply (cmp_antisym c L).
  - eapply (cmp_trans_lt c L); eauto.
Qed.

Definition pair_cmp {A B} (c1 : A -> A -> comparison) (c2 : B -> B -> comparison)
  (x y : A * B) : comparison := then_cmp (c1 (fst x) (fst y)) (c2 (snd x) (snd y)).

Lemma pair_cmp_laws {A B} (c1 : A -> A -> comparison) (c2 : B -> B -> comparison) :
  cmp_laws c1 -> cmp_laws c2 -> cmp_laws (pair_cmp c1 c2).
Proof.
  intros L1 L2. unfold pair_cmp. constructor.
  - intros [a b] [a' b']; simpl. unfold then_cmp. split.
    + destruct (c1 a a') eqn:E; try congruence.
      apply (cmp_eq c1 L1) in E. intros H. apply (cmp_eq c2 L2) in H. congruence.
    + intros H; injection H as -> ->. rewrite (cmp_refl c1 L1). apply (cmp_refl c2 L2).
  - intros [a b] [a' b']; simpl. rewrite (cmp_antisym c1 L1 a a'), (cmp_antisym c2 L2 b b').
    destruct (c1 a a'); reflexivity.
  - intros [a b] [a' b'] [a'' b'']; simpl. unfold then_cmp.
    destruct (c1 a a') eqn:E1; destruct (c1 a' a'') eqn:E2; try congruence; intros H1 H2.
    + apply (cmp_eq c1 L1) in E1; apply (cmp_eq c1 L1) in E2; subst.
      rewrite (cmp_refl c1 L1). eapply (cmp_trans_lt c2 L2); eauto.
    + apply (cmp_eq c1 L1) in E1; subst. rewrite E2. reflexivity.
    + apply (cmp_eq c1 L1) in E2; subst. rewrite E1. reflexivity.
    + rewrite (cmp_trans_lt c1 L1 a a' a''); auto.
Qed.

Definition bool_cmp (a b : bool) : comparison :=
  match a, b with
  | false, true => Lt
  | true, false => Gt
  | _, _ => Eq
  end.
Lemma bool_cmp_laws : cmp_laws bool_cmp.
Proof. constructor; intros; destruct x, y; try destruct z; simpl in *; try split; congruence. Qed.

(** Byte order on strings ([str::cmp]). *)
Definition ascii_cmp (a b : ascii) : comparison := N.compare (N_of_ascii a) (N_of_ascii b).
Lemma ascii_cmp_laws : cmp_laws ascii_cmp.
Proof.
  apply (map_cmp_laws N_of_ascii); [|apply N_cmp_laws].
  intros x y H. rewrite <- (ascii_N_embedding x), <- (ascii_N_embedding y), H. reflexivity.
Qed.

Fixpoint str_cmp (a b : string) : comparison :=
  match a, b with
  | EmptyString, EmptyString => Eq
  | EmptyString, _ => Lt
  | _, EmptyString => Gt
  | String x xs, String y ys => then_cmp (ascii_cmp x y) (str_cmp xs ys)
  end.

Lemma str_cmp_list a b :
  str_cmp a b = list_cmp ascii_cmp (list_ascii_of_string a) (list_ascii_of_string b).
Proof. revert b; induction a; destruct b; simpl; try reflexivity. rewrite IHa. reflexivity. Qed.

Lemma list_ascii_inj a b : list_ascii_of_string a = list_ascii_of_string b -> a = b.
Proof.
  intros H. rewrite <- (string_of_list_ascii_of_string a), <- (string_of_list_ascii_of_string b), H.
  reflexivity.
Qed.

Lemma str_cmp_laws : cmp_laws str_cmp.
Proof.
  pose proof (map_cmp_laws list_ascii_of_string (list_cmp ascii_cmp) list_ascii_inj
                (list_cmp_laws _ ascii_cmp_laws)) as [H1 H2 H3].
  constructor; intros; rewrite ?str_cmp_list in *; eauto.
Qed.

(** Comparison of [option]s as derived by Rust: [None < Some]. *)
Definition option_cmp {A} (c : A -> A -> comparison) (x y : option A) : comparison :=
  match x, y with
  | None, None => Eq
  | None, Some _ => Lt
  | Some _, None => Gt
  | Some a, Some b => c a b
  end.
Lemma option_cmp_laws {A} (c : A -> A -> comparison) : cmp_laws c -> cmp_laws (option_cmp c).
Proof.
  intros L. constructor.
  - intros [x|] [y|]; simpl; split; try congruence.
    + intros H; apply (cmp_eq c L) in H; congruence.
    + intros H; injection H as ->; apply (cmp_refl c L).
  - intros [x|] [y|]; simpl; try reflexivity. apply (cmp_antisym c L).
  - intros [x|] [y|] [z|]; simpl; try congruence. apply (cmp_trans_lt c L).
Qed.
