(** Order theory of the semver model. *)
From Coq Require Import List NArith Ascii String Bool Lia Arith.
From Verif Require Import Base SemverModel.
Import ListNotations.
Local Open Scope N_scope.

Definition ident_key (a : string) : bool * (nat * string) :=
  (negb (all_digits a), ((if all_digits a then String.length a else 0%nat), a)).

Lemma ident_cmp_key a b :
  ident_cmp a b = pair_cmp bool_cmp (pair_cmp Nat.compare str_cmp) (ident_key a) (ident_key b).
Proof.
  unfold ident_cmp, ident_key, pair_cmp. simpl.
  destruct (all_digits a), (all_digits b); reflexivity.
Qed.

Lemma ident_cmp_laws : cmp_laws ident_cmp.
Proof.
  assert (H : cmp_laws (fun a b => pair_cmp bool_cmp (pair_cmp Nat.compare str_cmp)
                                      (ident_key a) (ident_key b))).
  { apply map_cmp_laws.
    - unfold ident_key; intros x y E; congruence.
    - repeat apply pair_cmp_laws; [apply bool_cmp_laws|apply Nat_cmp_laws|apply str_cmp_laws]. }
  destruct H as [H1 H2 H3].
  constructor; intros; rewrite ?ident_cmp_key in *; eauto.
Qed.

Definition is_nil {A} (l : list A) : bool := match l with [] => true | _ => false end.

Lemma pre_cmp_key a b :
  pre_cmp a b = pair_cmp bool_cmp (list_cmp ident_cmp) (is_nil a, a) (is_nil b, b).
Proof. destruct a, b; reflexivity. Qed.

Lemma pre_cmp_laws : cmp_laws pre_cmp.
Proof.
  assert (H : cmp_laws (fun a b => pair_cmp bool_cmp (list_cmp ident_cmp) (is_nil a, a) (is_nil b, b))).
  { apply (map_cmp_laws (fun a => (is_nil a, a)));
      [intros x y E; congruence|].
    apply pair_cmp_laws; [apply bool_cmp_laws|apply list_cmp_laws, ident_cmp_laws]. }
  destruct H as [H1 H2 H3].
  constructor; intros; rewrite ?pre_cmp_key in *; eauto.
Qed.

(** The part of a version that counts for precedence. *)
Definition core := (N * (N * (N * list string)))%type.
Definition core_of (v : version) : core := (major v, (minor v, (patch v, pre v))).
Definition core_cmp : core -> core -> comparison :=
  pair_cmp N.compare (pair_cmp N.compare (pair_cmp N.compare pre_cmp)).

Lemma core_cmp_laws : cmp_laws core_cmp.
Proof. repeat apply pair_cmp_laws; auto using N_cmp_laws, pre_cmp_laws. Qed.

Lemma prec_cmp_core a b : prec_cmp a b = core_cmp (core_of a) (core_of b).
Proof. reflexivity. Qed.

Definition version_core_inj (a b : version) :
  core_of a = core_of b -> build a = build b -> a = b.
Proof. destruct a, b; unfold core_of; simpl; congruence. Qed.

Lemma build_cmp_nil_l b : build_cmp [] b <> Gt.
Proof. destruct b; simpl; discriminate. Qed.
Lemma build_cmp_nil_r b : build_cmp b [] <> Lt.
Proof. destruct b; simpl; discriminate. Qed.

Lemma version_ltb_core v b :
  build b = [] -> version_ltb v b = true <-> core_cmp (core_of v) (core_of b) = Lt.
Proof.
  intros Hb. unfold version_ltb, version_cmp. rewrite prec_cmp_core, Hb. unfold then_cmp.
  pose proof (build_cmp_nil_r (build v)).
  destruct (core_cmp (core_of v) (core_of b)); try (split; congruence).
  destruct (build_cmp (build v) []); split; congruence.
Qed.

Lemma version_leb_core b v :
  build b = [] -> version_leb b v = true <-> core_cmp (core_of b) (core_of v) <> Gt.
Proof.
  intros Hb. unfold version_leb, version_cmp. rewrite prec_cmp_core, Hb. unfold then_cmp.
  pose proof (build_cmp_nil_l (build v)).
  destruct (core_cmp (core_of b) (core_of v)); try (split; congruence).
  destruct (build_cmp [] (build v)); split; congruence.
Qed.

Lemma version_cmp_core a b :
  build a = [] -> build b = [] -> version_cmp a b = core_cmp (core_of a) (core_of b).
Proof.
  intros Ha Hb. unfold version_cmp. rewrite prec_cmp_core, Ha, Hb. unfold then_cmp.
  destruct (core_cmp _ _); reflexivity.
Qed.

Lemma version_eqb_core a b :
  build a = [] -> build b = [] -> version_eqb a b = true <-> core_of a = core_of b.
Proof.
  intros Ha Hb. unfold version_eqb. rewrite version_cmp_core by assumption.
  rewrite <- (cmp_eq_iff _ core_cmp_laws). destruct (core_cmp _ _); split; congruence.
Qed.

(** Well-formedness needed for the successor lemma. *)
Definition pre_wf (p : list string) : bool := forallb ident_wf p.
Definition core_wf (c : core) : Prop := forallb ident_wf (snd (snd (snd c))) = true.

Lemma ident_wf_nonempty s : ident_wf s = true -> s <> ""%string.
Proof. intros H ->. discriminate. Qed.

(** "0" is the least identifier. *)
Lemma ident_zero_least s : ident_wf s = true -> ident_cmp s "0" <> Lt.
Proof.
  intros Hwf. destruct s as [|a r]; [discriminate|].
  unfold ident_cmp. change (all_digits "0") with true. cbv iota.
  destruct (all_digits (String a r)) eqn:E; [|discriminate].
  destruct r as [|b r]; [|simpl; discriminate].
  unfold all_digits in E. simpl in E. rewrite andb_true_r in E.
  unfold is_digit in E. apply andb_prop in E as [E _]. apply N.leb_le in E.
  simpl. unfold ascii_cmp. change (N_of_ascii "0") with 48%N.
  destruct (N.compare_spec (N_of_ascii a) 48) as [He|He|He]; simpl; try discriminate.
  exfalso. lia.
Qed.

Lemma then_cmp_lt a b : then_cmp a b = Lt <-> a = Lt \/ (a = Eq /\ b = Lt).
Proof. destruct a; simpl; intuition congruence. Qed.

Lemma then_cmp_gt a b : then_cmp a b = Gt <-> a = Gt \/ (a = Eq /\ b = Gt).
Proof. destruct a; simpl; intuition congruence. Qed.

Lemma list_cmp_app_zero p x :
  forallb ident_wf x = true ->
  list_cmp ident_cmp p x = Lt ->
  list_cmp ident_cmp (p ++ ["0"%string]) x <> Gt.
Proof.
  revert x. induction p as [|a p IH]; intros [|b x] Hwf; cbn [app list_cmp]; try discriminate.
  - intros _. simpl in Hwf. apply andb_prop in Hwf as [Hb Hx].
    pose proof (ident_zero_least b Hb) as H0.
    rewrite then_cmp_gt. intros [H|[H H']].
    + apply (cmp_gt_lt _ ident_cmp_laws) in H. contradiction.
    + destruct x; simpl in H'; discriminate.
  - simpl in Hwf. apply andb_prop in Hwf as [Hb Hx].
    rewrite then_cmp_lt, then_cmp_gt. intros [H|[H H']] [G|[G G']]; try congruence.
    revert G'. apply IH; auto.
Qed.

Lemma list_cmp_app_self p (z : string) : list_cmp ident_cmp p (p ++ [z]) = Lt.
Proof.
  induction p as [|a p IH]; simpl; [reflexivity|].
  rewrite (cmp_refl _ ident_cmp_laws). exact IH.
Qed.

(** Successor of a core (in the model: [increment] without the overflow). *)
Definition core_succ (c : core) : core :=
  match c with
  | (a, (b, (p, []))) => (a, (b, (p + 1, ["0"%string])))
  | (a, (b, (p, q))) => (a, (b, (p, q ++ ["0"%string])))
  end.

Lemma core_succ_gt c : core_cmp c (core_succ c) = Lt.
Proof.
  destruct c as [a [b [p q]]]. destruct q as [|i q];
    unfold core_succ, core_cmp, pair_cmp; cbn [fst snd].
  - rewrite !N.compare_refl. simpl. rewrite (proj2 (N.compare_lt_iff _ _)); [reflexivity|lia].
  - rewrite !N.compare_refl. unfold then_cmp at 1 2 3.
    exact (list_cmp_app_self (i :: q) "0"%string).
Qed.

Lemma zero_pre_least q : forallb ident_wf q = true -> pre_cmp ["0"%string] q <> Gt.
Proof.
  destruct q as [|i q]; simpl; [discriminate|]. intros H. apply andb_prop in H as [H _].
  rewrite then_cmp_gt. intros [G|[G G']].
  - apply (cmp_gt_lt _ ident_cmp_laws) in G. apply (ident_zero_least i H G).
  - destruct q; discriminate.
Qed.

Lemma core_succ_least c x : core_wf x -> core_cmp c x = Lt -> core_cmp (core_succ c) x <> Gt.
Proof.
  destruct c as [a [b [p q]]], x as [a' [b' [p' q']]]. unfold core_wf. cbn [fst snd].
  intros Hwf H. unfold core_cmp, pair_cmp in *. cbn [fst snd] in *.
  rewrite !then_cmp_lt in H.
  destruct q as [|i q]; unfold core_succ; cbn [fst snd]; rewrite !then_cmp_gt.
  - rewrite !N.compare_lt_iff, !N.compare_eq_iff in H. rewrite !N.compare_gt_iff, !N.compare_eq_iff.
    destruct H as [H|[H1 [H|[H2 [H|[H3 H]]]]]].
    + lia.
    + lia.
    + intros [G|[G [G'|[G' [G''|[G'' G3]]]]]]; try lia.
      revert G3. apply zero_pre_least; exact Hwf.
    + destruct q'; discriminate.
  - destruct H as [H|[H1 [H|[H2 [H|[H3 H]]]]]].
    1,2,3: rewrite ?N.compare_lt_iff, ?N.compare_eq_iff in *;
           rewrite ?N.compare_gt_iff, ?N.compare_eq_iff; lia.
    rewrite H1, H2, H3. intros [G|[_ [G|[_ [G|[_ G]]]]]]; try discriminate.
    revert G. destruct q' as [|i' q'].
    + simpl. discriminate.
    + change (pre_cmp ((i :: q) ++ ["0"%string]) (i' :: q'))
        with (list_cmp ident_cmp ((i :: q) ++ ["0"%string]) (i' :: q')).
      apply list_cmp_app_zero; [exact Hwf|]. exact H.
Qed.

(** [x < succ c <-> x <= c] for well-formed [x]. *)
Lemma core_lt_succ c x : core_wf x ->
  core_cmp x (core_succ c) = Lt <-> core_cmp x c <> Gt.
Proof.
  intros Hx. split.
  - intros H G. apply (cmp_gt_lt _ core_cmp_laws) in G.
    apply core_succ_least in G; [|exact Hx].
    apply (cmp_lt_gt _ core_cmp_laws) in H. contradiction.
  - intros H. eapply (cle_lt_trans _ core_cmp_laws); [exact H|]. apply core_succ_gt.
Qed.
Lemma core_succ_le c x : core_wf x ->
  core_cmp (core_succ c) x <> Gt <-> core_cmp c x = Lt.
Proof.
  intros Hx. split.
  - intros H. eapply (clt_le_trans _ core_cmp_laws); [apply core_succ_gt|exact H].
  - apply core_succ_least; exact Hx.
Qed.

Lemma core_succ_wf c : core_wf c -> core_wf (core_succ c).
Proof.
  destruct c as [a [b [p q]]]. unfold core_wf. destruct q as [|i q]; [reflexivity|].
  cbn [core_succ fst snd]. rewrite forallb_app. intros ->. reflexivity.
Qed.

Arguments core_succ : simpl never.
Arguments core_of : simpl never.
