(** [Vec::sort] and [Vec::dedup] (OsvAdvModel.sort_list, dedup): the sorted set of the elements, whatever their order. *)
From Coq Require Import List NArith Ascii String Bool Permutation Sorted.
From Verif Require Import Base StrLib IdModel OsvAdvModel.
Import ListNotations.

Definition pair_cmp {A B} (ca : A -> A -> comparison) (cb : B -> B -> comparison) (x y : A * B) : comparison :=
  then_cmp (ca (fst x) (fst y)) (cb (snd x) (snd y)).
Lemma pair_cmp_laws {A B} (ca : A -> A -> comparison) (cb : B -> B -> comparison) : cmp_laws ca -> cmp_laws cb -> cmp_laws (pair_cmp ca cb).
Proof.
  intros LA LB. unfold pair_cmp, then_cmp. constructor.
  - intros [a b] [a' b']. cbn [fst snd]. destruct (ca a a') eqn:E.
    + apply (cmp_eq ca LA) in E. subst a'. rewrite (cmp_eq_iff cb LB). split; congruence.
    + split; [discriminate|]. intros [= -> ->]. rewrite (cmp_refl ca LA) in E. discriminate.
    + split; [discriminate|]. intros [= -> ->]. rewrite (cmp_refl ca LA) in E. discriminate.
  - intros [a b] [a' b']. cbn [fst snd]. rewrite (cmp_antisym ca LA a a'), (cmp_antisym cb LB b b'). destruct (ca a a'); reflexivity.
  - intros [a b] [a' b'] [a'' b'']. cbn [fst snd]. intros H1 H2.
    destruct (ca a a') eqn:E1; try discriminate; destruct (ca a' a'') eqn:E2; try discriminate.
    + apply (cmp_eq ca LA) in E1, E2. subst. rewrite (cmp_refl ca LA). exact (cmp_trans_lt cb LB _ _ _ H1 H2).
    + apply (cmp_eq ca LA) in E1. subst. rewrite E2. reflexivity.
    + apply (cmp_eq ca LA) in E2. subst. rewrite E1. reflexivity.
    + rewrite (cmp_trans_lt ca LA _ _ _ E1 E2). reflexivity.
Qed.
Lemma opt_cmp_laws : cmp_laws opt_cmp.
Proof.
  constructor.
  - intros [x|] [y|]; cbn; try (split; congruence). rewrite N.compare_eq_iff. split; congruence.
  - intros [x|] [y|]; cbn; try reflexivity. apply N.compare_antisym.
  - intros [x|] [y|] [z|]; cbn; try congruence. apply (cmp_trans_lt _ N_cmp_laws).
Qed.
Lemma id_cmp_laws : cmp_laws id_cmp.
Proof.
  assert (L : cmp_laws (fun a b : adv_id => pair_cmp N.compare (pair_cmp opt_cmp str_cmp)
     (kind_rank (id_kind_of a), (id_year a, id_string a)) (kind_rank (id_kind_of b), (id_year b, id_string b)))).
  { refine (map_cmp_laws (fun a : adv_id => (kind_rank (id_kind_of a), (id_year a, id_string a))) _ _ _).
    - intros [k y s] [k' y' s'] H. cbn [id_kind_of id_year id_string] in H. injection H as E -> ->. destruct k, k'; try discriminate; reflexivity.
    - apply pair_cmp_laws; [exact N_cmp_laws|]. apply pair_cmp_laws; [exact opt_cmp_laws|exact str_cmp_laws]. }
  assert (E : forall a b, id_cmp a b = pair_cmp N.compare (pair_cmp opt_cmp str_cmp)
     (kind_rank (id_kind_of a), (id_year a, id_string a)) (kind_rank (id_kind_of b), (id_year b, id_string b))).
  { intros a b. unfold id_cmp, pair_cmp, then_cmp. cbn [fst snd]. destruct (N.compare _ _); [|reflexivity|reflexivity]. destruct (opt_cmp _ _); reflexivity. }
  constructor; intros; rewrite ?E in *; [apply (cmp_eq_iff _ L)|apply (cmp_antisym _ L)|eapply (cmp_trans_lt _ L); eassumption].
Qed.

Section Sorted.
  Context {A : Type} (c : A -> A -> comparison) (L : cmp_laws c).
  Lemma insert_in x l y : In y (insert_sorted c x l) <-> y = x \/ In y l.
  Proof.
    induction l as [|z l IH]; cbn [insert_sorted]; [cbn; intuition congruence|]. destruct (c x z); cbn [In]; rewrite ?IH; intuition congruence.
  Qed.
  Lemma insert_length x l : List.length (insert_sorted c x l) = S (List.length l).
  Proof. induction l as [|z l IH]; cbn [insert_sorted]; [reflexivity|]. destruct (c x z); cbn [List.length]; congruence. Qed.
  Lemma sort_in l y : In y (sort_list c l) <-> In y l.
  Proof. induction l as [|x l IH]; cbn [sort_list fold_right In]; [tauto|]. fold (sort_list c l). rewrite insert_in, IH. intuition congruence. Qed.
  Lemma insert_sorted_sorted x l : StronglySorted (cle c) l -> StronglySorted (cle c) (insert_sorted c x l).
  Proof.
    induction l as [|z l IH]; intros S; cbn [insert_sorted]; [constructor; constructor|]. inversion S as [|? ? S' F]; subst.
    destruct (c x z) eqn:E.
    - constructor; [exact S|]. constructor; [unfold cle; congruence|]. apply Forall_forall. intros y Y. rewrite Forall_forall in F.
      eapply (cle_trans c L); [|exact (F y Y)]. unfold cle; congruence.
    - constructor; [exact S|]. constructor; [unfold cle; congruence|]. apply Forall_forall. intros y Y. rewrite Forall_forall in F.
      eapply (cle_trans c L); [|exact (F y Y)]. unfold cle; congruence.
    - constructor; [exact (IH S')|]. apply Forall_forall. intros y Y. apply insert_in in Y as [->|Y].
      + unfold cle. rewrite (cmp_antisym c L x z), E. discriminate.
      + rewrite Forall_forall in F. exact (F y Y).
  Qed.
  Lemma sort_sorted l : StronglySorted (cle c) (sort_list c l).
  Proof. induction l as [|x l IH]; cbn [sort_list fold_right]; [constructor|]. apply insert_sorted_sorted, IH. Qed.
  Lemma dedup_in l y : In y (dedup c l) <-> In y l.
  Proof.
    induction l as [|x l IH]; [tauto|]. destruct l as [|z l]; [reflexivity|]. change (dedup c (x :: z :: l)) with (match c x z with Eq => dedup c (z :: l) | _ => x :: dedup c (z :: l) end).
    destruct (c x z) eqn:E; [|cbn [In] in *; rewrite IH; tauto|cbn [In] in *; rewrite IH; tauto]. apply (cmp_eq c L) in E. subst z. rewrite IH. cbn [In]. tauto.
  Qed.
  Lemma dedup_sorted l : StronglySorted (cle c) l -> StronglySorted (clt c) (dedup c l).
  Proof.
    induction l as [|x l IH]; intros S; [constructor|]. inversion S as [|? ? S' F]; subst. specialize (IH S'). destruct l as [|z l]; [constructor; constructor|].
    change (dedup c (x :: z :: l)) with (match c x z with Eq => dedup c (z :: l) | _ => x :: dedup c (z :: l) end).
    assert (G : c x z = Lt -> StronglySorted (clt c) (x :: dedup c (z :: l))).
    { intros E. constructor; [exact IH|]. apply Forall_forall. intros y Y. apply (proj1 (dedup_in _ _)) in Y. inversion S' as [|? ? ? F']; subst.
      destruct Y as [<-|Y]; [exact E|]. rewrite Forall_forall in F'. exact (clt_le_trans c L _ _ _ E (F' y Y)). }
    destruct (c x z) eqn:E; [exact IH|exact (G eq_refl)|]. inversion F as [|? ? H]; subst. exfalso. exact (H E).
  Qed.
  Lemma strict_nodup l : StronglySorted (clt c) l -> NoDup l.
  Proof.
    induction 1 as [|x l S IH F]; constructor; [|exact IH]. intros I. rewrite Forall_forall in F. exact (clt_irrefl c L _ (F x I)).
  Qed.
  Lemma strict_unique l : forall l', StronglySorted (clt c) l -> StronglySorted (clt c) l' -> (forall x, In x l <-> In x l') -> l = l'.
  Proof.
    induction l as [|x l IH]; intros [|y l'] S S' H; [reflexivity|exfalso; apply (H y); left; reflexivity|exfalso; apply (H x); left; reflexivity|].
    inversion S as [|? ? S1 F]; subst. inversion S' as [|? ? S1' F']; subst. rewrite Forall_forall in F, F'.
    assert (x = y).
    { destruct (proj1 (H x) (or_introl eq_refl)) as [E|I]; [congruence|]. destruct (proj2 (H y) (or_introl eq_refl)) as [E|I']; [congruence|].
      exfalso. apply (clt_irrefl c L x). exact (clt_trans c L _ _ _ (F y I') (F' x I)). }
    subst y. f_equal. apply IH; try assumption. intros z. split; intros I.
    - destruct (proj1 (H z) (or_intror I)) as [E|I']; [|exact I']. subst z. exfalso. exact (clt_irrefl c L _ (F x I)).
    - destruct (proj2 (H z) (or_intror I)) as [E|I']; [|exact I']. subst z. exfalso. exact (clt_irrefl c L _ (F' x I)).
  Qed.
  Definition sort_set (l : list A) : list A := dedup c (sort_list c l).
  Lemma sort_set_in l y : In y (sort_set l) <-> In y l.
  Proof. unfold sort_set. rewrite dedup_in, sort_in. reflexivity. Qed.
  Lemma sort_set_sorted l : StronglySorted (clt c) (sort_set l).
  Proof. apply dedup_sorted, sort_sorted. Qed.
  Lemma sort_set_nodup l : NoDup (sort_set l).
  Proof. apply strict_nodup, sort_set_sorted. Qed.
  Lemma sort_set_ext l l' : (forall x, In x l <-> In x l') -> sort_set l = sort_set l'.
  Proof. intros H. apply strict_unique; try apply sort_set_sorted. intros x. rewrite !sort_set_in. apply H. Qed.
End Sorted.
Lemma insert_perm {A} (c : A -> A -> comparison) x l : Permutation (x :: l) (insert_sorted c x l).
Proof.
  induction l as [|y l IH]; cbn [insert_sorted]; [reflexivity|]. destruct (c x y); try reflexivity. rewrite perm_swap. apply perm_skip, IH.
Qed.
Lemma sort_perm {A} (c : A -> A -> comparison) l : Permutation l (sort_list c l).
Proof. induction l as [|x l IH]; cbn [sort_list fold_right]; [reflexivity|]. rewrite <- insert_perm. apply perm_skip, IH. Qed.
