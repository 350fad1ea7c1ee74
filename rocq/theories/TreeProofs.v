From Coq Require Import List NArith Ascii String Bool Arith Lia.
From Verif Require Import Base SemverModel SemverFacts StrLib VerText PkgModel UrlModel UrlProofs LockModel LockSpec LockProofs TreeModel TreeSpec PropsLock.
Import ListNotations.

(** ** Orders *)
Definition build_ident_key (a : string) : bool * (nat * (string * nat)) :=
  if all_digits a then (false, (String.length (trim0 a), (trim0 a, String.length a))) else (true, (O, (a, O))).
Definition bik_cmp := pair_cmp bool_cmp (pair_cmp Nat.compare (pair_cmp str_cmp Nat.compare)).
Lemma bik_laws : cmp_laws bik_cmp.
Proof. repeat apply pair_cmp_laws; auto using bool_cmp_laws, Nat_cmp_laws, str_cmp_laws. Qed.
Lemma build_ident_cmp_key a b : build_ident_cmp a b = bik_cmp (build_ident_key a) (build_ident_key b).
Proof.
  unfold build_ident_cmp, build_ident_key, bik_cmp, pair_cmp.
  destruct (all_digits a), (all_digits b); cbn [fst snd bool_cmp then_cmp Nat.compare]; try reflexivity.
  destruct (str_cmp a b); reflexivity.
Qed.
Lemma build_ident_cmp_laws : cmp_laws build_ident_cmp.
Proof.
  constructor.
  - intros; apply build_ident_cmp_eq.
  - intros. rewrite !build_ident_cmp_key. apply (cmp_antisym _ bik_laws).
  - intros x y z. rewrite !build_ident_cmp_key. apply (cmp_trans_lt _ bik_laws).
Qed.
Lemma version_cmp_laws : cmp_laws version_cmp.
Proof.
  pose proof (pair_cmp_laws core_cmp build_cmp core_cmp_laws (list_cmp_laws _ build_ident_cmp_laws)) as P.
  constructor.
  - intros; apply version_cmp_eq.
  - intros x y. apply (cmp_antisym _ P (core_of x, build x) (core_of y, build y)).
  - intros x y z. apply (cmp_trans_lt _ P (core_of x, build x) (core_of y, build y) (core_of z, build z)).
Qed.

Definition source_key (s : source_id) : string * (option string * (nat * option string)) :=
  (s_url s, (s_name s, (source_kind_rank (s_kind s), match s_kind s with SGit _ => s_precise s | _ => None end))).
Definition sk_cmp := pair_cmp str_cmp (pair_cmp (option_cmp str_cmp) (pair_cmp Nat.compare (option_cmp str_cmp))).
Lemma sk_laws : cmp_laws sk_cmp.
Proof. repeat apply pair_cmp_laws; auto using Nat_cmp_laws, str_cmp_laws, option_cmp_laws. Qed.
Lemma source_cmp_key a b : locked_source (Some a) -> locked_source (Some b) -> source_cmp a b = sk_cmp (source_key a) (source_key b).
Proof.
  cbn. intros La Lb. unfold source_cmp, sk_cmp, source_key, pair_cmp. cbn [fst snd]. f_equal. f_equal.
  destruct (s_kind a) as [r| | | | |] eqn:Ka, (s_kind b) as [r'| | | | |] eqn:Kb; try reflexivity.
  destruct (s_precise a) as [x|]; [|exfalso; apply La; eauto]. destruct (s_precise b) as [y|]; [|exfalso; apply Lb; eauto]. reflexivity.
Qed.
Definition dep_key (d : dependency) := (d_name d, (d_version d, option_map source_key (d_source d))).
Definition dk_cmp := pair_cmp str_cmp (pair_cmp version_cmp (option_cmp sk_cmp)).
Lemma dk_laws : cmp_laws dk_cmp.
Proof. repeat apply pair_cmp_laws; auto using str_cmp_laws, version_cmp_laws, option_cmp_laws, sk_laws. Qed.
Lemma dep_cmp_key a b : locked_source (d_source a) -> locked_source (d_source b) -> dep_cmp a b = dk_cmp (dep_key a) (dep_key b).
Proof.
  intros La Lb. unfold dep_cmp, dk_cmp, dep_key, pair_cmp. cbn [fst snd]. f_equal. f_equal.
  destruct (d_source a), (d_source b); cbn [option_map option_cmp]; try reflexivity. apply source_cmp_key; assumption.
Qed.
Lemma dep_cmp_eq d p : dep_cmp d (dep_of_package p) = Eq <-> names_package d p.
Proof.
  unfold dep_cmp, names_package, dep_of_package. cbn [d_name d_version d_source].
  destruct (str_cmp (d_name d) (p_name p)) eqn:E1; cbn [then_cmp].
  - apply (cmp_eq _ str_cmp_laws) in E1. destruct (version_cmp (d_version d) (p_version p)) eqn:E2; cbn [then_cmp].
    + apply version_cmp_eq in E2. unfold same_source, source_eqb.
      destruct (d_source d), (p_source p); cbn [option_cmp]; try (split; [discriminate|tauto]); try tauto.
      destruct (source_cmp s s0); split; try tauto; try discriminate; intros (_ & _ & X); discriminate.
    + split; [discriminate|]. intros (_ & X & _). apply version_cmp_eq in X. congruence.
    + split; [discriminate|]. intros (_ & X & _). apply version_cmp_eq in X. congruence.
  - split; [discriminate|]. intros (X & _). rewrite X, (cmp_refl _ str_cmp_laws) in E1. discriminate.
  - split; [discriminate|]. intros (X & _). rewrite X, (cmp_refl _ str_cmp_laws) in E1. discriminate.
Qed.

(** ** The node map *)
Definition all_locked (m : nodes_map) : Prop := Forall (fun ki => locked_source (d_source (fst ki))) m.
Fixpoint sorted_nodes (m : nodes_map) : Prop :=
  match m with [] => True | (k, _) :: r => Forall (fun ki => dep_cmp k (fst ki) = Lt) r /\ sorted_nodes r end.
Lemma node_insert_in k i m x : Forall (fun ki => dep_cmp k (fst ki) <> Eq) m ->
  In x (node_insert k i m) <-> x = (k, i) \/ In x m.
Proof.
  induction m as [|[a b] m IH]; intros F; [cbn; intuition congruence|]. apply Forall_cons_iff in F as [Fa F]. cbn in Fa.
  cbn [node_insert]. destruct (dep_cmp k a); [congruence|cbn; intuition congruence|]. cbn [In]. rewrite (IH F). tauto.
Qed.
Lemma dep_lt_trans a b c : locked_source (d_source a) -> locked_source (d_source b) -> locked_source (d_source c) ->
  dep_cmp a b = Lt -> dep_cmp b c = Lt -> dep_cmp a c = Lt.
Proof. intros La Lb Lc. rewrite !dep_cmp_key by assumption. apply (cmp_trans_lt _ dk_laws). Qed.
Lemma dep_antisym a b : locked_source (d_source a) -> locked_source (d_source b) -> dep_cmp b a = CompOpp (dep_cmp a b).
Proof. intros La Lb. rewrite !dep_cmp_key by assumption. apply (cmp_antisym _ dk_laws). Qed.
Lemma dep_eq_compat a b c : locked_source (d_source a) -> locked_source (d_source b) -> locked_source (d_source c) ->
  dep_cmp a b = Eq -> dep_cmp a c = dep_cmp b c.
Proof. intros La Lb Lc. rewrite !dep_cmp_key by assumption. intros E. apply (cmp_eq _ dk_laws) in E. rewrite E. reflexivity. Qed.
Lemma node_insert_sorted k i m : locked_source (d_source k) -> all_locked m -> Forall (fun ki => dep_cmp k (fst ki) <> Eq) m ->
  sorted_nodes m -> sorted_nodes (node_insert k i m).
Proof.
  intros Lk. induction m as [|[a b] m IH]; intros Lm F S; [cbn; auto|].
  apply Forall_cons_iff in Lm as [La Lm]. apply Forall_cons_iff in F as [Fa F]. destruct S as [S1 S2]. cbn in La, Fa. cbn [node_insert].
  destruct (dep_cmp k a) eqn:E; [congruence| |].
  - cbn. split; [|split; assumption]. constructor; [exact E|]. rewrite Forall_forall in *. intros x Hx.
    apply (dep_lt_trans k a (fst x)); auto.
  - cbn. split; [|apply IH; assumption]. apply Forall_forall. intros x Hx. apply node_insert_in in Hx; [|exact F].
    rewrite Forall_forall in S1. destruct Hx as [->|Hx]; [|auto]. cbn. rewrite (dep_antisym k a), E by assumption. reflexivity.
Qed.
Lemma node_get_spec k m i : locked_source (d_source k) -> all_locked m -> sorted_nodes m ->
  node_get k m = Some i <-> exists k', In (k', i) m /\ dep_cmp k k' = Eq.
Proof.
  intros Lk. induction m as [|[a b] m IH]; intros Lm S; [cbn; split; [discriminate|intros (? & [] & _)]|].
  apply Forall_cons_iff in Lm as [La Lm]. destruct S as [S1 S2]. cbn in La. cbn [node_get].
  rewrite Forall_forall in S1.
  assert (Lm' := Lm). unfold all_locked in Lm'. rewrite Forall_forall in Lm'.
  destruct (dep_cmp k a) eqn:E.
  - split; [intros H; injection H as <-; exists a; split; [left; reflexivity|exact E]|].
    intros (k' & [H|H] & Ek); [injection H as <- <-; reflexivity|]. exfalso. specialize (S1 _ H). cbn in S1.
    rewrite <- (dep_eq_compat k a k') in S1; auto; [congruence|]. apply (Lm' _ H).
  - split; [discriminate|]. intros (k' & [H|H] & Ek); [injection H as <- <-; congruence|]. exfalso. specialize (S1 _ H). cbn in S1.
    assert (dep_cmp k k' = Lt); [|congruence]. apply (dep_lt_trans k a k'); auto. apply (Lm' _ H).
  - rewrite IH by assumption. split; [intros (k' & H & Ek); exists k'; split; [right; exact H|exact Ek]|].
    intros (k' & [H|H] & Ek); [injection H as <- <-; congruence|]. eauto.
Qed.
Lemma node_insert_locked k i m : locked_source (d_source k) -> all_locked m -> Forall (fun ki => dep_cmp k (fst ki) <> Eq) m -> all_locked (node_insert k i m).
Proof.
  intros Lk Lm F. apply Forall_forall. intros x Hx. apply node_insert_in in Hx; [|exact F]. unfold all_locked in Lm. rewrite Forall_forall in Lm.
  destruct Hx as [->|Hx]; [exact Lk|apply Lm; exact Hx].
Qed.
Lemma add_nodes_spec ps : forall i m, Forall (fun p => locked_source (p_source p)) ps ->
  (forall a b p q, nth_error ps a = Some p -> nth_error ps b = Some q -> names_package (dep_of_package p) q -> a = b) ->
  all_locked m -> sorted_nodes m ->
  (forall p, In p ps -> Forall (fun ki => dep_cmp (dep_of_package p) (fst ki) <> Eq) m) ->
  all_locked (add_nodes i ps m) /\ sorted_nodes (add_nodes i ps m) /\
  forall k j, In (k, j) (add_nodes i ps m) <-> In (k, j) m \/ (exists a p, nth_error ps a = Some p /\ k = dep_of_package p /\ j = (i + a)%nat).
Proof.
  induction ps as [|p ps IH]; intros i m Lp D Lm So F.
  - cbn. split; [exact Lm|]. split; [exact So|]. intros k j. split; [auto|intros [H|(a & q & H & _)]; [exact H|destruct a; discriminate]].
  - apply Forall_cons_iff in Lp as [L1 Lp]. cbn [add_nodes].
    assert (Fp := F p (or_introl eq_refl)).
    destruct (IH (S i) (node_insert (dep_of_package p) i m) Lp) as (H1 & H2 & H3).
    + intros a b x y Ha Hb N. assert (S a = S b) by (apply (D (S a) (S b) x y); assumption). lia.
    + apply node_insert_locked; assumption.
    + apply node_insert_sorted; assumption.
    + intros q Hq. apply Forall_forall. intros x Hx. apply node_insert_in in Hx; [|exact Fp]. destruct Hx as [->|Hx].
      * cbn [fst]. rewrite dep_cmp_eq. intros N. apply In_nth_error in Hq as [a Ha].
        assert (S a = 0%nat); [|lia]. apply (D (S a) 0%nat q p); [exact Ha|reflexivity|exact N].
      * pose proof (F q (or_intror Hq)) as Fq. rewrite Forall_forall in Fq. apply Fq. exact Hx.
    + split; [exact H1|]. split; [exact H2|]. intros k j. rewrite H3, (node_insert_in _ _ _ _ Fp). split.
      * intros [[E|H]|(a & q & Ha & -> & ->)]; [|auto|].
        -- injection E as -> ->. right. exists 0%nat, p. repeat split. lia.
        -- right. exists (S a), q. repeat split; [exact Ha|lia].
      * intros [H|(a & q & Ha & -> & ->)]; [auto|]. destruct a as [|a].
        -- injection Ha as <-. left. left. f_equal. lia.
        -- right. exists a, q. repeat split; [exact Ha|lia].
Qed.
