(** C09 and C06: exactly which lists of ranges are refused, crash, or are accepted. *)
From Coq Require Import List NArith Ascii String Bool Lia Permutation Sorted Arith.
From Verif Require Import Base SemverModel SemverFacts OsvModel OsvSpec OsvLineSpec OsvProofs OsvProofs2 OsvProofs3 OsvProofs4 OsvProofs5.
Import ListNotations.
Local Open Scope N_scope.

(** * Lists *)
Lemma FOP_two {A} (R : A -> A -> Prop) l : ForallOrdPairs R l <-> forall a b, two_of l a b -> R a b.
Proof.
  split.
  - intros H a b (l1 & l2 & l3 & ->). exact (FOP_split _ _ _ _ _ _ H).
  - induction l as [|x l IH]; intros H; constructor.
    + apply Forall_forall. intros y Hy. apply in_split in Hy as (l2 & l3 & ->). apply H. exists [], l2, l3. reflexivity.
    + apply IH. intros a b (l1 & l2 & l3 & ->). apply H. exists (x :: l1), l2, l3. reflexivity.
Qed.
Lemma FOP_perm {A} (R : A -> A -> Prop) l l' : (forall a b, R a b -> R b a) -> Permutation l l' ->
  ForallOrdPairs R l -> ForallOrdPairs R l'.
Proof.
  intros S P. induction P as [|x l l' P IH|x y l|l l' l'' P1 IH1 P2 IH2]; intros H; auto.
  - inversion H as [|? ? H1 H2]; subst. constructor; [|auto]. eapply Permutation_Forall; eassumption.
  - inversion H as [|? ? H1 H2]; subst. inversion H2 as [|? ? H3 H4]; subst. inversion H1 as [|? ? H5 H6]; subst.
    constructor; [constructor; auto|]. constructor; assumption.
Qed.
Lemma FOP_forall2 {A B} (F : A -> B -> Prop) (R : B -> B -> Prop) (S : A -> A -> Prop) l us :
  (forall x y a b, F x a -> F y b -> (R a b <-> S x y)) -> Forall2 F l us ->
  (ForallOrdPairs R us <-> ForallOrdPairs S l).
Proof.
  intros HR HF. induction HF as [|x a l us Fx HF IH]; [split; constructor|].
  assert (K : Forall (R a) us <-> Forall (S x) l).
  { clear IH. induction HF as [|y b l us Fy HF IH]; [split; constructor|].
    split; intros H; inversion H; subst; constructor; try (apply IH; assumption); eapply HR; eassumption. }
  split; intros H; inversion H; subst; constructor; tauto.
Qed.

Lemma omap_app_eq {A B} (f : A -> outcome B) l1 l2 :
  omap f (l1 ++ l2) = (let? a := omap f l1 in let? b := omap f l2 in Ok (a ++ b)).
Proof.
  induction l1 as [|x l1 IH]; cbn [app omap].
  - cbn [obind]. destruct (omap f l2); reflexivity.
  - destruct (f x); cbn [obind]; try reflexivity. rewrite IH. destruct (omap f l1); cbn [obind]; try reflexivity.
    destruct (omap f l2); reflexivity.
Qed.

(** * Places of a range *)
Definition start_ok (s : bound) (x : place) : Prop :=
  match s, x with
  | Unbounded, _ => True
  | _, Bottom => False
  | Inclusive v, At w | Inclusive v, Above w | Exclusive v, Above w => ccmp (core_of v) (core_of w) <> Gt
  | Exclusive v, At w => ccmp (core_of v) (core_of w) = Lt
  end.
Definition end_ok (e : bound) (x : place) : Prop :=
  match e, x with
  | Unbounded, _ | _, Bottom => True
  | Inclusive v, At w => ccmp (core_of w) (core_of v) <> Gt
  | Inclusive v, Above w | Exclusive v, At w | Exclusive v, Above w => ccmp (core_of w) (core_of v) = Lt
  end.
Definition start_place (s : bound) : place :=
  match s with Unbounded => Bottom | Inclusive v => At v | Exclusive v => Above v end.

Lemma le_start_end s e : bound_good s -> bound_good e -> less_or_equal s e = true <-> end_ok e (start_place s).
Proof.
  intros Gs Ge. rewrite (less_or_equal_spec s e Gs Ge).
  destruct s as [|a|a], e as [|b|b]; cbn; tauto.
Qed.
Lemma start_place_ok s : start_ok s (start_place s).
Proof. destruct s as [|a|a]; cbn; try exact I; rewrite (cmp_refl _ CL); discriminate. Qed.
Lemma start_total s1 s2 : start_ok s1 (start_place s2) \/ start_ok s2 (start_place s1).
Proof.
  destruct s1 as [|a|a], s2 as [|b|b]; cbn; try (left; exact I); try (right; exact I);
    rewrite (cmp_antisym _ CL (core_of b) (core_of a));
    destruct (ccmp (core_of b) (core_of a)) eqn:E; cbn; (left; (discriminate || reflexivity)) || (right; (discriminate || reflexivity)).
Qed.
Lemma between s e x : bound_good s -> bound_good e -> start_ok s x -> end_ok e x -> less_or_equal s e = true.
Proof.
  intros Gs Ge Hs He. rewrite (less_or_equal_spec s e Gs Ge).
  destruct s as [|a|a], e as [|b|b], x as [|w|w]; cbn in Hs, He; try exact I; try contradiction.
  all: first
    [ solve [apply (cle_lt_trans _ CL _ (core_of w)); [first [exact Hs | intros K; rewrite Hs in K; discriminate]|exact He]]
    | solve [apply (clt_le_trans _ CL _ (core_of w)); [exact Hs|exact He]]
    | solve [apply (cle_trans _ CL _ (core_of w)); [first [exact Hs | intros K; rewrite Hs in K; discriminate]|first [exact He | intros K; rewrite He in K; discriminate]]] ].
Qed.
Lemma overlaps_place a b : u_good a -> u_good b ->
  (overlaps a b = true <->
   exists x, (x = start_place (u_start a) \/ x = start_place (u_start b)) /\
     (start_ok (u_start a) x /\ end_ok (u_end a) x) /\ (start_ok (u_start b) x /\ end_ok (u_end b) x)).
Proof.
  intros (A1 & A2 & A3) (B1 & B2 & B3). unfold overlaps. rewrite andb_true_iff.
  rewrite (le_start_end _ _ A1 B2), (le_start_end _ _ B1 A2). apply (le_start_end _ _ A1 A2) in A3. apply (le_start_end _ _ B1 B2) in B3.
  split.
  - intros [H1 H2]. destruct (start_total (u_start a) (u_start b)) as [H|H].
    + exists (start_place (u_start b)). pose proof (start_place_ok (u_start b)). tauto.
    + exists (start_place (u_start a)). pose proof (start_place_ok (u_start a)). tauto.
  - intros (x & _ & (X1 & X2) & (Y1 & Y2)). rewrite <- (le_start_end _ _ A1 B2), <- (le_start_end _ _ B1 A2).
    split; eapply between; eassumption.
Qed.

(** * The places of a range are those its requirement covers *)
Lemma start_at s w : start_ok s (At w) <-> ~ below_start s (core_of w).
Proof.
  destruct s as [|a|a]; cbn; [tauto| |]; rewrite (cmp_antisym _ CL (core_of a) (core_of w));
    destruct (ccmp (core_of a) (core_of w)); cbn; intuition congruence.
Qed.
Lemma end_at e w : end_ok e (At w) <-> ~ above_end e (core_of w).
Proof.
  destruct e as [|a|a]; cbn; [tauto| |]; rewrite (cmp_antisym _ CL (core_of w) (core_of a));
    destruct (ccmp (core_of w) (core_of a)); cbn; intuition congruence.
Qed.

Lemma req_covers_one c x : req_covers [c] x <-> comparator_covers c x.
Proof. unfold req_covers. split; [intros H; apply H; left; reflexivity|intros H d [<-|[]]; exact H]. Qed.
Lemma req_covers_two a b x : req_covers [a; b] x <-> comparator_covers a x /\ comparator_covers b x.
Proof.
  unfold req_covers. split; [intros H; split; apply H; simpl; auto|intros [H1 H2] d [<-|[<-|[]]]; assumption].
Qed.

Lemma lo_covers c x : lower_op (c_op c) = true ->
  (comparator_covers c x <-> start_ok (lo_bound c) x).
Proof.
  intros Hl. unfold lo_bound. destruct x as [|v|v]; cbn [comparator_covers]; unfold comparator_denotes.
  - destruct (c_op c); try discriminate Hl; cbn; intuition discriminate.
  - destruct (c_op c); try discriminate Hl; cbn; unfold prec_lt, prec_le; rewrite prec_core; reflexivity.
  - destruct (c_op c); try discriminate Hl; cbn; unfold prec_lt, prec_le; rewrite prec_core; reflexivity.
Qed.
Lemma hi_covers c x : upper_op (c_op c) = true ->
  (comparator_covers c x <-> end_ok (hi_bound c) x).
Proof.
  intros Hl. unfold hi_bound. destruct x as [|v|v]; cbn [comparator_covers]; unfold comparator_denotes.
  - destruct (c_op c); try discriminate Hl; cbn; intuition.
  - destruct (c_op c); try discriminate Hl; cbn; unfold prec_lt, prec_le; rewrite prec_core; reflexivity.
  - destruct (c_op c); try discriminate Hl; cbn; unfold prec_lt, prec_le; rewrite prec_core; reflexivity.
Qed.

Lemma covers_iff checks r u x :
  req_wf r = true -> (forall c, In c r -> comp_below c) -> urange_of_req checks r = Ok u -> place_wf x ->
  (req_covers r x <-> start_ok (u_start u) x /\ end_ok (u_end u) x).
Proof.
  intros Hwf Hb Hu Hx.
  destruct (urange_of_req_spec checks r u Hwf (fun c Hi => comp_below_small checks c (Hb c Hi)) Hu) as (G & _ & D).
  assert (DV : forall v, version_wf v = true -> (req_denotes r v <-> start_ok (u_start u) (At v) /\ end_ok (u_end u) (At v))).
  { intros v Hv. apply version_wf_core in Hv. rewrite <- (D v Hv). unfold in_urange. rewrite start_at, end_at. reflexivity. }
  apply urange_shape in Hu as [[[-> ->]|[(c & -> & HS)|(lo & hi & Hr & Hlo & Hhi & ->)]] _].
  - cbn. split; [auto|]. intros _ c [].
  - rewrite req_covers_one. unfold single_range in HS. destruct (c_op c) eqn:Eo.
    + subst u. cbn [u_start u_end].
      destruct x as [|v|v]; cbn [comparator_covers start_ok end_ok]; rewrite ?Eo.
      * intuition discriminate.
      * rewrite <- (DV v Hx). unfold req_denotes. split; [intros H d [<-|[]]; exact H|intros H; apply H; left; reflexivity].
      * split; [intros []|intros [H1 H2]].
        rewrite (cmp_antisym _ CL (core_of v) (core_of (written c))) in H1. rewrite H2 in H1. apply H1. reflexivity.
    + subst u. rewrite lo_covers by (rewrite Eo; reflexivity). cbn. tauto.
    + subst u. rewrite lo_covers by (rewrite Eo; reflexivity). cbn. tauto.
    + subst u. rewrite hi_covers by (rewrite Eo; reflexivity). cbn. tauto.
    + subst u. rewrite hi_covers by (rewrite Eo; reflexivity). cbn. tauto.
    + destruct HS as (e & He & ->).
      destruct x as [|v|v].
      * cbn. rewrite Eo. intuition discriminate.
      * cbn [comparator_covers]. rewrite <- (DV v Hx). unfold req_denotes. split; [intros H d [<-|[]]; exact H|intros H; apply H; left; reflexivity].
      * pose proof (DV v Hx) as K. cbn [u_start u_end start_ok end_ok] in K |- *. rewrite <- K. cbn [comparator_covers]. rewrite Eo.
        unfold req_denotes, comparator_denotes. split; [intros H d [<-|[]]; rewrite Eo; exact H|intros H; specialize (H c (or_introl eq_refl)); rewrite Eo in H; exact H].
    + destruct HS as (e & He & ->).
      destruct x as [|v|v].
      * cbn. rewrite Eo. intuition discriminate.
      * cbn [comparator_covers]. rewrite <- (DV v Hx). unfold req_denotes. split; [intros H d [<-|[]]; exact H|intros H; apply H; left; reflexivity].
      * pose proof (DV v Hx) as K. cbn [u_start u_end start_ok end_ok] in K |- *. rewrite <- K. cbn [comparator_covers]. rewrite Eo.
        unfold req_denotes, comparator_denotes. split; [intros H d [<-|[]]; rewrite Eo; exact H|intros H; specialize (H c (or_introl eq_refl)); rewrite Eo in H; exact H].
    + contradiction.
  - cbn [u_start u_end]. rewrite <- (lo_covers lo x Hlo), <- (hi_covers hi x Hhi).
    destruct Hr as [-> | ->]; rewrite req_covers_two; tauto.
Qed.

(** A range's lower end is a written version, hence well formed. *)
Lemma written_wf c : comparator_wf c = true -> version_wf (written c) = true.
Proof.
  unfold comparator_wf, version_wf, written. cbn. rewrite !andb_true_iff. intros (((((H1 & H2) & H3) & _) & _) & H6).
  repeat split; auto; [destruct (c_minor c)|destruct (c_patch c)]; auto.
Qed.
Lemma start_place_wf checks r u : req_wf r = true -> urange_of_req checks r = Ok u -> place_wf (start_place (u_start u)).
Proof.
  intros Hwf Hu. unfold req_wf in Hwf. rewrite forallb_forall in Hwf.
  assert (K : forall c, In c r -> place_wf (At (written c)) /\ place_wf (Above (written c))).
  { intros c Hc. cbn. pose proof (written_wf c (Hwf c Hc)). auto. }
  apply urange_shape in Hu as [[[-> ->]|[(c & -> & HS)|(lo & hi & Hr & Hlo & Hhi & ->)]] _].
  - exact I.
  - destruct (K c (or_introl eq_refl)) as [K1 K2]. unfold single_range, lo_bound in HS.
    destruct (c_op c); try contradiction; try (destruct HS as (e & _ & HS)); subst u; try exact I; assumption.
  - destruct (K lo ltac:(destruct Hr as [-> | ->]; simpl; auto)) as [K1 K2]. cbn [u_start]. unfold lo_bound.
    destruct (c_op lo); assumption.
Qed.

Lemma overlaps_share checks r1 r2 u1 u2 :
  req_wf r1 = true -> (forall c, In c r1 -> comp_below c) -> urange_of_req checks r1 = Ok u1 ->
  req_wf r2 = true -> (forall c, In c r2 -> comp_below c) -> urange_of_req checks r2 = Ok u2 ->
  (overlaps u1 u2 = true <-> share_a_place r1 r2).
Proof.
  intros W1 B1 E1 W2 B2 E2.
  rewrite (overlaps_place u1 u2 (urange_of_req_good checks r1 u1 W1 E1) (urange_of_req_good checks r2 u2 W2 E2)).
  unfold share_a_place. split.
  - intros (x & Hx & H1 & H2). exists x.
    assert (X : place_wf x) by (destruct Hx as [-> | ->]; eapply start_place_wf; [|eassumption| |eassumption]; assumption).
    rewrite (covers_iff checks r1 u1 x W1 B1 E1 X), (covers_iff checks r2 u2 x W2 B2 E2 X). auto.
  - intros (x & X & H1 & H2). rewrite (covers_iff checks r1 u1 x W1 B1 E1 X) in H1. rewrite (covers_iff checks r2 u2 x W2 B2 E2 X) in H2.
    pose proof (urange_of_req_good checks r1 u1 W1 E1) as G1. pose proof (urange_of_req_good checks r2 u2 W2 E2) as G2.
    assert (O : overlaps u1 u2 = true).
    { destruct G1 as (A1 & A2 & A3), G2 as (C1 & C2 & C3). unfold overlaps. apply andb_true_iff. destruct H1, H2. split; eapply between; eassumption. }
    apply (proj1 (overlaps_place u1 u2 G1 G2)) in O. exact O.
Qed.

(** * What the range computation answers *)
Lemma ranges_answer checks us : (forall u, In u us -> u_good u /\ u_below u) ->
  (ranges_of_uranges checks us = Err <-> any_overlap us = true) /\
  (ranges_of_uranges checks us = Panic <-> any_overlap us = false /\ ~ NoDup (map key us)).
Proof.
  intros Hg. unfold ranges_of_uranges. destruct us as [|u0 us0].
  { cbn. split; [split; discriminate|]. split; [discriminate|]. intros [_ H]. exfalso. apply H. constructor. }
  set (us := u0 :: us0) in *. destruct (any_overlap us) eqn:Eo; [split; [tauto|]; split; [discriminate|intros [? _]; discriminate]|].
  pose proof (proj1 (any_overlap_false us) Eo) as Ed.
  assert (HG : forall u, In u us -> u_good u) by (intros; apply Hg; auto).
  pose proof (sort_ranges_ok_iff us HG Ed) as HN.
  destruct (sort_ranges us) as [s| |] eqn:Es; cbn [obind].
  - pose proof (sort_ranges_perm _ _ Es) as Hp. pose proof (sort_ranges_sorted _ _ HG Ed Es) as Hs.
    assert (ND : NoDup (map key us)) by (apply HN; eauto).
    destruct s as [|r l]; [apply Permutation_sym, Permutation_nil in Hp; discriminate|].
    assert (Hin : forall u, In u (r :: l) -> In u us) by (intros u Hu; eapply Permutation_in; [symmetry; exact Hp|exact Hu]).
    assert (Hch : chain r l) by (apply sorted_chain; auto; eapply disjoint_all_perm; eauto).
    destruct (first_range_total checks r) as [f ->]; [apply Hg, Hin; left; reflexivity|].
    destruct (gaps_total checks l r) as [gs ->]; auto.
    + apply Hg, Hin; left; reflexivity.
    + intros u Hu. apply Hg, Hin. right. exact Hu.
    + cbn [obind]. split; split; try discriminate. intros [_ H]. contradiction.
  - exfalso. clear -Es. revert Es. generalize us. clear us0 u0 us.
    assert (SI : forall l x, sort_insert x l <> Err).
    { induction l as [|y l IH]; intros x; cbn [sort_insert]; [discriminate|].
      destruct (sort_cmp x y) as [[]|]; try discriminate. specialize (IH x). destruct (sort_insert x l); cbn; congruence. }
    intros us. induction us as [|x l IH]; cbn [sort_ranges]; [discriminate|].
    destruct (sort_ranges l); cbn [obind]; [apply SI|auto|discriminate].
  - split; [split; discriminate|]. split; [|reflexivity]. intros _. split; [reflexivity|]. intros ND. apply HN in ND as [l' E]. discriminate.
Qed.

Definition all_supported (l : list version_req) : Prop := forall r, In r l -> supported_shape r.
Definition pairwise_apart (l : list version_req) : Prop := forall r1 r2, two_of l r1 r2 -> ~ share_a_place r1 r2.
Definition touching (l : list version_req) : Prop :=
  exists r1 r2 v, In r1 l /\ In r2 l /\ begins_above r1 v /\ begins_at r2 v.

Lemma start_above checks r u v : urange_of_req checks r = Ok u ->
  (begins_above r v <-> exists w, u_start u = Exclusive w /\ core_of w = core_of v).
Proof.
  intros Hu. unfold begins_above, prec_eq. split.
  - intros (c & Hc & E & Ho). rewrite prec_core in E. apply (cmp_eq _ CL) in E.
    exists (written c). split; [|exact E].
    apply urange_shape in Hu as [[[-> ->]|[(d & -> & HS)|(lo & hi & Hr & Hlo & Hhi & ->)]] _].
    + destruct Hc.
    + destruct Hc as [->|[]]. unfold single_range, lo_bound in HS. rewrite Ho in HS. subst u. reflexivity.
    + assert (c = lo) as ->.
      { destruct Hr as [-> | ->]; destruct Hc as [<-|[<-|[]]]; auto; rewrite Ho in Hhi; discriminate. }
      cbn. unfold lo_bound. rewrite Ho. reflexivity.
  - intros (w & E & Ec). destruct (excl_start_greater checks r u w Hu E) as (c & H1 & H2 & H3). exists c.
    split; [exact H1|]. split; [|exact H2]. rewrite prec_core, H3, Ec. apply (cmp_refl _ CL).
Qed.
Lemma start_incl checks r u v : urange_of_req checks r = Ok u ->
  (begins_at r v <-> exists w, u_start u = Inclusive w /\ core_of w = core_of v).
Proof.
  intros Hu. unfold begins_at, prec_eq. apply urange_shape in Hu as [[[-> ->]|[(d & -> & HS)|(lo & hi & Hr & Hlo & Hhi & ->)]] _].
  - split; [intros (c & [] & _)|intros (w & E & _); discriminate].
  - unfold single_range, lo_bound in HS. split.
    + intros (c & [<-|[]] & E & Ho). rewrite prec_core in E. apply (cmp_eq _ CL) in E. exists (written d). split; [|exact E].
      destruct (c_op d); try (destruct HS as (e & _ & HS)); try subst u; try reflexivity; intuition discriminate.
    + intros (w & E & Ec). exists d. split; [left; reflexivity|].
      destruct (c_op d); try contradiction; try (destruct HS as (e & _ & HS)); subst u; cbn in E; try discriminate;
        injection E as <-; (split; [rewrite prec_core, Ec; apply (cmp_refl _ CL)|auto]).
  - cbn [u_start]. unfold lo_bound. split.
    + intros (c & Hc & E & Ho). rewrite prec_core in E. apply (cmp_eq _ CL) in E.
      assert (c = lo) as ->.
      { destruct Hr as [-> | ->]; destruct Hc as [<-|[<-|[]]]; auto;
          destruct Ho as [Ho|[Ho|[Ho|Ho]]]; rewrite Ho in Hhi; discriminate. }
      exists (written lo). split; [|exact E]. destruct (c_op lo); try reflexivity; intuition discriminate.
    + intros (w & E & Ec). exists lo. split; [destruct Hr as [-> | ->]; simpl; auto|].
      destruct (c_op lo); cbn in E; try discriminate; try discriminate Hlo;
        injection E as <-; (split; [rewrite prec_core, Ec; apply (cmp_refl _ CL)|auto]).
Qed.

Lemma in_forall2 {A B} (F : A -> B -> Prop) l us x : Forall2 F l us -> In x l -> exists u, In u us /\ F x u.
Proof.
  intros H. induction H as [|a b l us Ha H IH]; intros []; [subst; exists b; simpl; auto|].
  destruct (IH H0) as (u & ? & ?). exists u; simpl; auto.
Qed.
Lemma in_forall2_r {A B} (F : A -> B -> Prop) l us u : Forall2 F l us -> In u us -> exists x, In x l /\ F x u.
Proof.
  intros H. induction H as [|a b l us Ha H IH]; intros []; [subst; exists a; simpl; auto|].
  destruct (IH H0) as (x & ? & ?). exists x; simpl; auto.
Qed.

Lemma forall2_mono {A B} (F G : A -> B -> Prop) l us : (forall x y, F x y -> G x y) -> Forall2 F l us -> Forall2 G l us.
Proof. intros H K. induction K; constructor; auto. Qed.

(** All requirements convert, or one is refused. *)
Lemma convert_all checks l : (forall r, In r l -> req_wf r = true) -> (forall r c, In r l -> In c r -> comp_below c) ->
  (all_supported l /\ exists us, omap (urange_of_req checks) l = Ok us /\
     Forall2 (fun r u => In r l /\ urange_of_req checks r = Ok u) l us) \/
  ((exists r, In r l /\ ~ supported_shape r) /\ omap (urange_of_req checks) l = Err).
Proof.
  induction l as [|r l IH]; intros Hw Hb.
  - left. split; [intros r []|]. exists []. split; [reflexivity|constructor].
  - pose proof (urange_accept_iff checks r (Hw r (or_introl eq_refl)) (fun c => Hb r c (or_introl eq_refl))) as HA.
    pose proof (urange_not_panic checks r (Hw r (or_introl eq_refl)) (fun c => Hb r c (or_introl eq_refl))) as NP.
    cbn [omap]. destruct (urange_of_req checks r) as [w| |] eqn:E; [| |congruence].
    + destruct IH as [(S & us & E1 & F)|(S & E1)]; [intros; apply Hw; right; assumption|intros r0 c H0 H1; apply (Hb r0 c); [right; assumption|assumption]| |].
      * left. split; [intros r0 [<-|H0]; [apply HA; eauto|apply S, H0]|]. exists (w :: us). cbn [obind]. rewrite E1. cbn [obind]. split; [reflexivity|].
        constructor; [split; [left; reflexivity|exact E]|].
        revert F. apply forall2_mono. intros a b [F1 F2]. split; [right; exact F1|exact F2].
      * right. cbn [obind]. rewrite E1. split; [|reflexivity]. destruct S as (r0 & S1 & S2). exists r0. split; [right; exact S1|exact S2].
    + right. split; [|reflexivity]. exists r. split; [left; reflexivity|]. intros K. destruct (proj2 HA K) as [u Hu]. discriminate.
Qed.

Lemma share_sym r1 r2 : share_a_place r1 r2 -> share_a_place r2 r1.
Proof. intros (x & H & H1 & H2). exists x. auto. Qed.
Lemma apart_FOP l : pairwise_apart l <-> ForallOrdPairs (fun a b => ~ share_a_place a b) l.
Proof. unfold pairwise_apart. rewrite FOP_two. reflexivity. Qed.
Lemma apart_perm l l' : Permutation l l' -> pairwise_apart l <-> pairwise_apart l'.
Proof.
  intros P. rewrite !apart_FOP. split; apply FOP_perm; auto using Permutation_sym; intros a b H K; apply H, share_sym, K.
Qed.

Lemma nodup_two {A B} (f : A -> B) l a b : two_of l a b -> f a = f b -> ~ NoDup (map f l).
Proof.
  intros (l1 & l2 & l3 & ->) E H. rewrite map_app in H. cbn [map] in H. rewrite map_app in H. cbn [map] in H.
  apply NoDup_remove_2 in H. apply H. rewrite E. apply in_or_app. right. apply in_or_app. right. left. reflexivity.
Qed.
Lemma two_of_in {A} (l : list A) a b : In a l -> In b l -> a <> b -> two_of l a b \/ two_of l b a.
Proof.
  intros Ha Hb N. apply in_split in Ha as (l1 & l2 & ->). apply in_app_or in Hb as [Hb|[Hb|Hb]].
  - right. apply in_split in Hb as (x & y & ->). exists x, y, l2. rewrite <- app_assoc. reflexivity.
  - contradiction.
  - left. apply in_split in Hb as (x & y & ->). exists l1, x, y. reflexivity.
Qed.

Lemma two_of_app_comm {A} (p u : list A) a b : two_of (u ++ p) a b -> two_of (p ++ u) a b \/ two_of (p ++ u) b a.
Proof.
  intros (l1 & l2 & l3 & E).
  assert (K : forall (l1 l u p : list A) a, u ++ p = l1 ++ a :: l -> (exists z, u = l1 ++ a :: z /\ l = z ++ p) \/ (exists z, p = z ++ a :: l /\ l1 = u ++ z)).
  { clear. induction l1 as [|x l1 IH]; intros l u p a E; destruct u as [|y u]; cbn in E.
    - right. exists []. auto.
    - injection E as -> <-. left. exists u. auto.
    - right. exists (x :: l1). auto.
    - injection E as -> E. destruct (IH _ _ _ _ E) as [(z & -> & ->)|(z & -> & ->)]; [left; exists z|right; exists z]; auto. }
  destruct (K _ _ _ _ _ E) as [(z & -> & E2)|(z & -> & ->)].
  - destruct (K _ _ _ _ _ (eq_sym E2)) as [(z' & -> & ->)|(z' & -> & ->)].
    + left. exists (p ++ l1), l2, z'. rewrite <- app_assoc. reflexivity.
    + right. exists z', (l3 ++ l1), z. rewrite <- !app_assoc. reflexivity.
  - left. exists z, l2, (l3 ++ u). rewrite <- !app_assoc. cbn [app]. rewrite <- !app_assoc. reflexivity.
Qed.
Lemma two_of_forall2 {A B} (F : A -> B -> Prop) l us a b : Forall2 F l us -> two_of us a b ->
  exists x y, two_of l x y /\ F x a /\ F y b.
Proof.
  intros H (l1 & l2 & l3 & ->). apply Forall2_app_inv_r in H as (k1 & k & _ & H & ->).
  inversion H as [|x ? k' ? Fx H']; subst. apply Forall2_app_inv_r in H' as (k2 & k3 & _ & H' & ->).
  inversion H' as [|y ? k4 ? Fy H'']; subst. exists x, y. split; [exists k1, k2, k4; reflexivity|auto].
Qed.
Lemma any_overlap_true us : any_overlap us = true -> exists a b, two_of us a b /\ overlaps a b = true.
Proof.
  induction us as [|a us IH]; cbn [any_overlap]; [discriminate|]. rewrite orb_true_iff. intros [H|H].
  - apply existsb_exists in H as (b & Hb & H). apply in_split in Hb as (l2 & l3 & ->). exists a, b. split; [exists [], l2, l3; reflexivity|exact H].
  - destruct (IH H) as (x & y & (l1 & l2 & l3 & ->) & K). exists x, y. split; [exists (a :: l1), l2, l3; reflexivity|exact K].
Qed.

(** ** The answer of [Versions::new], exactly *)
Lemma versions_answer checks p u : reqs_wf (p ++ u) -> below_u64_max (p ++ u) ->
  (versions_new checks p u = Err <->
     (exists r, In r (p ++ u) /\ ~ supported_shape r) \/ (exists r1 r2, two_of (p ++ u) r1 r2 /\ share_a_place r1 r2)) /\
  (versions_new checks p u = Panic <->
     all_supported (p ++ u) /\ pairwise_apart (p ++ u) /\ touching (p ++ u)).
Proof.
  intros Hw Hb0. set (l := u ++ p).
  assert (IN : forall r, In r l <-> In r (p ++ u)) by (intros r; unfold l; rewrite !in_app_iff; tauto).
  assert (HW : forall r, In r l -> req_wf r = true) by (intros r Hr; apply Hw, IN, Hr).
  assert (HB : forall r c, In r l -> In c r -> comp_below c).
  { intros r c Hr Hc. apply (below_comp (p ++ u) r c Hb0); [apply IN, Hr|exact Hc]. }
  assert (AS : all_supported (p ++ u) <-> all_supported l).
  { unfold all_supported. split; intros H r Hr; apply H, IN, Hr. }
  assert (AP : pairwise_apart (p ++ u) <-> pairwise_apart l) by (apply apart_perm, Permutation_app_comm).
  assert (TO : touching (p ++ u) <-> touching l).
  { unfold touching. split; intros (r1 & r2 & v & H1 & H2 & H); exists r1, r2, v; pose proof (IN r1); pose proof (IN r2); tauto. }
  assert (EX : (exists r, In r (p ++ u) /\ ~ supported_shape r) <-> (exists r, In r l /\ ~ supported_shape r)).
  { split; intros (r & H1 & H2); exists r; pose proof (IN r); tauto. }
  assert (PAIR : (exists r1 r2, two_of (p ++ u) r1 r2 /\ share_a_place r1 r2) -> ~ pairwise_apart l).
  { intros (r1 & r2 & H1 & H2) K. apply AP in K. exact (K r1 r2 H1 H2). }
  rewrite AS, AP, TO, EX. clear AS TO EX.
  assert (VN : versions_new checks p u =
    match omap (urange_of_req checks) l with
    | Ok us => match ranges_of_uranges checks us with Ok _ => Ok (mkVersions p u) | Err => Err | Panic => Panic end
    | Err => Err | Panic => Panic end).
  { unfold versions_new, unaffected_to_osv_ranges, l. rewrite omap_app_eq.
    destruct (omap (urange_of_req checks) u) as [us| |]; cbn [obind]; try reflexivity.
    destruct (omap (urange_of_req checks) p) as [ps| |]; cbn [obind]; reflexivity. }
  rewrite VN. clear VN.
  destruct (convert_all checks l HW HB) as [(S & us & E & F)|(S & E)]; rewrite E.
  2:{ split; [tauto|]. split; [discriminate|]. intros (K & _ & _). destruct S as (r & S1 & S2). destruct (S2 (K r S1)). }
  assert (HG : forall w, In w us -> u_good w /\ u_below w).
  { intros w Hi. destruct (in_forall2_r _ _ _ w F Hi) as (r & _ & H1 & H2). split; [eapply urange_of_req_good; eauto|].
    eapply urange_below; [|exact H2]. intros c. apply HB, H1. }
  assert (OV : any_overlap us = false <-> pairwise_apart l).
  { rewrite any_overlap_false, apart_FOP. revert F. apply FOP_forall2. intros x y a b [X1 X2] [Y1 Y2].
    pose proof (overlaps_share checks x y a b (HW x X1) (fun c => HB x c X1) X2 (HW y Y1) (fun c => HB y c Y1) Y2) as K.
    cbv beta. destruct (overlaps a b); intuition congruence. }
  destruct (ranges_answer checks us HG) as [RE RP].
  assert (K : touching l /\ any_overlap us = false <-> any_overlap us = false /\ ~ NoDup (map key us)).
  { split.
    - intros [(r1 & r2 & v & H1 & H2 & A1 & A2) O]. split; [exact O|].
      destruct (in_forall2 _ _ _ r1 F H1) as (a & Ia & _ & Ea). destruct (in_forall2 _ _ _ r2 F H2) as (b & Ib & _ & Eb).
      apply (start_above checks r1 a v Ea) in A1 as (w & Ea1 & Ea2). apply (start_incl checks r2 b v Eb) in A2 as (w' & Eb1 & Eb2).
      assert (EK : key a = key b) by (unfold key; rewrite Ea1, Eb1; cbn; rewrite Ea2, Eb2; reflexivity).
      destruct (two_of_in us a b Ia Ib) as [T|T]; [intros ->; rewrite Ea1 in Eb1; discriminate| |];
        eapply nodup_two; eauto.
    - intros [O N]. split; [|exact O]. apply (not_nodup_pairs key_eq_dec) in N as (l1 & a & l2 & b & l3 & El & Ek).
      apply any_overlap_false in O.
      assert (Ia : In a us) by (rewrite El; apply in_or_app; right; left; reflexivity).
      assert (Ib : In b us) by (rewrite El; apply in_or_app; right; right; apply in_or_app; right; left; reflexivity).
      assert (Ho : overlaps a b = false) by (rewrite El in O; exact (FOP_split _ _ _ _ _ _ O)).
      destruct (in_forall2_r _ _ _ a F Ia) as (r1 & _ & H1 & E1). destruct (in_forall2_r _ _ _ b F Ib) as (r2 & _ & H2 & E2).
      destruct (same_key a b (proj1 (HG a Ia)) (proj1 (HG b Ib)) Ho Ek) as (v & [(X & w & w' & Y & _ & Cw & _)|(X & w & w' & Y & _ & Cw & _)]).
      + exists r1, r2, v. repeat (split; [assumption|]). split; [apply (start_above checks r1 a v E1); eauto|apply (start_incl checks r2 b v E2); eauto].
      + exists r2, r1, v. repeat (split; [assumption|]). split; [apply (start_above checks r2 b v E2); eauto|apply (start_incl checks r1 a v E1); eauto]. }
  split.
  - transitivity (ranges_of_uranges checks us = Err); [destruct (ranges_of_uranges checks us); split; congruence|].
    rewrite RE. split.
    + intros O. right. apply any_overlap_true in O as (a & b & T & O).
      destruct (two_of_forall2 _ _ _ _ _ F T) as (r1 & r2 & T' & (X1 & X2) & (Y1 & Y2)).
      apply (overlaps_share checks r1 r2 a b (HW r1 X1) (fun c => HB r1 c X1) X2 (HW r2 Y1) (fun c => HB r2 c Y1) Y2) in O.
      unfold l in T'. destruct (two_of_app_comm _ _ _ _ T') as [T2|T2]; [exists r1, r2|exists r2, r1]; split; auto using share_sym.
    + intros [(r & S1 & S2)|K1]; [destruct (S2 (S r S1))|]. apply PAIR in K1. rewrite <- OV in K1. destruct (any_overlap us); congruence.
  - transitivity (ranges_of_uranges checks us = Panic); [destruct (ranges_of_uranges checks us); split; congruence|].
    rewrite RP, <- K, <- OV. tauto.
Qed.

(** * C09 *)
Theorem C09_which_lists_are_refused : forall checks p u,
  reqs_wf (p ++ u) -> below_u64_max (p ++ u) ->
  (versions_new checks p u = Err <->
     (exists r, In r (p ++ u) /\ ~ supported_shape r) \/
     (exists r1 r2, two_of (p ++ u) r1 r2 /\ share_a_place r1 r2)).
Proof. intros checks p u W B. exact (proj1 (versions_answer checks p u W B)). Qed.
Print Assumptions C09_which_lists_are_refused.

(** * C06 *)
Theorem C06_which_lists_crash : forall checks p u,
  reqs_wf (p ++ u) -> below_u64_max (p ++ u) ->
  (versions_new checks p u = Panic <->
     (forall r, In r (p ++ u) -> supported_shape r) /\
     (forall r1 r2, two_of (p ++ u) r1 r2 -> ~ share_a_place r1 r2) /\
     exists r1 r2 v, In r1 (p ++ u) /\ In r2 (p ++ u) /\ begins_above r1 v /\ begins_at r2 v).
Proof. intros checks p u W B. exact (proj2 (versions_answer checks p u W B)). Qed.
Print Assumptions C06_which_lists_crash.

Theorem C09_which_lists_are_accepted : forall checks p u,
  reqs_wf (p ++ u) -> below_u64_max (p ++ u) ->
  (versions_new checks p u = Ok (mkVersions p u) <->
     (forall r, In r (p ++ u) -> supported_shape r) /\
     (forall r1 r2, two_of (p ++ u) r1 r2 -> ~ share_a_place r1 r2) /\
     forall r1 r2 v, In r1 (p ++ u) -> In r2 (p ++ u) -> begins_above r1 v -> ~ begins_at r2 v).
Proof.
  intros checks p u W B. destruct (versions_answer checks p u W B) as [HE HP].
  assert (VOK : forall vs, versions_new checks p u = Ok vs -> vs = mkVersions p u).
  { intros vs. unfold versions_new. destruct (unaffected_to_osv_ranges checks u p); cbn; congruence. }
  split.
  - intros H. split; [|split].
    + intros r Hr. assert (Hc : forall c, In c r -> comp_below c) by (intros; eapply below_comp; eauto).
      pose proof (urange_accept_iff checks r (W r Hr) Hc) as HA.
      destruct (urange_of_req checks r) as [w| |] eqn:E; [apply HA; eauto| |].
      * exfalso. assert (K : versions_new checks p u = Err); [|congruence]. apply HE. left. exists r. split; [exact Hr|].
        intros S. apply HA in S as [x Hx]. discriminate.
      * destruct (urange_not_panic checks r (W r Hr) Hc E).
    + intros r1 r2 T S. assert (K : versions_new checks p u = Err); [|congruence]. apply HE. right. eauto.
    + intros r1 r2 v H1 H2 A1 A2.
      assert (S : all_supported (p ++ u) /\ pairwise_apart (p ++ u)).
      { split.
        - intros r Hr. assert (Hc : forall c, In c r -> comp_below c) by (intros; eapply below_comp; eauto).
          pose proof (urange_accept_iff checks r (W r Hr) Hc) as HA.
          destruct (urange_of_req checks r) as [w| |] eqn:E; [apply HA; eauto| |].
          + exfalso. assert (K : versions_new checks p u = Err); [|congruence]. apply HE. left. exists r. split; [exact Hr|].
            intros S. apply HA in S as [x Hx]. discriminate.
          + destruct (urange_not_panic checks r (W r Hr) Hc E).
        - intros x y T S. assert (K : versions_new checks p u = Err); [|congruence]. apply HE. right. eauto. }
      assert (K : versions_new checks p u = Panic); [|congruence]. apply HP. destruct S. repeat (split; [assumption|]).
      exists r1, r2, v. auto.
  - intros (S & A & N). destruct (versions_new checks p u) as [vs| |] eqn:E.
    + rewrite (VOK vs eq_refl). reflexivity.
    + exfalso. destruct (proj1 HE eq_refl) as [(r & H1 & H2)|(r1 & r2 & H1 & H2)]; [exact (H2 (S r H1))|exact (A r1 r2 H1 H2)].
    + exfalso. destruct (proj1 HP eq_refl) as (_ & _ & r1 & r2 & v & H1 & H2 & H3 & H4). exact (N r1 r2 v H1 H2 H3 H4).
Qed.
Print Assumptions C09_which_lists_are_accepted.

(** A refused list of acceptable ranges contains two that share a version, unless two end points meet in
    one of the known boundary situations. *)
Theorem C09_refused_lists_overlap_or_meet : forall checks p u,
  reqs_wf (p ++ u) -> below_u64_max (p ++ u) ->
  (forall r, In r (p ++ u) -> supported_shape r) -> versions_new checks p u = Err ->
  exists r1 r2, two_of (p ++ u) r1 r2 /\
    ((exists v, version_wf v = true /\ req_denotes r1 v /\ req_denotes r2 v) \/ boundary_artifact r1 r2).
Proof.
  intros checks p u W B S H. apply (C09_which_lists_are_refused checks p u W B) in H as [(r & H1 & H2)|(r1 & r2 & T & H)]; [destruct (H2 (S r H1))|].
  exists r1, r2. split; [exact T|].
  assert (I1 : In r1 (p ++ u)) by (destruct T as (l1 & l2 & l3 & ->); apply in_or_app; right; left; reflexivity).
  assert (I2 : In r2 (p ++ u)) by (destruct T as (l1 & l2 & l3 & ->); apply in_or_app; right; right; apply in_or_app; right; left; reflexivity).
  assert (B1 : forall c, In c r1 -> comp_below c) by (intros c Hc; exact (below_comp (p ++ u) r1 c B I1 Hc)).
  assert (B2 : forall c, In c r2 -> comp_below c) by (intros c Hc; exact (below_comp (p ++ u) r2 c B I2 Hc)).
  destruct (proj2 (urange_accept_iff checks r1 (W r1 I1) B1) (S r1 I1)) as [u1 E1].
  destruct (proj2 (urange_accept_iff checks r2 (W r2 I2) B2) (S r2 I2)) as [u2 E2].
  apply (overlap_complete checks r1 r2 u1 u2); try assumption.
  - apply W, I1.
  - apply W, I2.
  - intros c Hc. apply in_app_or in Hc as [Hc|Hc]; auto.
  - apply (overlaps_share checks r1 r2 u1 u2 (W r1 I1) B1 E1 (W r2 I2) B2 E2). exact H.
Qed.
Print Assumptions C09_refused_lists_overlap_or_meet.

(** [>1.0.0] and [=1.0.0] crash; [^0.0.3] and [>0.0.3] meet just above 0.0.3; [>=2] and [<1] are apart. *)
Definition ex_cmp (o : op) (a b c : N) : comparator := mkComparator o a (Some b) (Some c) [].
Example C09_exact_nonvacuous :
  versions_new true [[ex_cmp OpGreaterEq 2 0 0]] [[ex_cmp OpLess 1 0 0]] = Ok (mkVersions [[ex_cmp OpGreaterEq 2 0 0]] [[ex_cmp OpLess 1 0 0]]) /\
  versions_new true [[ex_cmp OpGreater 1 0 0]] [[ex_cmp OpExact 1 0 0]] = Panic /\
  begins_above [ex_cmp OpGreater 1 0 0] (mkVersion 1 0 0 [] []) /\ begins_at [ex_cmp OpExact 1 0 0] (mkVersion 1 0 0 [] []) /\
  share_a_place [ex_cmp OpCaret 0 0 3] [ex_cmp OpGreater 0 0 3] /\ two_of [0; 1; 2] 0 2.
Proof.
  split; [reflexivity|]. split; [reflexivity|]. split; [|split; [|split]].
  - exists (ex_cmp OpGreater 1 0 0). repeat split. left. reflexivity.
  - exists (ex_cmp OpExact 1 0 0). split; [left; reflexivity|]. split; [reflexivity|]. left. reflexivity.
  - exists (Above (mkVersion 0 0 3 [] [])). split; [reflexivity|]. split; intros c [<-|[]]; cbn; unfold prec_le; cbn; [|discriminate].
    split; [discriminate|]. split; [reflexivity|]. intros _ m [= <-]. split; [reflexivity|]. intros _ q [= <-]. reflexivity.
  - exists [], [1], []. reflexivity.
Qed.
