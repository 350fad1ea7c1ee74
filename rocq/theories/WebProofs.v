(** Lemmas about the web site's generator: sorting by a key, grouping, counting, the last write to a path. *)
From Coq Require Import List NArith ZArith Ascii String Bool Lia Permutation Sorted Arith.
From Verif Require Import Base StrLib OsvAdvModel SortProofs AdvModel WebModel WebSpec.
Import ListNotations.
Local Open Scope string_scope.

(** ** Stable sorting by a preorder *)
Section Pre.
  Context {A : Type} (c : A -> A -> comparison).
  Context (total : forall x y, c x y = Gt -> c y x <> Gt) (trans : forall x y z, c x y <> Gt -> c y z <> Gt -> c x z <> Gt).
  Lemma pre_insert x l : StronglySorted (fun a b => c a b <> Gt) l -> StronglySorted (fun a b => c a b <> Gt) (insert_sorted c x l).
  Proof.
    induction l as [|z l IH]; intros S; cbn [insert_sorted]; [constructor; constructor|]. inversion S as [|? ? S' F]; subst.
    assert (T : c x z <> Gt -> StronglySorted (fun a b => c a b <> Gt) (x :: z :: l)).
    { intros E. constructor; [exact S|]. constructor; [exact E|]. apply Forall_forall. intros y Y. rewrite Forall_forall in F.
      exact (trans _ _ _ E (F y Y)). }
    destruct (c x z) eqn:E; [apply T; discriminate|apply T; discriminate|].
    constructor; [exact (IH S')|]. apply Forall_forall. intros y Y. apply insert_in in Y as [->|Y]; [exact (total _ _ E)|].
    rewrite Forall_forall in F. exact (F y Y).
  Qed.
  Lemma pre_sort l : StronglySorted (fun a b => c a b <> Gt) (sort_list c l).
  Proof. induction l as [|x l IH]; cbn [sort_list fold_right]; [constructor|]. apply pre_insert, IH. Qed.
  (** Stability: elements a test selects, all equal to each other, keep their order. *)
  Lemma pre_stable (P : A -> bool) l : (forall x y, P x = true -> P y = true -> c x y <> Gt) -> filter P (sort_list c l) = filter P l.
  Proof.
    intros H. induction l as [|x l IH]; [reflexivity|]. cbn [sort_list fold_right filter]. fold (sort_list c l). rewrite <- IH. clear IH.
    induction (sort_list c l) as [|z s IH]; cbn [insert_sorted filter].
    - reflexivity.
    - destruct (P x) eqn:PX.
      + destruct (c x z) eqn:E; cbn [filter]; rewrite ?PX; try reflexivity.
        destruct (P z) eqn:PZ; [exfalso; exact (H _ _ PX PZ E)|]. exact IH.
      + destruct (c x z) eqn:E; cbn [filter]; rewrite ?PX; try reflexivity. destruct (P z); [f_equal|]; exact IH.
  Qed.
End Pre.
Lemma str_pre {A} (f : A -> string) : 
  (forall x y, str_cmp (f x) (f y) = Gt -> str_cmp (f y) (f x) <> Gt) /\
  (forall x y z, str_cmp (f x) (f y) <> Gt -> str_cmp (f y) (f z) <> Gt -> str_cmp (f x) (f z) <> Gt).
Proof.
  split.
  - intros x y H. rewrite (cmp_antisym _ str_cmp_laws), H. discriminate.
  - intros x y z. apply (cle_trans _ str_cmp_laws).
Qed.
Lemma newest_first_ok l : newest l (newest_first l).
Proof.
  assert (R : forall a b, str_cmp a b <> Gt <-> str_cmp b a <> Lt).
  { intros a b. rewrite (cmp_antisym _ str_cmp_laws b a). destruct (str_cmp b a); cbn; split; congruence. }
  unfold newest_first, newest. split; [apply sort_perm|]. destruct (str_pre s_created) as [T1 T2]. split.
  - assert (S : StronglySorted (fun a b => str_cmp (s_created b) (s_created a) <> Gt)
                  (sort_list (fun a b => str_cmp (s_created b) (s_created a)) l)).
    { apply pre_sort; [intros x y; apply T1|]. intros x y z H1 H2. exact (T2 _ _ _ H2 H1). }
    induction S as [|a s S IH F]; constructor; [exact IH|]. eapply Forall_impl; [|exact F]. intros b. apply R.
  - intros day. apply pre_stable. intros x y X Y. apply String.eqb_eq in X, Y. rewrite X, Y, (cmp_refl _ str_cmp_laws). discriminate.
Qed.
(** The listing is determined by what is said about it. *)
Lemma newest_unique ds l l' : newest ds l -> newest ds l' -> l = l'.
Proof.
  intros (_ & S & F) (_ & S' & F').
  assert (E : forall day, filter (fun d => String.eqb (s_created d) day) l = filter (fun d => String.eqb (s_created d) day) l')
    by (intros day; rewrite F, F'; reflexivity).
  clear F F' ds. revert l' S' E. induction S as [|a l S IH F]; intros l' S' E.
  - destruct l' as [|b l']; [reflexivity|]. specialize (E (s_created b)). cbn in E. rewrite String.eqb_refl in E. discriminate.
  - destruct l' as [|b l']; [specialize (E (s_created a)); cbn in E; rewrite String.eqb_refl in E; discriminate|].
    inversion S' as [|? ? S'' F']; subst.
    assert (AB : s_created a = s_created b).
    { apply (cmp_eq _ str_cmp_laws). rewrite Forall_forall in F, F'.
      assert (I1 : In a (b :: l')).
      { apply (proj1 (filter_In (fun d => String.eqb (s_created d) (s_created a)) a (b :: l'))). rewrite <- E. apply filter_In.
        split; [left; reflexivity|apply String.eqb_refl]. }
      assert (I2 : In b (a :: l)).
      { apply (proj1 (filter_In (fun d => String.eqb (s_created d) (s_created b)) b (a :: l))). rewrite E. apply filter_In.
        split; [left; reflexivity|apply String.eqb_refl]. }
      destruct I1 as [->|I1]; [apply (cmp_refl _ str_cmp_laws)|]. destruct I2 as [->|I2]; [apply (cmp_refl _ str_cmp_laws)|].
      pose proof (F _ I2) as G1. pose proof (F' _ I1) as G2. cbn in G1, G2. rewrite (cmp_antisym _ str_cmp_laws) in G2.
      destruct (str_cmp (s_created a) (s_created b)); [reflexivity| |]; exfalso; [apply G1|apply G2]; reflexivity. }
    assert (EQ : a = b).
    { specialize (E (s_created a)). cbn [filter] in E. rewrite String.eqb_refl, <- AB, String.eqb_refl in E. congruence. }
    subst b. f_equal. apply IH; [exact S''|]. intros day. specialize (E day). cbn [filter] in E.
    destruct (String.eqb (s_created a) day); [congruence|exact E].
Qed.

(** ** Grouping *)
Lemma nodup_snoc {A} (k : A) l : ~ In k l -> NoDup l -> NoDup (l ++ [k])%list.
Proof. intros K N. apply (Permutation_NoDup (Permutation_cons_append l k)). constructor; assumption. Qed.
Section Group.
  Context {A : Type}.
  Definition gget (k : string) (gs : list (string * list A)) : option (list A) :=
    match find (fun g => String.eqb (fst g) k) gs with Some g => Some (snd g) | None => None end.
  Definition goget (o : option (list A)) : list A := match o with Some l => l | None => [] end.
  Lemma gget_push k v gs k' : gget k' (group_push k v gs) = if String.eqb k k' then Some (goget (gget k gs) ++ [v])%list else gget k' gs.
  Proof.
    unfold gget. induction gs as [|[q l] gs IH]; cbn [group_push find fst snd].
    - destruct (String.eqb k k'); reflexivity.
    - destruct (String.eqb q k) eqn:Q; cbn [find fst snd].
      + apply String.eqb_eq in Q. subst q. destruct (String.eqb k k'); reflexivity.
      + destruct (String.eqb q k') eqn:Q'.
        * apply String.eqb_eq in Q'. subst q. rewrite String.eqb_sym in Q. rewrite Q. reflexivity.
        * exact IH.
  Qed.
  Lemma keys_push k v (gs : list (string * list A)) : map fst (group_push k v gs) = map fst gs \/
    (~ In k (map fst gs) /\ map fst (group_push k v gs) = (map fst gs ++ [k])%list).
  Proof.
    induction gs as [|[q l] gs IH]; cbn [group_push map fst]; [right; split; [intros []|reflexivity]|].
    destruct (String.eqb q k) eqn:Q; [left; reflexivity|]. apply String.eqb_neq in Q. cbn [map fst]. destruct IH as [->|[N ->]]; [left; reflexivity|].
    right. split; [|reflexivity]. intros [->|I]; [apply Q; reflexivity|exact (N I)].
  Qed.
  Lemma nodup_push k v (gs : list (string * list A)) : NoDup (map fst gs) -> NoDup (map fst (group_push k v gs)).
  Proof.
    intros N. destruct (keys_push k v gs) as [->|[I ->]]; [exact N|]. apply nodup_snoc; assumption.
  Qed.
  Lemma gget_in k l (gs : list (string * list A)) : NoDup (map fst gs) -> (In (k, l) gs <-> gget k gs = Some l).
  Proof.
    unfold gget. induction gs as [|[q m] gs IH]; intros N; cbn [In find fst snd map]; [split; [intros []|discriminate]|].
    cbn [map fst] in N. inversion N as [|? ? NI N']; subst. destruct (String.eqb q k) eqn:Q.
    - apply String.eqb_eq in Q. subst q. split; [|intros [= ->]; left; reflexivity]. intros [[= ->]|I]; [reflexivity|]. exfalso. apply NI.
      apply in_map_iff. exists (k, l). split; [reflexivity|exact I].
    - apply String.eqb_neq in Q. rewrite <- (IH N'). split; [intros [[= -> ->]|I]; [contradiction|exact I]|intros I; right; exact I].
  Qed.
  (** Pushing a list of pairs. *)
  Definition push_all (ps : list (string * A)) (gs : list (string * list A)) : list (string * list A) :=
    fold_left (fun gs p => group_push (fst p) (snd p) gs) ps gs.
  Definition vals (k : string) (ps : list (string * A)) : list A := map snd (filter (fun p => String.eqb (fst p) k) ps).
  Lemma push_all_get ps : forall gs k, gget k (push_all ps gs) =
    match goget (gget k gs) ++ vals k ps with [] => gget k gs | _ => Some (goget (gget k gs) ++ vals k ps) end%list.
  Proof.
    unfold push_all, vals. induction ps as [|[q v] ps IH]; intros gs k; cbn [fold_left fst snd].
    - cbn [filter map]. rewrite app_nil_r. destruct (gget k gs) as [[|]|]; reflexivity.
    - rewrite IH, gget_push. cbn [filter fst]. destruct (String.eqb q k) eqn:Q; [|reflexivity].
      apply String.eqb_eq in Q. subst q. cbn [goget map snd]. rewrite <- app_assoc. cbn [app].
      destruct (goget (gget k gs)); cbn [app]; reflexivity.
  Qed.
  Lemma push_all_nodup ps : forall gs, NoDup (map fst gs) -> NoDup (map fst (push_all ps gs)).
  Proof. unfold push_all. induction ps as [|p ps IH]; intros gs N; cbn [fold_left]; [exact N|]. apply IH, nodup_push, N. Qed.
  Lemma push_all_in ps k l : In (k, l) (push_all ps []) <-> l <> [] /\ l = vals k ps.
  Proof.
    rewrite gget_in by (apply push_all_nodup; constructor). rewrite push_all_get. unfold gget at 1 2. cbn [find goget app].
    destruct (vals k ps) as [|v vs]; split.
    - unfold gget. cbn. discriminate.
    - intros [N E]. congruence.
    - intros [= <-]. split; [discriminate|reflexivity].
    - intros [_ ->]. reflexivity.
  Qed.
  Lemma push_all_keys ps k : In k (map fst (push_all ps [])) <-> In k (map fst ps).
  Proof.
    rewrite in_map_iff. split.
    - intros ([q l] & <- & I). apply push_all_in in I as [N ->]. unfold vals in N. cbn [fst].
      destruct (filter _ ps) as [|p r] eqn:F; [exfalso; apply N; reflexivity|].
      assert (X : In p (filter (fun p => String.eqb (fst p) q) ps)) by (rewrite F; left; reflexivity).
      apply filter_In in X as [X E]. apply String.eqb_eq in E. subst q. apply in_map, X.
    - intros I. apply in_map_iff in I as (p & <- & I). exists (fst p, vals (fst p) ps). split; [reflexivity|]. apply push_all_in.
      split; [|reflexivity]. unfold vals.
      assert (X : In p (filter (fun q => String.eqb (fst q) (fst p)) ps)) by (apply filter_In; split; [exact I|apply String.eqb_refl]).
      destruct (filter _ ps); [destruct X|discriminate].
  Qed.
End Group.

(** Nested loops as one. *)
Lemma nested {A B G} (f : G -> B -> A -> G) (keys : A -> list B) l : forall g,
  fold_left (fun g d => fold_left (fun g k => f g k d) (keys d) g) l g
  = fold_left (fun g p => f g (fst p) (snd p)) (flat_map (fun d => map (fun k => (k, d)) (keys d)) l) g.
Proof.
  induction l as [|d l IH]; intros g; cbn [fold_left flat_map]; [reflexivity|]. rewrite fold_left_app, IH. f_equal.
  clear. revert g. induction (keys d) as [|k ks IH]; intros g; cbn [fold_left map]; [reflexivity|]. apply IH.
Qed.
Definition pairs (keys : site_adv -> list string) (l : list site_adv) : list (string * site_adv) :=
  flat_map (fun d => map (fun k => (k, d)) (keys d)) l.
Lemma group_all_eq keys l : group_all keys l = push_all (pairs keys l) [].
Proof. unfold group_all, push_all, pairs. apply (nested (fun g k d => group_push k d g)). Qed.
Lemma filter_flat_map {A B} (P : B -> bool) (f : A -> list B) l : filter P (flat_map f l) = flat_map (fun d => filter P (f d)) l.
Proof. induction l as [|d l IH]; cbn [flat_map]; [reflexivity|]. rewrite filter_app, IH. reflexivity. Qed.
Lemma map_flat_map {A B C} (g : B -> C) (f : A -> list B) l : map g (flat_map f l) = flat_map (fun d => map g (f d)) l.
Proof. induction l as [|d l IH]; cbn [flat_map]; [reflexivity|]. rewrite map_app, IH. reflexivity. Qed.
Lemma vals_pairs keys k l : vals k (pairs keys l) = having keys k l.
Proof.
  unfold vals, pairs, having. rewrite filter_flat_map, map_flat_map. apply flat_map_ext. intros d.
  induction (keys d) as [|q ks IH]; cbn [map filter count_occ fst]; [reflexivity|].
  destruct (string_dec q k) as [->|N]; [rewrite String.eqb_refl; cbn [map snd repeat]; f_equal; exact IH|].
  destruct (String.eqb_spec q k); [contradiction|exact IH].
Qed.
Lemma group_all_in keys l k g : In (k, g) (group_all keys l) <-> g <> [] /\ g = having keys k l.
Proof. rewrite group_all_eq, push_all_in, vals_pairs. reflexivity. Qed.
Lemma having_in keys k l d : In d (having keys k l) <-> In d l /\ In k (keys d).
Proof.
  unfold having. rewrite in_flat_map. split.
  - intros (e & I & R). pose proof (repeat_spec _ _ _ R) as ->. split; [exact I|]. apply (count_occ_In string_dec).
    destruct (count_occ string_dec (keys e) k); [destruct R|lia].
  - intros [I K]. exists d. split; [exact I|]. apply (count_occ_In string_dec) in K. destruct (count_occ string_dec (keys d) k); [lia|left; reflexivity].
Qed.
Lemma having_unique keys k l : (forall d, In d l -> NoDup (keys d)) -> having keys k l = with_key keys k l.
Proof.
  unfold having, with_key. induction l as [|d l IH]; intros N; cbn [flat_map filter]; [reflexivity|].
  rewrite IH by (intros e E; apply N; right; exact E). pose proof (N d (or_introl eq_refl)) as ND.
  destruct (existsb (String.eqb k) (keys d)) eqn:E.
  - apply existsb_exists in E as (q & Q & E). apply String.eqb_eq in E. subst q.
    replace (count_occ string_dec (keys d) k) with 1%nat; [reflexivity|].
    pose proof (proj1 (NoDup_count_occ string_dec (keys d)) ND k). apply (count_occ_In string_dec) in Q. lia.
  - replace (count_occ string_dec (keys d) k) with 0%nat; [reflexivity|]. symmetry. apply count_occ_not_In. intros I.
    rewrite <- not_true_iff_false in E. apply E, existsb_exists. exists k. split; [exact I|apply String.eqb_refl].
Qed.
Lemma having_keys keys k l : having keys k l <> [] <-> exists d, In d l /\ In k (keys d).
Proof.
  split.
  - intros N. destruct (having keys k l) as [|d r] eqn:E; [congruence|]. exists d. apply having_in. rewrite E. left. reflexivity.
  - intros (d & I) E. apply having_in in I. rewrite E in I. destruct I.
Qed.

(** ** The indices *)
Section Names.
  Context (folder : string).
  Definition goodn (is : list item) : Prop :=
    NoDup (map it_name is) /\ forall i, In i is -> it_url i = "/" ++ folder ++ "/" ++ it_name i ++ ".html" /\ it_count i = None.
  Lemma name_push_good k is : goodn is -> goodn (name_push folder k is) /\ (forall n, In n (map it_name (name_push folder k is)) <-> n = k \/ In n (map it_name is)).
  Proof.
    intros [N U]. unfold name_push. destruct (existsb _ is) eqn:E.
    - split; [split; assumption|]. intros n. apply existsb_exists in E as (i & I & E). apply String.eqb_eq in E. subst k.
      split; [intros H; right; exact H|intros [->|H]; [apply in_map, I|exact H]].
    - assert (K : ~ In k (map it_name is)).
      { intros I. apply in_map_iff in I as (i & <- & I). rewrite <- not_true_iff_false in E. apply E, existsb_exists. exists i.
        split; [exact I|apply String.eqb_refl]. }
      rewrite map_app. cbn [map it_name]. split; [split|].
      + rewrite map_app. cbn [map it_name]. apply nodup_snoc; assumption.
      + intros i I. apply in_app_or in I as [I|[<-|[]]]; [exact (U i I)|]. cbn [it_url it_name it_count]. auto.
      + intros n. rewrite in_app_iff. cbn [In]. intuition congruence.
  Qed.
  Lemma name_all_good keys l : goodn (name_all folder keys l) /\
    forall n, In n (map it_name (name_all folder keys l)) <-> exists d, In d l /\ In n (keys d).
  Proof.
    unfold name_all. rewrite (nested (fun is k (_ : site_adv) => name_push folder k is)).
    assert (G : forall (ps : list (string * site_adv)) is, goodn is ->
      goodn (fold_left (fun is p => name_push folder (fst p) is) ps is) /\
      forall n, In n (map it_name (fold_left (fun is p => name_push folder (fst p) is) ps is)) <-> In n (map it_name is) \/ In n (map fst ps)).
    { induction ps as [|p ps IH]; intros is G; cbn [fold_left map]; [split; [exact G|]; intros n; cbn [In]; tauto|].
      destruct (name_push_good (fst p) is G) as [G1 G2]. destruct (IH _ G1) as [G3 G4]. split; [exact G3|]. intros n. rewrite G4, G2. cbn [In].
      intuition congruence. }
    destruct (G (flat_map (fun d => map (fun k => (k, d)) (keys d)) l) []) as [G1 G2].
    { split; [constructor|intros i []]. }
    split; [exact G1|]. intros n. rewrite G2. cbn [map In]. rewrite map_flat_map, in_flat_map. split.
    - intros [[]|(d & I & J)]. exists d. split; [exact I|]. rewrite map_map in J. cbn [fst] in J. rewrite map_id in J. exact J.
    - intros (d & I & J). right. exists d. split; [exact I|]. rewrite map_map. cbn [fst]. rewrite map_id. exact J.
  Qed.
End Names.
Definition times_named (n : string) (l : list site_adv) : N := N.of_nat (List.length (with_key (fun d => [s_package d]) n l)).
Lemma count_push_spec k is : NoDup (map it_name is) ->
  NoDup (map it_name (count_push k is)) /\
  forall i, In i (count_push k is) <->
    (In i is /\ it_name i <> k) \/
    (exists j n, In j is /\ it_name j = k /\ it_count j = Some n /\ i = mkItem k (it_url j) (Some (n + 1)%N)) \/
    (exists j, In j is /\ it_name j = k /\ it_count j = None /\ i = mkItem k (it_url j) None) \/
    (~ In k (map it_name is) /\ i = mkItem k ("/packages/" ++ k ++ ".html") (Some 1%N)).
Proof.
  induction is as [|a is IH]; intros N; cbn [count_push map].
  - split; [constructor; [intros []|constructor]|]. intros i. cbn [In]. split.
    + intros [<-|[]]. right. right. right. split; [intros []|reflexivity].
    + intros [[[] _]|[(j & n & [] & _)|[(j & [] & _)|[_ ->]]]]. left. reflexivity.
  - cbn [map] in N. inversion N as [|? ? NI N']; subst. destruct (IH N') as [I1 I2]. destruct (String.eqb (it_name a) k) eqn:Q.
    + apply String.eqb_eq in Q. cbn [map it_name]. split; [constructor; assumption|]. intros i. cbn [In]. subst k. split.
      * intros [<-|I].
        -- destruct (it_count a) as [n|] eqn:C.
           ++ right. left. exists a, n. auto.
           ++ right. right. left. exists a. auto.
        -- left. split; [right; exact I|]. intros E. apply NI. rewrite <- E. apply in_map, I.
      * intros [[[->|I] E]|[(j & n & [<-|I] & E & C & ->)|[(j & [<-|I] & E & C & ->)|[X _]]]].
        -- congruence.
        -- right. exact I.
        -- left. rewrite C. reflexivity.
        -- exfalso. apply NI. rewrite <- E. apply in_map, I.
        -- left. rewrite C. reflexivity.
        -- exfalso. apply NI. rewrite <- E. apply in_map, I.
        -- exfalso. apply X. left. reflexivity.
    + apply String.eqb_neq in Q. cbn [map]. split.
      * constructor; [|exact I1]. intros I. apply in_map_iff in I as (i & E & I). apply I2 in I as [[I _]|[(j & n & _ & _ & _ & ->)|[(j & _ & _ & _ & ->)|[_ ->]]]].
        -- apply NI. rewrite <- E. apply in_map, I.
        -- cbn in E. congruence.
        -- cbn in E. congruence.
        -- cbn in E. congruence.
      * intros i. cbn [In]. rewrite I2. split.
        -- intros [->|[[I E]|[(j & n & I & H)|[(j & I & H)|[X ->]]]]].
           ++ left. split; [left; reflexivity|exact Q].
           ++ left. split; [right; exact I|exact E].
           ++ right. left. exists j, n. split; [right; exact I|exact H].
           ++ right. right. left. exists j. split; [right; exact I|exact H].
           ++ right. right. right. split; [intros [H|H]; [exact (Q H)|exact (X H)]|reflexivity].
        -- intros [[[->|I] E]|[(j & n & [<-|I] & H)|[(j & [<-|I] & H)|[X ->]]]].
           ++ left. reflexivity.
           ++ right. left. split; assumption.
           ++ exfalso. apply Q, H.
           ++ right. right. left. exists j, n. split; assumption.
           ++ exfalso. apply Q, H.
           ++ right. right. right. left. exists j. split; assumption.
           ++ right. right. right. right. split; [intros H; apply X; right; exact H|reflexivity].
Qed.
Lemma count_all_spec l : NoDup (map it_name (count_all l)) /\
  forall i, In i (count_all l) <-> (exists d, In d l /\ s_package d = it_name i) /\
    i = mkItem (it_name i) ("/packages/" ++ it_name i ++ ".html") (Some (times_named (it_name i) l)).
Proof.
  unfold count_all. induction l as [|d l IH] using rev_ind.
  - split; [constructor|]. intros i. cbn. split; [intros []|intros [(d & [] & _) _]].
  - rewrite fold_left_app. cbn [fold_left]. set (is := fold_left _ l []) in *. destruct IH as [N S].
    destruct (count_push_spec (s_package d) is N) as [N' S']. split; [exact N'|].
    assert (T : forall n, times_named n (l ++ [d]) = if String.eqb n (s_package d) then (times_named n l + 1)%N else times_named n l).
    { intros n. unfold times_named, with_key. rewrite filter_app, app_length. cbn [filter existsb]. rewrite orb_false_r.
      destruct (String.eqb n (s_package d)); cbn [List.length]; lia. }
    assert (NAMES : forall n, In n (map it_name is) <-> exists e, In e l /\ s_package e = n).
    { intros n. rewrite in_map_iff. split.
      - intros (i & <- & I). apply S in I. exact (proj1 I).
      - intros E. exists (mkItem n ("/packages/" ++ n ++ ".html") (Some (times_named n l))). split; [reflexivity|]. apply S. cbn [it_name]. auto. }
    assert (Z : forall n, ~ (exists e, In e l /\ s_package e = n) -> times_named n l = 0%N).
    { intros n E. unfold times_named, with_key. replace (filter _ l) with (@nil site_adv); [reflexivity|]. symmetry.
      destruct (filter _ l) as [|e r] eqn:F; [reflexivity|]. exfalso. apply E. exists e.
      assert (X : In e (filter (fun d => existsb (String.eqb n) [s_package d]) l)) by (rewrite F; left; reflexivity).
      apply filter_In in X as [X Y]. cbn in Y. rewrite orb_false_r in Y. apply String.eqb_eq in Y. auto. }
    intros i. rewrite S'. split.
    + intros [[I E]|[(j & n & I & E & C & ->)|[(j & I & E & C & ->)|[X ->]]]].
      * apply S in I as [(e & I & P) EQ]. split; [exists e; split; [apply in_or_app; left; exact I|exact P]|].
        rewrite T. destruct (String.eqb_spec (it_name i) (s_package d)); [contradiction|exact EQ].
      * cbn [it_name]. split; [exists d; split; [apply in_or_app; right; left; reflexivity|reflexivity]|].
        apply S in I as [_ EQ]. rewrite T, String.eqb_refl. rewrite EQ in C. cbn [it_count] in C. rewrite E in C. injection C as <-.
        rewrite EQ. cbn [it_url]. rewrite E. reflexivity.
      * apply S in I as [_ EQ]. rewrite EQ in C. discriminate.
      * cbn [it_name]. split; [exists d; split; [apply in_or_app; right; left; reflexivity|reflexivity]|].
        rewrite T, String.eqb_refl, Z; [reflexivity|]. rewrite <- NAMES. exact X.
    + intros [(e & I & P) EQ]. rewrite T in EQ. destruct (String.eqb_spec (it_name i) (s_package d)) as [Q|Q].
      * destruct (in_dec string_dec (s_package d) (map it_name is)) as [J|J].
        -- right. left. apply in_map_iff in J as (j & E & J). pose proof (proj1 (S j) J) as [_ EJ]. exists j, (times_named (it_name i) l).
           split; [exact J|]. split; [exact E|]. split; [rewrite EJ; cbn [it_count]; rewrite E, Q; reflexivity|].
           rewrite EQ. rewrite EJ. cbn [it_url it_name]. rewrite E, Q. reflexivity.
        -- right. right. right. split; [exact J|]. rewrite EQ, Q, Z; [reflexivity|]. rewrite <- NAMES. exact J.
      * left. split; [|exact Q]. apply S. split; [|exact EQ]. apply in_app_or in I as [I|[<-|[]]]; [exists e; auto|congruence].
Qed.
Lemma sort_items_perm lower is : Permutation is (sort_items lower is).
Proof. apply sort_perm. Qed.
Lemma sort_items_sorted lower is : StronglySorted (fun a b => str_cmp (lower (it_name a)) (lower (it_name b)) <> Gt) (sort_items lower is).
Proof. destruct (str_pre (fun i => lower (it_name i))) as [T1 T2]. apply pre_sort; assumption. Qed.

(** ** The last write wins *)
Lemma get_last ws p pg rest : (forall w, In w rest -> fst w <> p) -> site_get (ws ++ (p, pg) :: rest)%list p = Some pg.
Proof.
  intros N. unfold site_get. rewrite rev_app_distr. cbn [rev]. rewrite <- app_assoc. cbn [app].
  assert (F : forall r, (forall w, In w r -> fst w <> p) -> forall t, find (fun w : write => String.eqb (fst w) p) (r ++ t)%list = find (fun w => String.eqb (fst w) p) t).
  { induction r as [|w r IH]; intros H t; cbn [app find]; [reflexivity|].
    destruct (String.eqb_spec (fst w) p) as [E|E]; [exfalso; exact (H w (or_introl eq_refl) E)|]. apply IH. intros v V. apply H. right. exact V. }
  rewrite F by (intros w W; apply N, in_rev, W). cbn [find fst]. rewrite String.eqb_refl. reflexivity.
Qed.
Lemma get_none ws p : (forall w, In w ws -> fst w <> p) <-> site_get ws p = None.
Proof.
  unfold site_get. match goal with |- context [@find ?A ?f ?l] => remember (@find A f l) as o eqn:F end. symmetry in F. destruct o as [w|]; split.
  - intros N. apply find_some in F as [I E]. apply in_rev in I. apply String.eqb_eq in E. exfalso. exact (N w I E).
  - intros H. discriminate H.
  - intros _. reflexivity.
  - intros _ w I E. apply in_rev in I. pose proof (find_none _ _ F w I) as X. cbn in X. rewrite E, String.eqb_refl in X. discriminate.
Qed.
Lemma get_in ws p pg : site_get ws p = Some pg -> In (p, pg) ws.
Proof.
  unfold site_get. match goal with |- context [@find ?A ?f ?l] => remember (@find A f l) as o eqn:F end. symmetry in F. destruct o as [[q w]|]; [|discriminate].
  cbn [snd]. intros [= ->]. apply find_some in F as [I E]. apply in_rev in I. cbn [fst] in E. apply String.eqb_eq in E. subst q. exact I.
Qed.
Lemma get_unique ws p pg : In (p, pg) ws -> (forall pg', In (p, pg') ws -> pg' = pg) -> site_get ws p = Some pg.
Proof.
  intros I U. destruct (site_get ws p) as [pg'|] eqn:G; [rewrite (U _ (get_in _ _ _ G)); reflexivity|]. exfalso.
  exact (proj2 (get_none ws p) G (p, pg) I eq_refl).
Qed.
Lemma get_some ws p pg : In (p, pg) ws -> exists pg', site_get ws p = Some pg'.
Proof.
  intros I. destruct (site_get ws p) as [pg'|] eqn:G; [eauto|]. exfalso. exact (proj2 (get_none ws p) G (p, pg) I eq_refl).
Qed.
