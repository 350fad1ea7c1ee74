(** Property theorems C36, C37 (dependency trees). *)
From Coq Require Import List NArith Ascii String Bool Arith Lia.
From Verif Require Import Base SemverModel SemverFacts StrLib VerText PkgModel UrlModel UrlProofs PropsSource LockModel LockSpec LockProofs TreeModel TreeSpec TreeProofs PropsLock.
Import ListNotations.

(** ** C36 *)
Lemma get_node l d j : locked l -> distinct_packages l -> locked_source (d_source d) ->
  node_get d (add_nodes 0 (lk_packages l) []) = Some j <-> exists q, nth_error (lk_packages l) j = Some q /\ names_package d q.
Proof.
  intros L D Ld.
  destruct (add_nodes_spec (lk_packages l) 0 []) as (H1 & H2 & H3).
  - apply Forall_forall. intros p Hp. apply (L p Hp).
  - exact D.
  - constructor.
  - exact I.
  - intros; constructor.
  - rewrite node_get_spec by assumption. split.
    + intros (k & Hin & E). apply H3 in Hin as [[]|(a & p & Ha & -> & ->)]. exists p. split; [exact Ha|]. apply dep_cmp_eq. exact E.
    + intros (q & Hq & N). exists (dep_of_package q). split; [|apply dep_cmp_eq; exact N]. apply H3. right. exists j, q. auto.
Qed.
Lemma names_self p : names_package (dep_of_package p) p.
Proof. split; [reflexivity|]. split; [reflexivity|]. apply same_source_refl. Qed.
Lemma parent_index l p i : locked l -> distinct_packages l -> nth_error (lk_packages l) i = Some p ->
  node_get (dep_of_package p) (add_nodes 0 (lk_packages l) []) = Some i.
Proof.
  intros L D Hi. apply (get_node l _ i L D); [apply (proj1 (L p (nth_error_In _ _ Hi)))|]. exists p. split; [exact Hi|apply names_self].
Qed.
Definition resolvable (l : lockfile) : Prop :=
  forall p d, In p (lk_packages l) -> In d (p_deps p) -> exists q, In q (lk_packages l) /\ names_package d q.
Lemma omap_spec {A B} (f : A -> outcome B) l : (forall x, In x l -> f x <> Panic) ->
  (exists r, omap f l = Ok r) \/ (omap f l = Err /\ exists x, In x l /\ f x = Err).
Proof.
  induction l as [|a l IH]; intros H; [left; exists []; reflexivity|]. cbn [omap].
  destruct (f a) as [y| |] eqn:E; cbn [obind].
  - destruct IH as [[r ->]|[-> (x & Hx & Ex)]]; [intros; apply H; right; assumption| |]; cbn [obind].
    + left. eauto.
    + right. split; [reflexivity|]. exists x. split; [right; exact Hx|exact Ex].
  - right. split; [reflexivity|]. exists a. split; [left; reflexivity|exact E].
  - exfalso. apply (H a); [left; reflexivity|exact E].
Qed.
Theorem C36_built_iff_resolvable : forall l, locked l -> distinct_packages l ->
  (resolvable l -> exists t, tree_new l = Ok t) /\ (~ resolvable l -> tree_new l = Err) /\ ((exists t, tree_new l = Ok t) -> resolvable l).
Proof.
  intros l L D. set (m := add_nodes 0 (lk_packages l) []).
  assert (GN : forall d j, locked_source (d_source d) -> node_get d m = Some j <-> exists q, nth_error (lk_packages l) j = Some q /\ names_package d q)
    by (intros; apply get_node; assumption).
  assert (R : forall p d, In p (lk_packages l) -> In d (p_deps p) ->
     (exists q, In q (lk_packages l) /\ names_package d q) <-> node_get d m <> None).
  { intros p d Hp Hd. assert (Ld : locked_source (d_source d)) by (apply (L p Hp); exact Hd). split.
    - intros (q & Hq & N). apply In_nth_error in Hq as [j Hj]. rewrite (proj2 (GN d j Ld)); [discriminate|eauto].
    - intros H. destruct (node_get d m) as [j|] eqn:E; [|congruence]. apply (GN d j Ld) in E as (q & Hq & N).
      exists q. split; [apply nth_error_In in Hq; exact Hq|exact N]. }
  assert (G : forall p, In p (lk_packages l) -> exists i, node_get (dep_of_package p) m = Some i).
  { intros p Hp. apply In_nth_error in Hp as [i Hi]. exists i. apply parent_index; assumption. }
  assert (P : forall p, In p (lk_packages l) -> package_edges m p <> Panic).
  { intros p Hp. unfold package_edges. destruct (G p Hp) as [i ->]. 
    destruct (omap_spec (fun d => match node_get d m with Some j => Ok (i, j) | None => Err end) (p_deps p)) as [[r ->]|[-> _]]; try discriminate.
    intros d _. destruct (node_get d m); discriminate. }
  assert (OkE : forall es p d, omap (package_edges m) (lk_packages l) = Ok es -> In p (lk_packages l) -> In d (p_deps p) -> node_get d m <> None).
  { intros es p d E Hp Hd Nd. apply In_nth_error in Hp as [i Hi]. destruct (omap_nth _ _ _ E i p Hi) as (e & _ & Ee).
    unfold package_edges in Ee. destruct (node_get (dep_of_package p) m); [|discriminate].
    apply In_nth_error in Hd as [k Hk]. destruct (omap_nth _ _ _ Ee k d Hk) as (y & _ & Ey). rewrite Nd in Ey. discriminate. }
  unfold tree_new. fold m. destruct (omap_spec (package_edges m) (lk_packages l) P) as [[es E]|[E (p & Hp & Ep)]]; rewrite E; cbn [obind].
  - split; [eauto|]. split; [|intros _].
    + intros N. exfalso. apply N. intros p d Hp Hd. apply (R p d Hp Hd). eapply OkE; eauto.
    + intros p d Hp Hd. apply (R p d Hp Hd). eapply OkE; eauto.
  - split; [|split; [reflexivity|intros [? ?]; discriminate]]. intros Res. exfalso.
    unfold package_edges in Ep. destruct (G p Hp) as [i Gi]. rewrite Gi in Ep.
    destruct (omap_spec (fun d => match node_get d m with Some j => Ok (i, j) | None => Err end) (p_deps p)) as [[r Er]|[_ (d & Hd & Ed)]].
    + intros d _. destruct (node_get d m); discriminate.
    + rewrite Er in Ep. discriminate.
    + pose proof (proj1 (R p d Hp Hd) (Res p d Hp Hd)) as X. destruct (node_get d m); [discriminate|congruence].
Qed.
Print Assumptions C36_built_iff_resolvable.

Theorem C36_edges_are_the_listed_dependencies : forall l t i j, locked l -> distinct_packages l -> tree_new l = Ok t ->
  t_packages t = lk_packages l /\ (In (i, j) (t_edges t) <-> lists l i j).
Proof.
  intros l t i j L D H. unfold tree_new in H. set (m := add_nodes 0 (lk_packages l) []) in *.
  assert (GN : forall d j, locked_source (d_source d) -> node_get d m = Some j <-> exists q, nth_error (lk_packages l) j = Some q /\ names_package d q)
    by (intros; apply get_node; assumption).
  assert (PI : forall p i, nth_error (lk_packages l) i = Some p -> node_get (dep_of_package p) m = Some i) by (intros; apply parent_index; assumption).
  destruct (omap (package_edges m) (lk_packages l)) as [es| |] eqn:E; try discriminate. cbn [obind] in H. injection H as <-.
  cbn [t_packages t_edges]. split; [reflexivity|]. rewrite in_concat. split.
  - intros (e & He & Hin). apply In_nth_error in He as [a Ha]. destruct (omap_nth_inv _ _ _ E a e Ha) as (p & Hp & Ep).
    unfold package_edges in Ep. rewrite (PI p a Hp) in Ep.
    apply In_nth_error in Hin as [k Hk]. destruct (omap_nth_inv _ _ _ Ep k _ Hk) as (d & Hd & Ed).
    destruct (node_get d m) as [b|] eqn:G; [|discriminate]. injection Ed as <- <-.
    assert (Ind : In d (p_deps p)) by (apply nth_error_In in Hd; exact Hd).
    apply (GN d b) in G as (q & Hq & N); [|apply (L p); [apply nth_error_In in Hp; exact Hp|exact Ind]].
    exists p, q, d. auto.
  - intros (p & q & d & Hp & Hq & Hd & N). destruct (omap_nth _ _ _ E i p Hp) as (e & He & Ee). exists e.
    split; [apply nth_error_In in He; exact He|]. unfold package_edges in Ee. rewrite (PI p i Hp) in Ee.
    assert (Ld : locked_source (d_source d)) by (apply (L p); [apply nth_error_In in Hp; exact Hp|exact Hd]).
    apply In_nth_error in Hd as [k Hk]. destruct (omap_nth _ _ _ Ee k d Hk) as (y & Hy & Ey).
    rewrite (proj2 (GN d j Ld)) in Ey by eauto. injection Ey as <-. apply nth_error_In in Hy. exact Hy.
Qed.
Print Assumptions C36_edges_are_the_listed_dependencies.

Theorem C36_roots_are_the_packages_nobody_lists : forall l t i, locked l -> distinct_packages l -> tree_new l = Ok t ->
  In i (roots t) <-> i < List.length (lk_packages l) /\ forall k, ~ lists l k i.
Proof.
  intros l t i L D H. unfold roots. rewrite filter_In, in_seq.
  destruct (C36_edges_are_the_listed_dependencies l t 0 0 L D H) as [-> _].
  assert (K : negb (existsb (fun e => Nat.eqb (snd e) i) (t_edges t)) = true <-> forall k, ~ lists l k i).
  { rewrite negb_true_iff. split.
    - intros E k Li. apply (C36_edges_are_the_listed_dependencies l t k i L D H) in Li.
      assert (existsb (fun e => Nat.eqb (snd e) i) (t_edges t) = true); [|congruence].
      apply existsb_exists. exists (k, i). split; [exact Li|apply Nat.eqb_refl].
    - intros N. apply not_true_is_false. intros E. apply existsb_exists in E as ([a b] & Hin & E). cbn in E. apply Nat.eqb_eq in E as ->.
      apply (N a). apply (C36_edges_are_the_listed_dependencies l t a i L D H). exact Hin. }
  rewrite K. split; intros [A B]; split; auto; lia.
Qed.
Print Assumptions C36_roots_are_the_packages_nobody_lists.

(** ** C37 *)
Section Render.
  Variable (t : tree) (dir : direction).
  Let next := neighbours t dir.
  Lemma memb_spec n l : reflect (In n l) (memb n l).
  Proof.
    unfold memb. destruct (existsb (Nat.eqb n) l) eqn:E; constructor.
    - apply existsb_exists in E as (x & Hx & E). apply Nat.eqb_eq in E as ->. exact Hx.
    - intros H. assert (existsb (Nat.eqb n) l = true); [|congruence]. apply existsb_exists. exists n. split; [exact H|apply Nat.eqb_refl].
  Qed.
  Fixpoint lines_all (levels : list bool) (ks : list rose) : list line :=
    match ks with
    | [] => []
    | k :: r => (lines (levels ++ [match r with [] => false | _ => true end]) k ++ lines_all levels r)%list
    end.
  Lemma lines_full levels n kids : lines levels (Full n kids) = (levels, n) :: lines_all levels kids.
  Proof. cbn. f_equal. induction kids as [|k r IH]; [reflexivity|]. cbn. rewrite IH. reflexivity. Qed.

  Lemma print_shape fuel : forall n vis levels o vis', print_node fuel t dir n vis levels = Some (o, vis') ->
    exists T, root_of T = n /\ o = lines levels T /\ shown next vis T vis'.
  Proof.
    induction fuel as [|f IH]; intros n vis levels o vis' H; [discriminate|]. cbn [print_node] in H.
    destruct (memb_spec n vis) as [M|M]; [injection H as <- <-; exists (Again n); repeat split; constructor; exact M|].
    assert (A : forall cs vis levels o vis', print_all (print_node f t dir) cs vis levels = Some (o, vis') ->
       exists Ts, map root_of Ts = cs /\ o = lines_all levels Ts /\ shown_all next vis Ts vis').
    { clear H. induction cs as [|c cs IHc]; intros v0 lv o0 v1 H; cbn [print_all] in H.
      - injection H as <- <-. exists []. repeat split. constructor.
      - destruct (print_node f t dir c v0 (lv ++ [match cs with [] => false | _ => true end])) as [[o1 w1]|] eqn:E1; [|discriminate].
        destruct (print_all (print_node f t dir) cs w1 lv) as [[o2 w2]|] eqn:E2; [|discriminate]. injection H as <- <-.
        destruct (IH _ _ _ _ _ E1) as (T & R & -> & S). destruct (IHc _ _ _ _ E2) as (Ts & Rs & -> & Ss).
        exists (T :: Ts). cbn [map]. rewrite R, Rs. split; [reflexivity|]. split; [|econstructor; eauto].
        cbn [lines_all]. destruct cs, Ts; try discriminate; reflexivity. }
    destruct (print_all _ _ _ _) as [[o1 w1]|] eqn:E; [|discriminate]. injection H as <- <-.
    destruct (A _ _ _ _ _ E) as (Ts & Rs & -> & Ss). exists (Full n Ts). split; [reflexivity|].
    split; [rewrite lines_full; reflexivity|]. constructor; assumption.
  Qed.

  (** *** Termination *)
  Definition closed (N : nat) : Prop := forall n m, n < N -> In m (next n) -> m < N.
  Definition unvisited (N : nat) (vis : list nat) : nat := List.length (filter (fun i => negb (memb i vis)) (seq 0 N)).
  Lemma filter_le {A} (f g : A -> bool) l : (forall x, g x = true -> f x = true) -> List.length (filter g l) <= List.length (filter f l).
  Proof.
    intros H. induction l as [|a l IH]; [reflexivity|]. cbn. destruct (g a) eqn:G; [rewrite (H a G); cbn; lia|]. destruct (f a); cbn; lia.
  Qed.
  Lemma filter_lt {A} (f g : A -> bool) l x : (forall y, g y = true -> f y = true) -> In x l -> f x = true -> g x = false ->
    List.length (filter g l) < List.length (filter f l).
  Proof.
    intros H. induction l as [|a l IH]; intros Hin Fx Gx; [destruct Hin|]. cbn.
    pose proof (filter_le f g l H) as Le.
    destruct Hin as [->|Hin]; [rewrite Fx, Gx; cbn; lia|]. specialize (IH Hin Fx Gx).
    destruct (g a) eqn:G; [rewrite (H a G); cbn; lia|]. destruct (f a); cbn; lia.
  Qed.
  Lemma unvisited_le N a b : incl a b -> unvisited N b <= unvisited N a.
  Proof.
    intros H. apply filter_le. intros x. destruct (memb_spec x b), (memb_spec x a); cbn; try discriminate; auto.
  Qed.
  Lemma unvisited_lt N a n : n < N -> ~ In n a -> unvisited N (n :: a) < unvisited N a.
  Proof.
    intros Hn Ha. apply (filter_lt _ _ _ n).
    - intros x. destruct (memb_spec x (n :: a)) as [|X]; [discriminate|]. intros _. destruct (memb_spec x a); [exfalso; apply X; right; assumption|reflexivity].
    - apply in_seq. lia.
    - destruct (memb_spec n a); [contradiction|reflexivity].
    - destruct (memb_spec n (n :: a)) as [|X]; [reflexivity|exfalso; apply X; left; reflexivity].
  Qed.
  Scheme shown_ind2 := Induction for shown Sort Prop with shown_all_ind2 := Induction for shown_all Sort Prop.
  Combined Scheme shown_mutind from shown_ind2, shown_all_ind2.
  Lemma shown_incl :
    (forall b T a, shown next b T a -> incl b a) /\ (forall b Ts a, shown_all next b Ts a -> incl b a).
  Proof.
    apply (shown_mutind next (fun b T a _ => incl b a) (fun b Ts a _ => incl b a)).
    - intros. apply incl_refl.
    - intros before n kids after _ _ _ H x Hx. apply H. right. exact Hx.
    - intros. apply incl_refl.
    - intros before T after ts last _ H1 _ H2 x Hx. auto.
  Qed.
  Lemma print_terminates N fuel : closed N -> forall n vis levels, n < N -> unvisited N vis < fuel ->
    exists r, print_node fuel t dir n vis levels = Some r.
  Proof.
    intros C. induction fuel as [|f IH]; intros n vis levels Hn Hf; [lia|]. cbn [print_node].
    destruct (memb_spec n vis) as [M|M]; [eauto|].
    assert (A : forall cs vis0 levels, (forall c, In c cs -> c < N) -> unvisited N vis0 < f ->
      exists r, print_all (print_node f t dir) cs vis0 levels = Some r).
    { induction cs as [|c cs IHc]; intros v0 lv Hc Hv; [eexists; reflexivity|]. cbn [print_all].
      destruct (IH c v0 (lv ++ [match cs with [] => false | _ => true end])) as [[o1 v1] E]; [apply Hc; left; reflexivity|exact Hv|].
      rewrite E. destruct (print_shape _ _ _ _ _ _ E) as (T & _ & _ & S). apply (proj1 shown_incl) in S.
      pose proof (unvisited_le N _ _ S). destruct (IHc v1 lv) as [[o2 v2] E2]; [intros; apply Hc; right; assumption|lia|]. rewrite E2. eauto. }
    pose proof (unvisited_lt N vis n Hn M).
    destruct (A (neighbours t dir n) (n :: vis) levels) as [[o v] E]; [intros c Hc; apply (C n); assumption|lia|]. rewrite E. eauto.
  Qed.

  (** *** What is expanded *)
  Lemma shown_nodup :
    (forall b T a, shown next b T a -> NoDup b -> NoDup a) /\ (forall b Ts a, shown_all next b Ts a -> NoDup b -> NoDup a).
  Proof.
    apply (shown_mutind next (fun b T a _ => NoDup b -> NoDup a) (fun b Ts a _ => NoDup b -> NoDup a)); auto.
    intros before n kids after N _ _ H D. apply H. constructor; assumption.
  Qed.
  Lemma shown_root :
    (forall b T a, shown next b T a -> In (root_of T) a) /\ (forall b Ts a, shown_all next b Ts a -> forall T, In T Ts -> In (root_of T) a).
  Proof.
    apply (shown_mutind next (fun b T a _ => In (root_of T) a) (fun b Ts a _ => forall T, In T Ts -> In (root_of T) a)).
    - intros; assumption.
    - intros before n kids after N M S H. apply (proj2 shown_incl) in S. apply S. left. reflexivity.
    - intros before T [].
    - intros before T after ts last S1 H1 S2 H2 U [<-|Hin]; [|auto]. apply (proj2 shown_incl) in S2. auto.
  Qed.
  (** Newly expanded packages have all their neighbours expanded. *)
  Lemma shown_closed :
    (forall b T a, shown next b T a -> forall x, In x a -> In x b \/ incl (next x) a) /\
    (forall b Ts a, shown_all next b Ts a -> forall x, In x a -> In x b \/ incl (next x) a).
  Proof.
    apply (shown_mutind next (fun b T a _ => forall x, In x a -> In x b \/ incl (next x) a)
                             (fun b Ts a _ => forall x, In x a -> In x b \/ incl (next x) a)); auto.
    - intros before n kids after N M S H x Hx. destruct (H x Hx) as [[<-|Hb]|Hi]; auto. right.
      rewrite <- M. intros y Hy. apply in_map_iff in Hy as (T & <- & HT). apply (proj2 shown_root _ _ _ S T HT).
    - intros before T after ts last S1 H1 S2 H2 x Hx. destruct (H2 x Hx) as [Ha|Hi]; [|auto].
      destruct (H1 x Ha) as [Hb|Hi]; [auto|]. right. intros y Hy. apply (proj2 shown_incl _ _ _ S2). auto.
  Qed.
  Lemma shown_reachable r :
    (forall b T a, shown next b T a -> reachable next r (root_of T) -> (forall x, In x b -> reachable next r x) -> forall x, In x a -> reachable next r x) /\
    (forall b Ts a, shown_all next b Ts a -> (forall T, In T Ts -> reachable next r (root_of T)) -> (forall x, In x b -> reachable next r x) -> forall x, In x a -> reachable next r x).
  Proof.
    apply (shown_mutind next
      (fun b T a _ => reachable next r (root_of T) -> (forall x, In x b -> reachable next r x) -> forall x, In x a -> reachable next r x)
      (fun b Ts a _ => (forall T, In T Ts -> reachable next r (root_of T)) -> (forall x, In x b -> reachable next r x) -> forall x, In x a -> reachable next r x)); auto.
    - intros before n kids after N M S H R B. apply H.
      + intros T HT. apply (reach_step next r n); [exact R|]. rewrite <- M. apply in_map. exact HT.
      + intros x [<-|Hx]; [exact R|auto].
    - intros before T after ts last S1 H1 S2 H2 R B. apply H2; [intros; apply R; right; assumption|].
      apply H1; [apply R; left; reflexivity|exact B].
  Qed.
End Render.

Lemma neighbours_bound l t dir : locked l -> distinct_packages l -> tree_new l = Ok t ->
  closed t dir (List.length (t_packages t)).
Proof.
  intros L D H n m _ Hm.
  assert (B : forall i j, In (i, j) (t_edges t) -> i < List.length (t_packages t) /\ j < List.length (t_packages t)).
  { intros i j Hin. destruct (C36_edges_are_the_listed_dependencies l t i j L D H) as [-> E]. apply E in Hin as (p & q & d & Hp & Hq & _).
    split; apply nth_error_Some; congruence. }
  destruct dir; cbn in Hm; apply in_rev in Hm; apply in_map_iff in Hm as ([a b] & <- & Hf); apply filter_In in Hf as [Hf _]; cbn; apply (B a b Hf).
Qed.

(** Rendering a tree from any node, in either direction, terminates; the lines are those of a tree that starts
    at that node, in which exactly the packages reachable from it are expanded, each exactly once, at its first
    occurrence, with all its neighbours. *)
Theorem C37_render_terminates_and_expands_once : forall l t n dir,
  locked l -> distinct_packages l -> tree_new l = Ok t -> n < List.length (lk_packages l) ->
  exists T expanded, render t n dir = Some (lines [] T) /\ root_of T = n /\
    shown (neighbours t dir) [] T expanded /\ NoDup expanded /\
    (forall m, In m expanded <-> reachable (neighbours t dir) n m).
Proof.
  intros l t n dir L D H Hn.
  destruct (C36_edges_are_the_listed_dependencies l t 0 0 L D H) as [EP _].
  assert (Hn' : n < List.length (t_packages t)) by (rewrite EP; exact Hn).
  destruct (print_terminates t dir (List.length (t_packages t)) (S (List.length (t_packages t))) (neighbours_bound l t dir L D H) n [] [] Hn') as [[o v] E].
  { unfold unvisited. pose proof (filter_le (fun _ => true) (fun i => negb (memb i [])) (seq 0 (List.length (t_packages t))) (fun _ _ => eq_refl)) as K.
    assert (filter (fun _ : nat => true) (seq 0 (List.length (t_packages t))) = seq 0 (List.length (t_packages t))) as K2.
    { generalize (seq 0 (List.length (t_packages t))). induction l0; cbn; congruence. }
    rewrite K2, seq_length in K. lia. }
  destruct (print_shape t dir _ _ _ _ _ _ E) as (T & R & -> & S). exists T, v. unfold render. rewrite E.
  split; [reflexivity|]. split; [exact R|]. split; [exact S|]. split; [apply (proj1 (shown_nodup t dir) _ _ _ S); constructor|].
  intros m. split.
  - intros Hm. apply (proj1 (shown_reachable t dir n) _ _ _ S); [rewrite R; constructor|intros x []|exact Hm].
  - induction 1 as [|a b _ IH Hb]; [rewrite <- R; apply (proj1 (shown_root t dir) _ _ _ S)|].
    destruct (proj1 (shown_closed t dir) _ _ _ S a IH) as [[]|I]. apply I. exact Hb.
Qed.
Print Assumptions C37_render_terminates_and_expands_once.

(** Hence the packages printed are exactly the reachable ones. *)
Lemma lines_nodes t dir :
  (forall b T a, shown (neighbours t dir) b T a -> forall lv x, In x (map snd (lines lv T)) -> In x a) /\
  (forall b Ts a, shown_all (neighbours t dir) b Ts a -> forall lv x, In x (map snd (lines_all lv Ts)) -> In x a).
Proof.
  apply (shown_mutind (neighbours t dir) (fun b T a _ => forall lv x, In x (map snd (lines lv T)) -> In x a)
     (fun b Ts a _ => forall lv x, In x (map snd (lines_all lv Ts)) -> In x a)).
  - intros before n Hn lv x [<-|[]]. exact Hn.
  - intros before n kids after N M S H lv x. rewrite lines_full. cbn [map snd In]. intros [<-|Hx]; [|eauto].
    apply (proj2 (shown_incl t dir) _ _ _ S). left. reflexivity.
  - intros before lv x [].
  - intros before T after ts last S1 H1 S2 H2 lv x. cbn [lines_all]. rewrite map_app, in_app_iff. intros [Hx|Hx]; [|eauto].
    apply (proj2 (shown_incl t dir) _ _ _ S2). eauto.
Qed.
Lemma expanded_printed t dir :
  (forall b T a, shown (neighbours t dir) b T a -> forall lv x, In x a -> In x b \/ In x (map snd (lines lv T))) /\
  (forall b Ts a, shown_all (neighbours t dir) b Ts a -> forall lv x, In x a -> In x b \/ In x (map snd (lines_all lv Ts))).
Proof.
  apply (shown_mutind (neighbours t dir) (fun b T a _ => forall lv x, In x a -> In x b \/ In x (map snd (lines lv T)))
     (fun b Ts a _ => forall lv x, In x a -> In x b \/ In x (map snd (lines_all lv Ts)))); auto.
  - intros before n kids after N M S H lv x Hx. rewrite lines_full. cbn [map snd In]. destruct (H lv x Hx) as [[<-|Hb]|Hl]; auto.
  - intros before T after ts last S1 H1 S2 H2 lv x Hx. cbn [lines_all]. rewrite map_app, in_app_iff.
    destruct (H2 lv x Hx) as [Ha|Hl]; [|auto]. destruct (H1 (lv ++ [match ts with [] => false | _ => true end])%list x Ha) as [Hb|Hl]; auto.
Qed.
Theorem C37_prints_exactly_the_reachable_packages : forall l t n dir,
  locked l -> distinct_packages l -> tree_new l = Ok t -> n < List.length (lk_packages l) ->
  exists out, render t n dir = Some out /\ forall m, In m (map snd out) <-> reachable (neighbours t dir) n m.
Proof.
  intros l t n dir L D H Hn. destruct (C37_render_terminates_and_expands_once l t n dir L D H Hn) as (T & v & E & R & S & _ & X).
  exists (lines [] T). split; [exact E|]. intros m. rewrite <- X. split.
  - apply (proj1 (lines_nodes t dir) _ _ _ S).
  - intros Hm. destruct (proj1 (expanded_printed t dir) _ _ _ S [] m Hm) as [[]|K]. exact K.
Qed.
Print Assumptions C37_prints_exactly_the_reachable_packages.
(** Reachability along the printed edges is reachability along listed dependencies. *)
Theorem C37_neighbours : forall l t i j, locked l -> distinct_packages l -> tree_new l = Ok t ->
  (In j (neighbours t Outgoing i) <-> lists l i j) /\ (In j (neighbours t Incoming i) <-> lists l j i).
Proof.
  intros l t i j L D H.
  split; [destruct (C36_edges_are_the_listed_dependencies l t i j L D H) as [_ <-]|destruct (C36_edges_are_the_listed_dependencies l t j i L D H) as [_ <-]];
    cbn [neighbours]; rewrite <- in_rev, in_map_iff; split.
  - intros ([a b] & <- & Hf). apply filter_In in Hf as [Hf E]. cbn in *. apply Nat.eqb_eq in E as ->. exact Hf.
  - intros Hin. exists (i, j). split; [reflexivity|]. apply filter_In. split; [exact Hin|apply Nat.eqb_refl].
  - intros ([a b] & <- & Hf). apply filter_In in Hf as [Hf E]. cbn in *. apply Nat.eqb_eq in E as ->. exact Hf.
  - intros Hin. exists (j, i). split; [reflexivity|]. apply filter_In. split; [exact Hin|apply Nat.eqb_refl].
Qed.
Print Assumptions C37_neighbours.

(** ** Example: the lockfile of C30 has a cycle (foo 2.0.0 and bar depend on each other). *)
Local Open Scope string_scope.
Definition cyc_bar := mkPkg "bar" (ver 0 1 0) (Some ex_git) None [mkDep "foo" (ver 2 0 0) (Some ex_reg); mkDep "foo" (ver 1 0 0) (Some ex_reg)] None.
Definition cyc_lock := mkLock V3 [ex_app; cyc_bar; ex_foo1; ex_foo2] None [] [].
Lemma cyc_locked : locked cyc_lock.
Proof.
  intros p Hp. assert (K : forall s, In s [None; Some ex_reg; Some ex_git] -> locked_source s).
  { intros s [<-|[<-|[<-|[]]]]; [exact I|intros [? ?]; discriminate|intros _; discriminate]. }
  destruct Hp as [<-|[<-|[<-|[<-|[]]]]]; (split; [apply K; cbn; tauto|]); intros d Hd; cbn in Hd;
    repeat (destruct Hd as [<-|Hd]; [apply K; cbn; tauto|]); destruct Hd.
Qed.
Lemma cyc_distinct : distinct_packages cyc_lock.
Proof.
  intros i j p q Hi Hj (N & V & _).
  destruct i as [|[|[|[|i]]]]; cbn in Hi; try (injection Hi as <-); try (destruct i; discriminate);
    destruct j as [|[|[|[|j]]]]; cbn in Hj; try (injection Hj as <-); try (destruct j; discriminate); try reflexivity;
    solve [discriminate N|discriminate V].
Qed.
Example C36_C37_nonvacuous :
  locked cyc_lock /\ distinct_packages cyc_lock /\
  exists t, tree_new cyc_lock = Ok t /\ roots t = [0%nat] /\
   t_edges t = [(0, 1); (0, 2); (0, 3); (1, 3); (1, 2); (3, 1)]%nat /\
   render t 0 Outgoing = Some [([], 0); ([true], 3); ([true; false], 1); ([true; false; true], 2); ([true; false; false], 3); ([true], 2); ([false], 1)]%nat.
Proof.
  split; [apply cyc_locked|]. split; [apply cyc_distinct|]. eexists. split; [vm_compute; reflexivity|]. repeat split; reflexivity.
Qed.
Example C36_missing_dependency : tree_new (mkLock V3 [ex_app] None [] []) = Err.
Proof. reflexivity. Qed.
(** The assumption that no package is listed twice is needed: with a package listed twice, the first copy
    has no edges although it lists dependencies. *)
Theorem C36_duplicate_packages_refuted : exists t,
  tree_new (mkLock V3 [ex_app; ex_app; ex_bar; ex_foo1; ex_foo2; ex_foo2g] None [] []) = Ok t /\
  p_deps ex_app <> [] /\ neighbours t Outgoing 0 = [] /\ roots t = [0; 1]%nat.
Proof. eexists. split; [vm_compute; reflexivity|]. split; [discriminate|]. split; reflexivity. Qed.
Print Assumptions C36_duplicate_packages_refuted.
