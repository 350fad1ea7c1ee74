(** Property theorems C75: [cargo lock list] and [cargo lock tree]. *)
From Coq Require Import List NArith Ascii String Bool Lia Arith.
From Verif Require Import Base SemverModel SemverFacts StrLib VerText PkgModel UrlModel UrlSpec UrlProofs SumModel LockModel LockSpec LockProofs
  PropsSource PropsLock TreeModel TreeSpec TreeProofs PropsTree LockCliModel LockCliSpec PropsLockCli.
Import ListNotations.
Local Open Scope string_scope.
Local Infix "++" := String.append (right associativity, at level 60).

(** ** Selecting *)
Lemma matches_ver p x : version_wf (p_version p) = true -> package_matches_ver p x = true <-> identified p x.
Proof.
  intros W. unfold package_matches_ver, identified. destruct (parse_version x) as [v|] eqn:E.
  - destruct (parse_version_inv _ _ E) as [Wv Pv]. split.
    + intros H. left. destruct (version_eqb_spec (p_version p) v) as [ ->|]; [symmetry; exact Pv|discriminate].
    + intros [H|[H _]]; [|exfalso; apply (H v eq_refl)].
      assert (p_version p = v) as -> by (apply print_version_inj; congruence). destruct (version_eqb_spec v v); [reflexivity|congruence].
  - split.
    + intros H. right. split; [discriminate|]. apply orb_prop in H as [H|H].
      * left. destruct (p_checksum p) as [c|]; [|discriminate]. apply String.eqb_eq in H. eauto.
      * right. destruct (p_source p) as [s|]; [|discriminate]. destruct (s_precise s) as [y|] eqn:Y; [|discriminate]. apply String.eqb_eq in H as ->. eauto.
    + intros [H|[_ [(c & Hc & ->)|(s & Hs & Hp)]]].
      * subst x. rewrite (parse_print_version _ W) in E. discriminate.
      * rewrite Hc, String.eqb_refl. reflexivity.
      * rewrite Hs, Hp, String.eqb_refl. apply orb_true_r.
Qed.
Theorem C75_which_packages_an_argument_selects : forall p spec, version_wf (p_version p) = true ->
  package_matches p spec = true <-> selects spec p.
Proof.
  intros p spec W. unfold package_matches, package_matches_name, selects. destruct (split_once "@" spec) as [[n x]|] eqn:E.
  - apply split_once_spec in E as [-> Hn]. split.
    + intros H. apply andb_prop in H as [H1 H2]. apply String.eqb_eq in H1. apply matches_ver in H2; [|exact W]. left. exists n, x. auto.
    + intros [(n' & x' & E & Hn' & Nm & Id)|[H _]].
      * pose proof (split_once_app "@" n x Hn) as A. rewrite E, (split_once_app "@" n' x' Hn') in A. injection A as -> ->.
        rewrite Nm, String.eqb_refl. cbn. apply matches_ver; assumption.
      * rewrite has_char_app in H. cbn in H. rewrite orb_true_r in H. discriminate.
  - apply split_once_none in E. split.
    + intros H. right. split; [exact E|]. apply orb_prop in H as [H|H]; [left; apply String.eqb_eq; exact H|right; apply matches_ver; assumption].
    + intros [(n' & x' & E' & _)|[_ [H|H]]].
      * subst spec. rewrite has_char_app in E. cbn in E. rewrite orb_true_r in E. discriminate.
      * rewrite H, String.eqb_refl. reflexivity.
      * apply matches_ver in H; [|exact W]. rewrite H. apply orb_true_r.
Qed.
Print Assumptions C75_which_packages_an_argument_selects.

(** ** The trees drawn *)
Lemma find_first {A} (f : A -> bool) l x : find f l = Some x ->
  exists i, nth_error l i = Some x /\ f x = true /\ forall j y, j < i -> nth_error l j = Some y -> f y = false.
Proof.
  induction l as [|a l IH]; cbn; [discriminate|]. destruct (f a) eqn:E.
  - intros H; injection H as <-. exists 0. split; [reflexivity|]. split; [exact E|]. intros j y Hj; lia.
  - intros H. destruct (IH H) as (i & Hi & Hx & A1). exists (S i). split; [exact Hi|]. split; [exact Hx|].
    intros [|j] y Hj Hy; [cbn in Hy; congruence|]. cbn in Hy. apply (A1 j y); [lia|exact Hy].
Qed.
Definition versions_wf (l : lockfile) : Prop := forall p, In p (lk_packages l) -> version_wf (p_version p) = true.
Lemma find_selected l spec : versions_wf l ->
  match find (fun p => package_matches p spec) (lk_packages l) with
  | Some p => exists i, nth_error (lk_packages l) i = Some p /\ first_selected l spec i
  | None => forall p, In p (lk_packages l) -> ~ selects spec p
  end.
Proof.
  intros W. destruct (find _ _) as [p|] eqn:F.
  - destruct (find_first _ _ _ F) as (i & Hi & Hx & A). exists i. split; [exact Hi|]. split.
    + exists p. split; [exact Hi|]. apply C75_which_packages_an_argument_selects; [|exact Hx]. apply W. eapply nth_error_In; exact Hi.
    + intros j q Hj Hq S. apply C75_which_packages_an_argument_selects in S; [|apply W; eapply nth_error_In; exact Hq].
      rewrite (A j q Hj Hq) in S. discriminate.
  - intros p Hp S. apply C75_which_packages_an_argument_selects in S; [|apply W; exact Hp]. pose proof (find_none _ _ F p Hp) as K. cbv beta in K. congruence.
Qed.
Lemma first_selected_unique l spec i j : first_selected l spec i -> first_selected l spec j -> i = j.
Proof.
  intros [(p & Hp & Sp) A] [(q & Hq & Sq) B]. destruct (Nat.lt_trichotomy i j) as [H|[H|H]]; [|exact H|].
  - exfalso. apply (B i p H Hp Sp).
  - exfalso. apply (A j q H Hq Sq).
Qed.
Lemma tree_nodes l t : tree_new l = Ok t -> t_nodes t = add_nodes 0 (lk_packages l) [].
Proof. unfold tree_new. destruct (omap _ _); try discriminate. cbn [obind]. intros H; injection H as <-. reflexivity. Qed.
Lemma indices_spec l t specs : versions_wf l -> locked l -> distinct_packages l -> tree_new l = Ok t -> specs <> [] ->
  match tree_indices l t specs with
  | Ok is => Forall2 (first_selected l) specs is
  | Err => exists spec, In spec specs /\ forall p, In p (lk_packages l) -> ~ selects spec p
  | Panic => False
  end.
Proof.
  intros W Lk Di T Ne. unfold tree_indices. destruct specs as [|s0 specs0]; [congruence|]. clear Ne. generalize (s0 :: specs0). clear s0 specs0.
  intros specs. rewrite (tree_nodes l t T). induction specs as [|s specs IH]; cbn [omap]; [constructor|].
  pose proof (find_selected l s W) as F. destruct (find _ _) as [p|].
  - destruct F as (i & Hi & Fi). rewrite (parent_index l p i Lk Di Hi). cbn [obind]. destruct (omap _ specs) as [is| |]; cbn [obind].
    + constructor; assumption.
    + destruct IH as (spec & Hs & A). exists spec. split; [right; exact Hs|exact A].
    + exact IH.
  - cbn [obind]. exists s. split; [left; reflexivity|exact F].
Qed.

(** A tree drawn from package number [i]: every package reachable from it is expanded exactly once. *)
Definition drawn_from (t : tree) (dir : direction) (i : nat) (T : rose) : Prop :=
  root_of T = i /\ exists expanded, shown (neighbours t dir) [] T expanded /\ NoDup expanded /\
    forall m, In m expanded <-> reachable (neighbours t dir) i m.
Fixpoint with_blank_lines (blocks : list (list string)) : list string :=
  match blocks with
  | [] => []
  | b :: r => (b ++ match r with [] => [] | _ => "" :: with_blank_lines r end)%list
  end.
Lemma draw_spec l t exact dir is : locked l -> distinct_packages l -> tree_new l = Ok t -> Forall (fun i => i < List.length (lk_packages l)) is ->
  exists Ts, Forall2 (drawn_from t dir) is Ts /\
    draw_trees exact t dir is = Some (with_blank_lines (map (fun T => map (line_text exact (lk_packages l)) (lines [] T)) Ts)).
Proof.
  intros Lk Di T. destruct (C36_edges_are_the_listed_dependencies l t 0 0 Lk Di T) as [EP _].
  induction 1 as [|i is Hi _ IH]; [exists []; split; [constructor|reflexivity]|].
  destruct IH as (Ts & F & E). destruct (C37_render_terminates_and_expands_once l t i dir Lk Di T Hi) as (T1 & ex & R & Ro & S & Nd & X).
  exists (T1 :: Ts). split; [constructor; [|exact F]; split; [exact Ro|]; exists ex; auto|].
  cbn [draw_trees]. rewrite R, E, EP. cbn [map with_blank_lines]. do 2 f_equal.
  inversion F; subst; cbn [map]; reflexivity.
Qed.

(** The command, completely: it fails exactly if a dependency cannot be resolved or an argument selects no
    package; otherwise it draws, for each argument in turn, the tree of the first package it selects. *)
Theorem C75_tree_command : forall l exact inverse specs, versions_wf l -> locked l -> distinct_packages l -> specs <> [] ->
  match cmd_tree exact inverse specs l with
  | Ok ls => resolvable l /\ exists t is Ts, tree_new l = Ok t /\ Forall2 (first_selected l) specs is /\
      Forall2 (drawn_from t (if inverse then Incoming else Outgoing)) is Ts /\
      ls = with_blank_lines (map (fun T => map (line_text exact (lk_packages l)) (lines [] T)) Ts)
  | Err => ~ resolvable l \/ exists spec, In spec specs /\ forall p, In p (lk_packages l) -> ~ selects spec p
  | Panic => False
  end.
Proof.
  intros l exact inverse specs W Lk Di Ne. unfold cmd_tree. destruct (C36_built_iff_resolvable l Lk Di) as (B & NP & B').
  destruct (tree_new l) as [t| |] eqn:T; cbn [obind].
  - assert (Rs : resolvable l) by (apply B'; eauto). pose proof (indices_spec l t specs W Lk Di T Ne) as I.
    destruct (tree_indices l t specs) as [is| |]; cbn [obind]; [|right; exact I|exact I].
    assert (Bd : Forall (fun i => i < List.length (lk_packages l)) is).
    { clear -I. induction I as [|s i ss is [(p & Hp & _) _] _ IH]; constructor; auto. apply nth_error_Some. congruence. }
    destruct (draw_spec l t exact (if inverse then Incoming else Outgoing) is Lk Di T Bd) as (Ts & F & E). rewrite E.
    split; [exact Rs|]. exists t, is, Ts. auto.
  - left. intros R. apply B in R as [t R]. discriminate.
  - assert (~ resolvable l) as N by (intros R; apply B in R as [t R]; discriminate). specialize (NP N). discriminate.
Qed.
Print Assumptions C75_tree_command.

(** ** Without arguments *)
(** Package [i] is used, directly or through others, by package [k]. *)
Inductive uses (l : lockfile) (k : nat) : nat -> Prop :=
| uses_one i : lists l k i -> uses l k i
| uses_more i j : uses l k i -> lists l i j -> uses l k j.
Definition acyclic (l : lockfile) : Prop := forall i, ~ uses l i i.

Fixpoint chain (l : lockfile) (c : list nat) : Prop :=
  match c with
  | a :: ((b :: _) as r) => lists l a b /\ chain l r
  | _ => True
  end.
Lemma lists_bound l i j : lists l i j -> i < List.length (lk_packages l) /\ j < List.length (lk_packages l).
Proof. intros (p & q & d & Hp & Hq & _). split; apply nth_error_Some; congruence. Qed.
Lemma uses_left l a b c : lists l a b -> uses l b c -> uses l a c.
Proof. intros H. induction 1 as [i Hi|i j _ IH Hj]; [eapply uses_more; [apply uses_one; exact H|exact Hi]|eapply uses_more; eauto]. Qed.
Lemma chain_uses l a r x : chain l (a :: r) -> In x r -> uses l a x.
Proof.
  revert a. induction r as [|b r IH]; intros a C Hx; [destruct Hx|]. destruct C as [C1 C2]. destruct Hx as [ ->|Hx]; [apply uses_one; exact C1|].
  eapply uses_left; [exact C1|]. apply IH; assumption.
Qed.
Lemma chain_nodup l c : acyclic l -> chain l c -> NoDup c.
Proof.
  intros A. induction c as [|a c IH]; intros C; constructor.
  - intros H. apply (A a). eapply chain_uses; eauto.
  - apply IH. destruct c; [exact I|]. apply C.
Qed.
Lemma chain_reach l t c x i : locked l -> distinct_packages l -> tree_new l = Ok t -> chain l (x :: c) -> last (x :: c) 0 = i ->
  reachable (neighbours t Outgoing) x i.
Proof.
  intros Lk Di T. revert x. induction c as [|b c IH]; intros x C H; [cbn in H; subst; constructor|]. destruct C as [C1 C2].
  assert (reachable (neighbours t Outgoing) b i) as R by (apply IH; [exact C2|exact H]).
  clear -R C1 Lk Di T. induction R as [|m k _ IH Hk]; [|eapply reach_step; [exact IH|exact Hk]].
  eapply reach_step; [constructor|]. apply (C37_neighbours l t x b Lk Di T). exact C1.
Qed.
Lemma root_above l t i : locked l -> distinct_packages l -> tree_new l = Ok t -> acyclic l -> i < List.length (lk_packages l) ->
  exists r, In r (roots t) /\ reachable (neighbours t Outgoing) r i.
Proof.
  intros Lk Di T A Hi. set (N := List.length (lk_packages l)).
  assert (Go : forall k, (exists r, In r (roots t) /\ reachable (neighbours t Outgoing) r i) \/
     exists x c, List.length c = k /\ chain l (x :: c) /\ last (x :: c) 0 = i /\ Forall (fun y => y < N) (x :: c)).
  { induction k as [|k IH].
    - right. exists i, []. repeat split. constructor; [exact Hi|constructor].
    - destruct IH as [R|(x & c & Lc & C & La & B)]; [left; exact R|].
      destruct (in_dec Nat.eq_dec x (roots t)) as [Rx|Rx].
      + left. exists x. split; [exact Rx|]. eapply chain_reach; eauto.
      + right. assert (exists y, lists l y x) as [y Hy].
        { unfold roots in Rx. destruct (existsb (fun e => Nat.eqb (snd e) x) (t_edges t)) eqn:E.
          - apply existsb_exists in E as ([a b] & Hin & E). cbn in E. apply Nat.eqb_eq in E as ->. exists a.
            apply (C36_edges_are_the_listed_dependencies l t a x Lk Di T). exact Hin.
          - exfalso. apply Rx. apply filter_In. rewrite E. split; [|reflexivity]. apply in_seq.
            destruct (C36_edges_are_the_listed_dependencies l t 0 0 Lk Di T) as [-> _]. inversion B; subst. fold N. lia. }
        exists y, (x :: c). split; [cbn; congruence|]. split; [split; assumption|]. split; [exact La|].
        constructor; [apply (lists_bound l y x Hy)|exact B]. }
  destruct (Go N) as [R|(x & c & Lc & C & _ & B)]; [exact R|]. exfalso.
  pose proof (chain_nodup l (x :: c) A C) as ND.
  assert (incl (x :: c) (seq 0 N)) as In_ by (intros y Hy; rewrite Forall_forall in B; apply in_seq; specialize (B y Hy); lia).
  pose proof (NoDup_incl_length ND In_) as K. rewrite seq_length in K. cbn in K. lia.
Qed.
Theorem C75_tree_without_arguments : forall l exact, locked l -> distinct_packages l -> resolvable l ->
  exists t Ts, tree_new l = Ok t /\
    cmd_tree exact false [] l = Ok (with_blank_lines (map (fun T => map (line_text exact (lk_packages l)) (lines [] T)) Ts)) /\
    Forall2 (drawn_from t Outgoing) (roots t) Ts /\
    (forall i, In i (map root_of Ts) <-> i < List.length (lk_packages l) /\ forall k, ~ lists l k i) /\
    (acyclic l -> forall i, i < List.length (lk_packages l) -> exists T, In T Ts /\ In i (map snd (lines [] T))).
Proof.
  intros l exact Lk Di Rs. destruct (C36_built_iff_resolvable l Lk Di) as (B & _). destruct (B Rs) as [t T]. exists t.
  assert (Bd : Forall (fun i => i < List.length (lk_packages l)) (roots t)).
  { apply Forall_forall. intros i Hi. apply (C36_roots_are_the_packages_nobody_lists l t i Lk Di T). exact Hi. }
  destruct (draw_spec l t exact Outgoing (roots t) Lk Di T Bd) as (Ts & F & E). exists Ts. split; [exact T|].
  split; [unfold cmd_tree, tree_indices; rewrite T; cbn [obind]; rewrite E; reflexivity|]. split; [exact F|].
  assert (map root_of Ts = roots t) as RT.
  { clear -F. induction F as [|i T is Ts [R _] _ IH]; [reflexivity|]. cbn. congruence. }
  split; [intros i; rewrite RT; apply (C36_roots_are_the_packages_nobody_lists l t i Lk Di T)|].
  intros A i Hi. destruct (root_above l t i Lk Di T A Hi) as (r & Hr & R).
  clear -F Hr R. induction F as [|i0 T is Ts D _ IH]; [destruct Hr|]. destruct Hr as [->|Hr].
  - exists T. split; [left; reflexivity|]. destruct D as [_ (ex & S & _ & X)]. apply X in R.
    destruct (proj1 (expanded_printed t Outgoing) _ _ _ S [] i R) as [[]|K]. exact K.
  - destruct (IH Hr) as (T' & HT & Hin). exists T'. split; [right; exact HT|exact Hin].
Qed.
Print Assumptions C75_tree_without_arguments.

(** ** The text *)
Definition starts_visible (s : string) : Prop := match s with String a _ => visible a = true | EmptyString => False end.
Lemma starts_visible_head s : starts_visible s -> forall r, s <> String " " r /\ s <> String (ascii_of_nat 226) r.
Proof. intros H r. split; intros ->; discriminate H. Qed.
Lemma indentation_inj a : forall b s t, starts_visible s -> starts_visible t -> indentation a ++ s = indentation b ++ t -> a = b /\ s = t.
Proof.
  induction a as [|x a IH]; intros b s t Hs Ht E.
  - destruct b as [|y [|z b]]; [auto|exfalso..].
    + destruct y; cbn in E; subst s; discriminate Hs.
    + destruct y; cbn [indentation sym_down String.append] in E; subst s; discriminate Hs.
  - destruct a as [|x2 a].
    + destruct b as [|y [|z b]].
      * exfalso. destruct x; cbn in E; subst t; discriminate Ht.
      * destruct x, y; cbn in E; try discriminate E; injection E as E; auto.
      * exfalso. destruct x, y; cbn [indentation sym_down sym_tee sym_ell sym_right String.append] in E; discriminate E.
    + destruct b as [|y [|z b]].
      * exfalso. destruct x; cbn [indentation sym_down String.append] in E; subst t; discriminate Ht.
      * exfalso. destruct x, y; cbn [indentation sym_down sym_tee sym_ell sym_right String.append] in E; discriminate E.
      * assert (x = y /\ indentation (x2 :: a) ++ s = indentation (z :: b) ++ t) as [-> E2].
        { change (indentation (x :: x2 :: a)) with ((if x then sym_down else " ") ++ "   " ++ indentation (x2 :: a)) in E.
          change (indentation (y :: z :: b)) with ((if y then sym_down else " ") ++ "   " ++ indentation (z :: b)) in E.
          revert E. generalize (indentation (x2 :: a)). generalize (indentation (z :: b)). intros u w E.
          destruct x, y; cbn [sym_down String.append] in E; try discriminate E; injection E as E; auto. }
        destruct (IH (z :: b) s t Hs Ht E2) as [E3 ->]. split; [congruence|reflexivity].
Qed.
Lemma first_blank a : forall b s t, str_forall nonblank a = true -> str_forall nonblank b = true -> a ++ " " ++ s = b ++ " " ++ t -> a = b /\ s = t.
Proof.
  induction a as [|x a IH]; intros [|y b] s t Ha Hb E; cbn [String.append] in E.
  - injection E as E. auto.
  - injection E as <- _. discriminate Hb.
  - injection E as -> _. discriminate Ha.
  - injection E as <- E. cbn [str_forall] in Ha, Hb. apply andb_prop in Ha as [_ Ha]. apply andb_prop in Hb as [_ Hb].
    destruct (IH b s t Ha Hb E) as [-> ->]. auto.
Qed.
Lemma node_starts exact p : name_ok (p_name p) -> starts_visible (node_text exact p).
Proof.
  intros [N V]. unfold node_text. destruct (p_name p); [congruence|]. cbn in V |- *. apply andb_prop in V as [V _]. exact V.
Qed.
Lemma name_nonblank n : name_ok n -> str_forall nonblank n = true.
Proof. intros [_ V]. apply visible_all_nonblank. exact V. Qed.
(** A line determines its place in the tree and the package's name and version (with [--exact]: the rest as well). *)
Theorem C75_a_line_tells_place_and_package : forall exact ps a b i j p q,
  nth_error ps i = Some p -> nth_error ps j = Some q ->
  name_ok (p_name p) -> name_ok (p_name q) -> version_wf (p_version p) = true -> version_wf (p_version q) = true ->
  line_text exact ps (a, i) = line_text exact ps (b, j) ->
  a = b /\ p_name p = p_name q /\ p_version p = p_version q /\
  (exact = true -> (exists c, p_checksum p = Some c /\ is_digest c) -> (exists c, p_checksum q = Some c /\ is_digest c) -> p_checksum p = p_checksum q).
Proof.
  intros exact ps a b i j p q Hi Hj Np Nq Wp Wq E. unfold line_text in E. cbn [fst snd] in E. rewrite Hi, Hj in E.
  apply indentation_inj in E as [-> E]; [|apply node_starts; assumption..]. split; [reflexivity|].
  unfold node_text in E.
  apply first_blank in E as [En E]; [|apply name_nonblank; assumption..]. split; [exact En|].
  destruct exact.
  - apply first_blank in E as [Ev E]; [|apply version_nonblank; assumption..].
    split; [apply print_version_inj; assumption|]. intros _ (c & Hc & Dc) (c' & Hc' & Dc'). rewrite Hc, Hc' in *.
    cbn in E. assert (checksum_string c = checksum_string c') as K by congruence.
    destruct (C33_checksum_roundtrip c Dc) as (A & _). destruct (C33_checksum_roundtrip c' Dc') as (A' & _). rewrite K in A. congruence.
  - rewrite !sapp_nil_r in E. split; [apply print_version_inj; assumption|]. discriminate.
Qed.
Print Assumptions C75_a_line_tells_place_and_package.

(** ** list *)
Definition well_named (l : lockfile) : Prop :=
  forall p, In p (lk_packages l) -> name_ok (p_name p) /\ version_wf (p_version p) = true /\
    forall d, In d (p_deps p) -> name_ok (d_name d) /\ version_wf (d_version d) = true.
(** Plain listing: one line per package of the given name (or all), in file order. *)
Theorem C75_list : forall l name, cmd_list name false false l =
  map (fun p => "- " ++ p_name p ++ " " ++ print_version (p_version p))
    (filter (fun p => match name with Some n => String.eqb (p_name p) n | None => true end) (lk_packages l)).
Proof.
  intros l name. unfold cmd_list. induction (lk_packages l) as [|p ps IH]; [reflexivity|]. cbn [flat_map filter].
  destruct (match name with Some n => String.eqb (p_name p) n | None => true end); cbn [map]; rewrite IH; reflexivity.
Qed.
Print Assumptions C75_list.
(** With dependencies and sources, whatever the options. *)
Definition shown_source (sources : bool) (s : option source_id) : string :=
  match s with Some s => if sources then " (" ++ as_url false s ++ ")" else "" | None => "" end.
Theorem C75_list_in_full : forall l name deps sources, cmd_list name deps sources l =
  flat_map (fun p => ("- " ++ p_name p ++ " " ++ print_version (p_version p) ++ shown_source sources (p_source p)) ::
                     if deps then map (fun d => "  - " ++ d_name d ++ " " ++ print_version (d_version d) ++ shown_source sources (d_source d)) (p_deps p) else [])
    (filter (fun p => match name with Some n => String.eqb (p_name p) n | None => true end) (lk_packages l)).
Proof.
  intros l name deps sources. unfold cmd_list. induction (lk_packages l) as [|p ps IH]; [reflexivity|]. cbn [flat_map filter].
  rewrite IH. destruct (match name with Some n => String.eqb (p_name p) n | None => true end); [|reflexivity].
  cbn [flat_map]. f_equal. unfold list_package, dep_string, dep_of_package, shown_source. cbn [d_name d_version d_source].
  destruct sources.
  - reflexivity.
  - f_equal; [destruct (p_source p); rewrite sapp_nil_r; reflexivity|]. destruct deps; [|reflexivity].
    apply map_ext. intros d. destruct (d_source d); rewrite sapp_nil_r; reflexivity.
Qed.
Print Assumptions C75_list_in_full.
(** What the option [--exact] adds to a package's line: its checksum, or its source if it has none. *)
Theorem C75_exact_lines : forall ps a i p, nth_error ps i = Some p -> exists tail,
  line_text true ps (a, i) = line_text false ps (a, i) ++ " " ++ tail /\
  (forall c, p_checksum p = Some c -> tail = "checksum:" ++ checksum_string c) /\
  (forall s, p_checksum p = None -> p_source p = Some s -> tail = as_url false s) /\
  (p_checksum p = None -> p_source p = None -> tail = "inexact").
Proof.
  intros ps a i p H. unfold line_text. cbn [fst snd]. rewrite H. unfold node_text.
  exists (match p_checksum p with Some c => "checksum:" ++ checksum_string c | None => match p_source p with Some s => as_url false s | None => "inexact" end end).
  rewrite sapp_nil_r, !sapp_assoc. split; [reflexivity|]. split; [intros c ->; reflexivity|]. split; [intros s -> ->; reflexivity|intros -> ->; reflexivity].
Qed.
Print Assumptions C75_exact_lines.
(** What a full listing says about a lockfile. *)
Definition summary (l : lockfile) : list (string * version * list (string * version)) :=
  map (fun p => (p_name p, p_version p, map (fun d => (d_name d, d_version d)) (p_deps p))) (lk_packages l).
Theorem C75_list_is_unambiguous : forall l l', well_named l -> well_named l' ->
  cmd_list None true false l = cmd_list None true false l' -> summary l = summary l'.
Proof.
  intros l l'. unfold summary, well_named, cmd_list. generalize (lk_packages l'). generalize (lk_packages l). clear l l'.
  set (dl := fun d => "  - " ++ (d_name d ++ " " ++ print_version (d_version d))).
  assert (Pair : forall n m v w, name_ok n -> name_ok m -> version_wf v = true -> version_wf w = true ->
     n ++ " " ++ print_version v = m ++ " " ++ print_version w -> n = m /\ v = w).
  { intros n m v w Hn Hm Hv Hw E. apply first_blank in E as [-> E]; [|apply name_nonblank; assumption..]. split; [reflexivity|]. apply print_version_inj; assumption. }
  assert (Deps : forall ds ds' rest rest',
     (forall d, In d ds -> name_ok (d_name d) /\ version_wf (d_version d) = true) ->
     (forall d, In d ds' -> name_ok (d_name d) /\ version_wf (d_version d) = true) ->
     (match rest with x :: _ => exists y, x = String "-" y | [] => True end) -> (match rest' with x :: _ => exists y, x = String "-" y | [] => True end) ->
     (map dl ds ++ rest = map dl ds' ++ rest')%list ->
     map (fun d => (d_name d, d_version d)) ds = map (fun d => (d_name d, d_version d)) ds' /\ rest = rest').
  { induction ds as [|d ds IH]; intros [|d' ds'] rest rest' H1 H2 R R' E; cbn [map List.app] in E.
    - auto.
    - exfalso. subst rest. destruct R as [y R]. discriminate R.
    - exfalso. subst rest'. destruct R' as [y R']. discriminate R'.
    - injection E as E1 E2. 
      destruct (H1 d (or_introl eq_refl)) as [A1 A2]. destruct (H2 d' (or_introl eq_refl)) as [B1 B2].
      destruct (Pair (d_name d) (d_name d') (d_version d) (d_version d') A1 B1 A2 B2 E1) as [F1 F2].
      destruct (IH ds' rest rest') as [G1 G2]; auto; [intros; apply H1; right; assumption|intros; apply H2; right; assumption|].
      cbn [map]. rewrite F1, F2, G1. auto. }
  assert (Head : forall ps, match flat_map (fun p => list_package true false p) ps with x :: _ => exists y, x = String "-" y | [] => True end).
  { intros [|p ps]; [exact I|]. cbn. eauto. }
  induction l as [|p ps IH]; intros [|q qs] W W' E; cbn [flat_map list_package List.app] in E; try discriminate E; [reflexivity|].
  assert (E0 : forall (u w : string) r r', ("- " ++ u) :: r = ("- " ++ w) :: r' -> u = w /\ r = r') by (intros u w r r' X; injection X as X Y; auto).
  apply E0 in E as [E1 E2].
  destruct (W p (or_introl eq_refl)) as (A1 & A2 & A3). destruct (W' q (or_introl eq_refl)) as (B1 & B2 & B3).
  destruct (Pair (p_name p) (p_name q) (p_version p) (p_version q) A1 B1 A2 B2 E1) as [F1 F2].
  destruct (Deps (p_deps p) (p_deps q) _ _ A3 B3 (Head ps) (Head qs) E2) as [G1 G2].
  cbn [map]. rewrite F1, F2, G1. f_equal. apply IH; [intros; apply W; right; assumption|intros; apply W'; right; assumption|exact G2].
Qed.
Print Assumptions C75_list_is_unambiguous.

(** ** Examples *)
Lemma cyc_versions : versions_wf cyc_lock /\ well_named cyc_lock.
Proof.
  split.
  - intros p [<-|[<-|[<-|[<-|[]]]]]; reflexivity.
  - assert (Nm : forall n, In n ["foo"; "bar"; "app"; "baz"] -> name_ok n).
    { intros n [<-|[<-|[<-|[<-|[]]]]]; (split; [discriminate|reflexivity]). }
    intros p [<-|[<-|[<-|[<-|[]]]]]; (split; [apply Nm; cbn; tauto|split; [reflexivity|]]); intros d Hd; cbn in Hd;
      repeat (destruct Hd as [<-|Hd]; [split; [apply Nm; cbn; tauto|reflexivity]|]); destruct Hd.
Qed.
Example C75_nonvacuous :
  versions_wf cyc_lock /\ well_named cyc_lock /\ locked cyc_lock /\ distinct_packages cyc_lock /\ resolvable cyc_lock /\
  cmd_tree false false ["bar"; "2.0.0"] cyc_lock = Ok
    ["bar 0.1.0"; "├── foo 1.0.0"; "└── foo 2.0.0"; "    └── bar 0.1.0"; ""; "foo 2.0.0"; "└── bar 0.1.0"; "    ├── foo 1.0.0"; "    └── foo 2.0.0"] /\
  cmd_tree false true ["foo@1.0.0"] cyc_lock = Ok
    ["foo 1.0.0"; "├── bar 0.1.0"; "│   ├── foo 2.0.0"; "│   │   ├── bar 0.1.0"; "│   │   └── app 0.1.0"; "│   └── app 0.1.0"; "└── app 0.1.0"] /\
  cmd_tree false false ["foo"; "quux"] cyc_lock = Err /\
  cmd_list (Some "foo") true false cyc_lock = ["- foo 1.0.0"; "- foo 2.0.0"; "  - bar 0.1.0"] /\
  nth_error (lk_packages cyc_lock) 0 <> None.
Proof.
  split; [apply cyc_versions|]. split; [apply cyc_versions|]. split; [apply cyc_locked|]. split; [apply cyc_distinct|]. split.
  { apply (proj2 (proj2 (C36_built_iff_resolvable cyc_lock cyc_locked cyc_distinct))). eexists. vm_compute. reflexivity. }
  repeat split; try (vm_compute; reflexivity). discriminate.
Qed.
Example C75_acyclic_example : acyclic (mkLock V3 [mkPkg "app" (ver 1 0 0) None None [mkDep "foo" (ver 1 0 0) (Some ex_reg)] None; pr_reg] None [] []).
Proof.
  set (l := mkLock _ _ _ _ _). assert (K : forall i j, lists l i j -> i = 0 /\ j = 1).
  { intros i j (p & q & d & Hp & Hq & Hd & N & _). destruct i as [|[|i]]; cbn in Hp; [injection Hp as <-| |destruct i; discriminate].
    - split; [reflexivity|]. destruct Hd as [<-|[]]. destruct j as [|[|j]]; cbn in Hq; [injection Hq as <-; discriminate N|reflexivity|destruct j; discriminate].
    - injection Hp as <-. destruct Hd. }
  assert (K2 : forall i j, uses l i j -> i = 0 /\ j = 1).
  { induction 1 as [j H|a b _ IH H]; [apply K; exact H|]. destruct (K a b H). split; [apply IH|assumption]. }
  intros i H. destruct (K2 i i H). congruence.
Qed.

(** Without arguments, packages on a dependency cycle that nothing else uses are not shown: two packages that
    use each other give no output at all.  And the word ["locked"], which is not the commit of anything, selects
    the first registry package. *)
Definition pair_a := mkPkg "a" (ver 1 0 0) None None [mkDep "b" (ver 1 0 0) None] None.
Definition pair_b := mkPkg "b" (ver 1 0 0) None None [mkDep "a" (ver 1 0 0) None] None.
Theorem C75_every_package_shown_refuted :
  cmd_tree false false [] (mkLock V3 [pair_a; pair_b] None [] []) = Ok [] /\
  cmd_tree false false ["a"] (mkLock V3 [pair_a; pair_b] None [] []) = Ok ["a 1.0.0"; "└── b 1.0.0"; "    └── a 1.0.0"] /\
  selects "locked" rr_foo1 /\
  (exists out, cmd_tree false false ["locked"] (rr_lock []) = Ok out /\ hd "" out = "foo 1.0.0").
Proof.
  split; [vm_compute; reflexivity|]. split; [vm_compute; reflexivity|]. split.
  - apply C75_which_packages_an_argument_selects; vm_compute; reflexivity.
  - eexists. split; [vm_compute; reflexivity|reflexivity].
Qed.
Print Assumptions C75_every_package_shown_refuted.
