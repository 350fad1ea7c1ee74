(** Lemmas about the `cargo audit` command. *)
From Coq Require Import List NArith Ascii String Bool Arith Lia.
From Verif Require Import Base SemverModel OsvModel OsvSpec VerText IdModel PkgModel DbModel DbSpec DbProofs DbProofs2
  UrlModel LockModel LockSpec TreeModel TreeSpec TreeProofs PropsTree PlatData PlatModel IndexModel IndexSpec PropsIndex AuditModel AuditSpec.
Import ListNotations.
Local Open Scope string_scope.

(** ** Denied kinds *)
Lemma kind_mem_denied c k : kind_mem k (denied_kinds c) = true <-> k <> WNotice /\ denies c k.
Proof.
  unfold kind_mem, denied_kinds, denies. rewrite existsb_exists. split.
  - intros (x & Hx & E). destruct (warning_kind_eqb_spec k x) as [<-|]; [|discriminate].
    apply in_flat_map in Hx as (d & Hd & Hk). destruct d; cbn in Hk.
    + destruct Hk as [<-|[<-|[<-|[]]]]; split; try discriminate; auto.
    + destruct Hk as [<-|[]]; split; [discriminate|auto].
    + destruct Hk as [<-|[]]; split; [discriminate|auto].
    + destruct Hk as [<-|[]]; split; [discriminate|auto].
  - intros [N H]. exists k. split; [|destruct k; reflexivity]. apply in_flat_map.
    destruct H as [H|H]; [exists DWarnings; split; [exact H|]; destruct k; cbn; auto; contradiction|].
    destruct k; [contradiction|exists DUnmaintained|exists DUnsound|exists DYanked]; (split; [exact H|left; reflexivity]).
Qed.
Lemma insert_in i l x : In x (insert_if_not_present i l) <-> In x l \/ x = i.
Proof.
  unfold insert_if_not_present. destruct (existsb _ l) eqn:E.
  - split; [auto|]. intros [H| ->]; [exact H|]. apply existsb_exists in E as (y & Hy & E).
    destruct (informational_eqb_spec y i) as [->|]; [exact Hy|discriminate].
  - rewrite in_app_iff. cbn. intuition auto.
Qed.
Lemma deny_loop_keeps ds : forall l x, In x l -> In x (deny_loop ds l).
Proof.
  induction ds as [|d ds IH]; intros l x H; [exact H|]. destruct d; cbn [deny_loop].
  - rewrite !insert_in. auto.
  - apply IH. rewrite insert_in. auto.
  - apply IH. rewrite insert_in. auto.
  - apply IH, H.
Qed.
Lemma deny_loop_adds ds : forall l d i, In d ds ->
  (d = DWarnings /\ (i = INotice \/ i = IUnmaintained \/ i = IUnsound) \/ d = DUnmaintained /\ i = IUnmaintained \/ d = DUnsound /\ i = IUnsound) ->
  In i (deny_loop ds l).
Proof.
  induction ds as [|e ds IH]; intros l d i; [intros []|]. intros [Hd|Hd] H; [subst e|]; cbn [deny_loop].
  - destruct d; cbn [deny_loop].
    + rewrite !insert_in. intuition (try discriminate; auto).
    + apply deny_loop_keeps. rewrite insert_in. intuition (try discriminate; auto).
    + apply deny_loop_keeps. rewrite insert_in. intuition (try discriminate; auto).
    + intuition discriminate.
  - destruct e.
    + rewrite !insert_in. intuition (subst; auto).
    + eapply IH; eassumption.
    + eapply IH; eassumption.
    + eapply IH; eassumption.
Qed.
(** Nothing else is added. *)
Lemma deny_loop_only ds : forall l x, In x (deny_loop ds l) -> In x l \/ x = INotice /\ In DWarnings ds \/
  x = IUnmaintained /\ (In DWarnings ds \/ In DUnmaintained ds) \/ x = IUnsound /\ (In DWarnings ds \/ In DUnsound ds).
Proof.
  induction ds as [|d ds IH]; intros l x H; [auto|]. destruct d; cbn [deny_loop] in H.
  - rewrite !insert_in in H. cbn. tauto.
  - apply IH in H. rewrite insert_in in H. cbn. tauto.
  - apply IH in H. rewrite insert_in in H. cbn. tauto.
  - apply IH in H. cbn. tauto.
Qed.
Lemma denied_reported c k i : k <> WNotice -> denies c k -> kind_of_info k i -> In i (st_info (report_settings c)).
Proof.
  intros N D K. cbn [report_settings st_info]. unfold denies in D.
  destruct D as [D|D].
  - apply (deny_loop_adds _ _ DWarnings); [exact D|]. left. split; [reflexivity|]. destruct k; cbn in K; tauto.
  - destruct k; cbn in K; subst; try contradiction.
    + apply (deny_loop_adds _ _ DUnmaintained); auto.
    + apply (deny_loop_adds _ _ DUnsound); auto.
Qed.
Lemma kind_of_info_iff k i : kind_of_info k i <-> warning_kind_of i = Some k.
Proof. destruct k, i; cbn; split; try discriminate; try contradiction; auto. Qed.

(** ** Counting *)
Definition denied_in (c : config) (m : warning_info) : nat :=
  list_sum (map (fun kw => if kind_mem (fst kw) (denied_kinds c) then List.length (snd kw) else 0) m).
Definition allowed_in (c : config) (m : warning_info) : nat :=
  list_sum (map (fun kw => if kind_mem (fst kw) (denied_kinds c) then 0 else List.length (snd kw)) m).
Lemma count_fold c m : forall n, 
  fold_left (fun n kw => if kind_mem (fst kw) (denied_kinds c)
                         then (fst n + List.length (snd kw), snd n) else (fst n, snd n + List.length (snd kw))) m n
  = (fst n + denied_in c m, snd n + allowed_in c m).
Proof.
  unfold denied_in, allowed_in.
  induction m as [|[k ws] m IH]; intros n; cbn [fold_left map list_sum fst snd].
  - rewrite !Nat.add_0_r. destruct n; reflexivity.
  - rewrite IH. unfold list_sum. cbn [fold_right fst snd]. destruct (kind_mem k (denied_kinds c)); cbn [fst snd]; f_equal; lia.
Qed.
Lemma count_warnings_eq c m : count_warnings c m = (denied_in c m, allowed_in c m).
Proof. unfold count_warnings. rewrite count_fold. reflexivity. Qed.
Lemma denied_in_zero c m : NoDup (map fst m) ->
  (denied_in c m <> 0 <-> exists k, kind_mem k (denied_kinds c) = true /\ winfo_get k m <> []).
Proof.
  unfold denied_in. induction m as [|[k ws] m IH]; intros N; cbn [map fst snd] in *.
  - split; [intros H; exfalso; apply H; reflexivity|intros (k & _ & H); exfalso; apply H; reflexivity].
  - inversion N as [|? ? N1 N2]; subst. specialize (IH N2). unfold list_sum in *. cbn [fold_right].
    assert (G : winfo_get k m = []).
    { clear -N1. induction m as [|[k' ws'] m IH]; [reflexivity|]. cbn in *. destruct (warning_kind_eqb_spec k' k) as [->|]; [tauto|]. apply IH. tauto. }
    split.
    + intros H. destruct (kind_mem k (denied_kinds c)) eqn:E.
      * destruct ws as [|w ws].
        -- destruct (proj1 IH H) as (k' & E' & G'). exists k'. split; [exact E'|]. cbn. destruct (warning_kind_eqb_spec k k') as [<-|]; [contradiction|exact G'].
        -- exists k. split; [exact E|]. cbn. destruct (warning_kind_eqb_spec k k); [discriminate|contradiction].
      * destruct (proj1 IH H) as (k' & E' & G'). exists k'. split; [exact E'|]. cbn. destruct (warning_kind_eqb_spec k k') as [<-|]; [contradiction|exact G'].
    + intros (k' & E' & G'). cbn in G'. destruct (warning_kind_eqb_spec k k') as [<-|].
      * rewrite E'. destruct ws; [contradiction|]. cbn. lia.
      * assert (fold_right Nat.add 0 (map (fun kw => if kind_mem (fst kw) (denied_kinds c) then List.length (snd kw) else 0) m) <> 0)
          by (apply IH; exists k'; auto). destruct (kind_mem k (denied_kinds c)); lia.
Qed.
Lemma should_fail_iff c r : NoDup (map fst (r_warnings r)) ->
  should_exit_with_failure c r = true <->
  vi_found (r_vulns r) = true \/ exists k, k <> WNotice /\ denies c k /\ winfo_get k (r_warnings r) <> [].
Proof.
  intros N. unfold should_exit_with_failure. rewrite count_warnings_eq. cbn [fst].
  assert (K : negb (Nat.eqb (denied_in c (r_warnings r)) 0) = true <-> exists k, k <> WNotice /\ denies c k /\ winfo_get k (r_warnings r) <> []).
  { rewrite negb_true_iff, Nat.eqb_neq, (denied_in_zero c _ N). split; intros (k & H).
    - exists k. rewrite kind_mem_denied in H. tauto.
    - exists k. rewrite kind_mem_denied. tauto. }
  destruct (vi_found (r_vulns r)); [|rewrite K]; intuition discriminate.
Qed.

(** ** Appending the yanked warnings *)
Lemma winfo_append_get k ws m k' : winfo_get k' (winfo_append k ws m) =
  if warning_kind_eqb k k' then (winfo_get k' m ++ ws)%list else winfo_get k' m.
Proof.
  induction m as [|[k0 ws0] m IH]; cbn [winfo_append winfo_get].
  - destruct (warning_kind_eqb k k'); reflexivity.
  - destruct (warning_kind_eqb_spec k0 k) as [->|n]; cbn [winfo_get].
    + destruct (warning_kind_eqb k k'); reflexivity.
    + destruct (warning_kind_eqb_spec k0 k') as [->|n'].
      * destruct (warning_kind_eqb_spec k k'); [congruence|reflexivity].
      * exact IH.
Qed.
Lemma winfo_append_keys k ws m x : In x (map fst (winfo_append k ws m)) <-> In x (map fst m) \/ x = k.
Proof.
  induction m as [|[k0 ws0] m IH]; cbn [winfo_append map fst In].
  - split; [intros [<-|[]]; auto|intros [[]| ->]; auto].
  - destruct (warning_kind_eqb_spec k0 k) as [->|n]; cbn [map fst In].
    + split; [tauto|]. intros [H| ->]; auto.
    + rewrite IH. tauto.
Qed.
Lemma winfo_append_nodup k ws m : NoDup (map fst m) -> NoDup (map fst (winfo_append k ws m)).
Proof.
  induction m as [|[k0 ws0] m IH]; cbn [winfo_append map fst]; intros N; [repeat constructor; intros []|].
  inversion N as [|? ? N1 N2]; subst. destruct (warning_kind_eqb_spec k0 k) as [->|n]; cbn [map fst]; [constructor; assumption|].
  constructor; [|apply IH; exact N2]. rewrite winfo_append_keys. intros [H|H]; [contradiction|congruence].
Qed.

(** ** Yanked crates *)
Lemma default_registry_filter pkgs p :
  In p (filter (fun p => match p_source p with Some s => is_default_registry s | None => false end) pkgs) <-> In p pkgs /\ from_crates_io p.
Proof.
  rewrite filter_In. rewrite <- crates_io_package_iff. unfold crates_io_package.
  destruct (p_source p) as [s|]; [rewrite default_registry_eq|]; tauto.
Qed.
Lemma check_yanked_spec truth ix c pkgs : answers truth ix -> history (answers truth) c ->
  exists ws c', check_for_yanked (Some (ix, c)) pkgs = Ok (ws, Some (ix, c')) /\ history (answers truth) c' /\
    (forall w, In w ws -> exists p, w = mkWarning WYanked p None /\ In p pkgs /\ from_crates_io p /\ says (truth (p_name p)) (p_version p) true) /\
    (forall p, In p pkgs -> from_crates_io p -> says (truth (p_name p)) (p_version p) true ->
       exists q, In (mkWarning WYanked q None) ws /\ same_release p q).
Proof.
  intros A H. unfold check_for_yanked. set (ps := filter _ pkgs).
  pose proof (hist_call _ ix c ps H A) as H'.
  destruct (C51_yanked_exact truth c ix ps H A) as (l & E & S1 & S2 & _).
  destruct (find_yanked ix c ps) as [c' r]. cbn [fst snd] in *. subst r. cbn [obind].
  eexists _, _. split; [reflexivity|]. split; [exact H'|]. split.
  - intros w Hw. apply in_flat_map in Hw as (y & Hy & Hw). destruct y as [p|]; [|destruct Hw]. destruct Hw as [<-|[]].
    destruct (S1 p Hy) as [Hp Hs]. apply default_registry_filter in Hp as [Hp Hc]. exists p. auto.
  - intros p Hp Hc Hs. destruct (S2 p) as (q & Hq & Sq); [apply default_registry_filter; auto|exact Hs|].
    exists q. split; [|exact Sq]. apply in_flat_map. exists (Yanked q). split; [exact Hq|left; reflexivity].
Qed.

(** ** Self advisories *)
Lemma self_spec checks t db : db_open t = Ok db -> exists s, self_advisories checks db = Ok s /\
  (s <> [] <-> self_finding checks (db_iter db)).
Proof.
  intros H. unfold self_advisories. rewrite !(db_query_spec checks t db _ H). cbn [obind]. eexists. split; [reflexivity|].
  assert (Q : forall n v a, matches checks (query_release n v) a = true <->
     a_collection a = Some Crates /\ a_package a = n /\ is_vulnerable checks (a_versions a) v = Ok true /\ a_withdrawn a = None /\ a_informational a = None).
  { intros n v a. rewrite matches_iff. unfold selects, query_release, if_set. cbn. split.
    - intros (H1 & H2 & H3 & _ & _ & _ & _ & H8 & H9).
      pose proof (H8 false eq_refl) as K8. pose proof (H9 false eq_refl) as K9.
      split; [apply H1; reflexivity|]. split; [apply H2; reflexivity|]. split; [apply H3; reflexivity|].
      split; [destruct (a_withdrawn a); [|reflexivity]|destruct (a_informational a); [|reflexivity]].
      + exfalso. assert (false = true) by (apply K8; discriminate). discriminate.
      + exfalso. assert (false = true) by (apply K9; discriminate). discriminate.
    - intros (H1 & H2 & H3 & H4 & H5). rewrite H4, H5.
      split; [intros x E; injection E as <-; exact H1|]. split; [intros x E; injection E as <-; exact H2|].
      split; [intros x E; injection E as <-; exact H3|]. split; [discriminate|]. split; [discriminate|].
      split; [intros af _; split; left; reflexivity|]. split; [discriminate|].
      split; intros x E; injection E as <-; split; [discriminate|contradiction|discriminate|contradiction]. }
  split.
  - intros N. match type of N with ?xs <> [] => destruct xs as [|a l] eqn:E; [contradiction|] end.
    assert (Ha : In a (a :: l)) by (left; reflexivity). rewrite <- E in Ha. apply in_app_or in Ha as [Ha|Ha];
      apply filter_In in Ha as [Hi Hm]; apply Q in Hm as (H1 & H2 & H3 & H4 & H5).
    + exists a, (mkVersion 0 22 2 [] []). auto 10.
    + exists a, (mkVersion 0 34 0 [] []). auto 10.
  - intros (a & v & Hi & H1 & H4 & H5 & [[H2 ->]|[H2 ->]] & H3) E; apply app_eq_nil in E as [E1 E2].
    + assert (F : In a (filter (matches checks (query_release "cargo-audit" (release 0 22 2))) (db_iter db))) by (apply filter_In; split; [exact Hi|]; apply Q; exact (conj H1 (conj H2 (conj H3 (conj H4 H5))))).
      rewrite E1 in F. destruct F.
    + assert (F : In a (filter (matches checks (query_release "rustsec" (release 0 34 0))) (db_iter db))) by (apply filter_In; split; [exact Hi|]; apply Q; exact (conj H1 (conj H2 (conj H3 (conj H4 H5))))).
      rewrite E2 in F. destruct F.
Qed.

(** ** Printing never fails on printable input *)
Lemma u64_succ_ok checks n : (checks = true -> small n) -> exists m, u64_succ checks n = Ok m.
Proof.
  intros H. unfold u64_succ. destruct (N.eqb_spec n u64_max) as [->|]; [|eauto].
  destruct checks; [specialize (H eq_refl); unfold small in H; lia|eauto].
Qed.
Lemma candidates_ok checks r : (checks = true -> below_u64_max [r]) -> exists cs, comparator_candidates checks r = Ok cs.
Proof.
  intros B. assert (B' : forall c, In c r -> checks = true -> (forall m, c_minor c = Some m -> (m < u64_max)%N) /\ (forall p, c_patch c = Some p -> (p < u64_max)%N)).
  { intros c Hc Hk. apply (B Hk r c (or_introl eq_refl) Hc). }
  clear B. induction r as [|c r IH]; [eexists; reflexivity|]. cbn [comparator_candidates].
  destruct (u64_succ_ok checks (match c_patch c with Some p => p | None => 0%N end)) as (p' & ->).
  { intros Hk. destruct (c_patch c) as [p|] eqn:E; [exact (proj2 (B' c (or_introl eq_refl) Hk) p E)|unfold small, u64_max; lia]. }
  destruct (u64_succ_ok checks (match c_minor c with Some p => p | None => 0%N end)) as (m' & ->).
  { intros Hk. destruct (c_minor c) as [p|] eqn:E; [exact (proj1 (B' c (or_introl eq_refl) Hk) p E)|unfold small, u64_max; lia]. }
  destruct IH as (cs & ->); [intros c' Hc'; apply B'; right; exact Hc'|]. cbn [obind]. eauto.
Qed.
Lemma permits_newer_ok checks r v : (checks = true -> small_version v) -> (checks = true -> below_u64_max [r]) ->
  exists b, permits_newer checks r v = Ok b.
Proof.
  intros H1 H2. unfold permits_newer.
  destruct (u64_succ_ok checks (patch v)) as (a & ->); [intros H; apply H1, H|].
  destruct (u64_succ_ok checks (minor v)) as (b & ->); [intros H; apply H1, H|].
  destruct (u64_succ_ok checks (major v)) as (c & ->); [intros H; apply H1, H|].
  destruct (candidates_ok checks r H2) as (cs & ->). cbn [obind]. eauto.
Qed.
Lemma filter_newer_ok checks rs v : (checks = true -> small_version v) -> (checks = true -> below_u64_max rs) ->
  exists l, filter_newer checks rs v = Ok l.
Proof.
  intros H1. induction rs as [|r rs IH]; intros H2; [eexists; reflexivity|]. cbn [filter_newer].
  destruct (permits_newer_ok checks r v H1) as (b & ->).
  { intros Hk x c [<-|[]] Hc. apply (H2 Hk r c); [left; reflexivity|exact Hc]. }
  destruct IH as (l & ->); [intros Hk x c Hx Hc; apply (H2 Hk x c); [right; exact Hx|exact Hc]|].
  cbn [obind]. eauto.
Qed.
Lemma solution_ok checks v : (checks = true -> small_version (p_version (v_package v))) ->
  (checks = true -> below_u64_max (unaffected (a_versions (v_advisory v)))) -> exists s, solution_of checks v = Ok s.
Proof.
  intros H1 H2. unfold solution_of. destruct (patched _); [|eauto].
  destruct (filter_newer_ok checks (unaffected (a_versions (v_advisory v))) (p_version (v_package v)) H1 H2) as (l & ->).
  cbn [obind]. eauto.
Qed.
Lemma print_tree_ok c l t p d : locked l -> distinct_packages l -> tree_new l = Ok t -> In p (lk_packages l) ->
  exists x, print_tree c t p d = Ok x.
Proof.
  intros L D T Hp. unfold print_tree. destruct (dep_mem _ d); [eauto|]. destruct (negb (cf_show_tree c)); [eauto|].
  apply In_nth_error in Hp as (i & Hi).
  assert (N : t_nodes t = add_nodes 0 (lk_packages l) []).
  { unfold tree_new in T. destruct (omap _ (lk_packages l)); try discriminate. injection T as <-. reflexivity. }
  rewrite N, (parent_index l p i L D Hi).
  destruct (C37_prints_exactly_the_reachable_packages l t i Incoming L D T) as (out & -> & _); [|eauto].
  apply nth_error_Some. rewrite Hi. discriminate.
Qed.
Lemma print_vulns_ok checks c l t vs : locked l -> distinct_packages l -> tree_new l = Ok t ->
  (forall v, In v vs -> In (v_package v) (lk_packages l) /\ exists s, solution_of checks v = Ok s) ->
  forall d, exists x, print_vulns checks c t vs d = Ok x.
Proof.
  intros L D T. induction vs as [|v vs IH]; intros H d; [eexists; reflexivity|]. cbn [print_vulns].
  destruct (H v (or_introl eq_refl)) as (Hp & s & ->). cbn [obind].
  destruct (print_tree_ok c l t (v_package v) d L D T Hp) as (x & ->). cbn [obind].
  destruct (IH (fun v Hv => H v (or_intror Hv)) (snd x)) as (y & ->). cbn [obind]. eauto.
Qed.
Lemma print_warnings_ok c l t ws : locked l -> distinct_packages l -> tree_new l = Ok t ->
  (forall w, In w ws -> In (w_package w) (lk_packages l)) ->
  forall d, exists x, print_warnings c t ws d = Ok x.
Proof.
  intros L D T. induction ws as [|w ws IH]; intros H d; [eexists; reflexivity|]. cbn [print_warnings].
  destruct (print_tree_ok c l t (w_package w) d L D T (H w (or_introl eq_refl))) as (x & ->). cbn [obind].
  destruct (IH (fun v Hv => H v (or_intror Hv)) (snd x)) as (y & ->). cbn [obind]. eauto.
Qed.
Lemma ordered_in m w : In w (ordered_warnings m) <-> exists k, In w (winfo_get k m).
Proof.
  unfold ordered_warnings. rewrite in_flat_map. split; [intros (k & _ & H); eauto|]. intros (k & H). exists k. split; [|exact H].
  destruct k; cbn; auto.
Qed.
Lemma print_report_ok checks c advs r l d : printable checks c advs l ->
  (forall v, In v (vi_list (r_vulns r)) -> In (v_package v) (lk_packages l) /\ In (v_advisory v) advs) ->
  (forall k w, In w (winfo_get k (r_warnings r)) -> In (w_package w) (lk_packages l)) ->
  exists x, print_report checks c r l d = Ok x.
Proof.
  intros P HV HW. unfold print_report. destruct (cf_format c) eqn:F; [eauto|eauto|].
  destruct (P F) as (L & D & C & O). destruct (C36_built_iff_resolvable l L D) as (B & _). destruct (B C) as (t & T). rewrite T.
  destruct (print_vulns_ok checks c l t (vi_list (r_vulns r)) L D T) with (d := d) as (x & ->).
  { intros v Hv. destruct (HV v Hv) as [Hp Ha]. split; [exact Hp|]. apply solution_ok; intros Hk; destruct (O Hk) as [O1 O2]; auto. }
  cbn [obind]. destruct (print_warnings_ok c l t (ordered_warnings (r_warnings r)) L D T) with (d := snd x) as (y & ->).
  { intros w Hw. apply ordered_in in Hw as (k & Hw). exact (HW k w Hw). }
  cbn [obind]. eauto.
Qed.

(** ** One audit *)
Definition with_yanked (r : report) (ws : list warning) : report :=
  match ws with
  | [] => r
  | _ => mkReport (r_dependency_count r) (r_settings r) (r_vulns r) (winfo_append WYanked ws (r_warnings r))
  end.
Lemma with_yanked_get r ws k : winfo_get k (r_warnings (with_yanked r ws)) =
  (winfo_get k (r_warnings r) ++ if warning_kind_eqb WYanked k then ws else [])%list.
Proof.
  destruct ws as [|w ws]; cbn [with_yanked r_warnings].
  - destruct (warning_kind_eqb WYanked k); rewrite app_nil_r; reflexivity.
  - rewrite winfo_append_get. destruct (warning_kind_eqb WYanked k); [reflexivity|rewrite app_nil_r; reflexivity].
Qed.
Lemma with_yanked_vulns r ws : r_vulns (with_yanked r ws) = r_vulns r.
Proof. destruct ws; reflexivity. Qed.
Lemma with_yanked_nodup r ws : NoDup (map fst (r_warnings r)) -> NoDup (map fst (r_warnings (with_yanked r ws))).
Proof. destruct ws; [auto|]. intros N. cbn [with_yanked r_warnings]. apply winfo_append_nodup, N. Qed.

(** What [audit] returns for the lockfile of a database opened from [t], when the index (if any) answers by [truth]. *)
Definition index_ok (truth : string -> entry) (ix : option (index * cache)) : Prop :=
  match ix with Some (i, c) => answers truth i /\ history (answers truth) c | None => True end.
Lemma audit_spec checks t a l truth : db_open t = Ok (au_db a) -> index_ok truth (au_index a) ->
  printable checks (au_config a) (db_iter (au_db a)) l ->
  exists r0 ws r out a', report_generate checks (au_db a) (lk_packages l) (report_settings (au_config a)) = Ok r0 /\
    r = with_yanked r0 ws /\ audit checks a l None = Ok (r, out, a') /\
    au_config a' = au_config a /\ au_db a' = au_db a /\ index_ok truth (au_index a') /\
    au_binary_limit a' = au_binary_limit a /\ au_data_limit a' = au_data_limit a /\
    print_report checks (au_config a) r l (au_shown a) = Ok (out, au_shown a') /\
    (forall w, In w ws -> exists p, w = mkWarning WYanked p None /\ In p (lk_packages l) /\ from_crates_io p /\ says (truth (p_name p)) (p_version p) true) /\
    (au_index a <> None -> forall p, In p (lk_packages l) -> from_crates_io p -> says (truth (p_name p)) (p_version p) true ->
       exists q, In (mkWarning WYanked q None) ws /\ same_release p q) /\
    (au_index a = None -> ws = []).
Proof.
  intros H I P. destruct (report_spec checks t (au_db a) (lk_packages l) (report_settings (au_config a)) H)
    as (r0 & E & _ & _ & El & Ec & Ef & [N _] & G).
  assert (Y : exists ws ix', check_for_yanked (au_index a) (lk_packages l) = Ok (ws, ix') /\ index_ok truth ix' /\
    (forall w, In w ws -> exists p, w = mkWarning WYanked p None /\ In p (lk_packages l) /\ from_crates_io p /\ says (truth (p_name p)) (p_version p) true) /\
    (au_index a <> None -> forall p, In p (lk_packages l) -> from_crates_io p -> says (truth (p_name p)) (p_version p) true ->
       exists q, In (mkWarning WYanked q None) ws /\ same_release p q) /\ (au_index a = None -> ws = [])).
  { destruct (au_index a) as [[ix c]|].
    - destruct I as [A Hh]. destruct (check_yanked_spec truth ix c (lk_packages l) A Hh) as (ws & c' & E' & H' & S1 & S2).
      exists ws, (Some (ix, c')). split; [exact E'|]. split; [split; [exact A|exact H']|]. split; [exact S1|]. split; [intros _; exact S2|discriminate].
    - exists [], None. split; [reflexivity|]. split; [exact Logic.I|]. split; [intros w []|]. split; [congruence|reflexivity]. }
  destruct Y as (ws & ix' & EY & IY & Y1 & Y2 & Y3).
  destruct (print_report_ok checks (au_config a) (db_iter (au_db a)) (with_yanked r0 ws) l (au_shown a) P) as ((out & d') & EP).
  { intros v Hv. rewrite with_yanked_vulns in Hv. apply (report_vuln_in checks t _ _ _ _ _ H E) in Hv. tauto. }
  { intros k w Hw. rewrite with_yanked_get in Hw. apply in_app_or in Hw as [Hw|Hw].
    - apply (report_warning_in checks t _ _ _ _ _ _ H E) in Hw as (x & i & _ & _ & Hp & _). exact Hp.
    - destruct (warning_kind_eqb WYanked k); [|destruct Hw]. destruct (Y1 w Hw) as (p & -> & Hp & _). exact Hp. }
  exists r0, ws, (with_yanked r0 ws), out.
  exists (mkAuditor (au_config a) (au_db a) ix' d' (au_binary_limit a) (au_data_limit a)).
  split; [exact E|]. split; [reflexivity|]. split.
  { unfold audit. rewrite E. cbn [obind]. rewrite EY. cbn [obind fst snd]. destruct ws as [|w0 ws0]; cbn [with_yanked] in EP |- *; rewrite EP; cbn [obind fst snd]; reflexivity. }
  cbn [au_config au_db au_index au_shown au_binary_limit au_data_limit].
  split; [reflexivity|]. split; [reflexivity|]. split; [exact IY|]. split; [reflexivity|]. split; [reflexivity|]. split; [exact EP|].
  split; [exact Y1|]. split; [exact Y2|exact Y3].
Qed.
