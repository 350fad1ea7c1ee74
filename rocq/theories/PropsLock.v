(** Property theorems C30, C31, C32 (lockfiles). *)
From Coq Require Import List NArith Ascii String Bool Lia Arith.
From Verif Require Import Base SemverModel StrLib VerText PkgModel UrlModel UrlSpec UrlProofs SumModel PropsSource LockModel LockSpec LockProofs.
Import ListNotations.
Local Open Scope string_scope.
Local Open Scope N_scope.
Local Infix "++" := String.append (right associativity, at level 60).

(** ** C30 *)
Lemma resolve_package norm l p pkgs : consistent norm l -> In p (lk_packages l) ->
  (is_v1 (lk_version l) = true /\ pkgs = [] \/ is_v1 (lk_version l) = false /\ pkgs = map (loaded_enc l) (lk_packages l)) ->
  exists ds, Forall2 same_dep (p_deps p) ds /\
    pkg_resolve pkgs (loaded_enc l p) =
      Ok (mkPkg (p_name p) (p_version p) (stored_source (p_source p)) (if is_v1 (lk_version l) then None else p_checksum p) ds
            (match p_deps p with [] => option_map stored_dep (p_replace p) | _ => None end)).
Proof.
  intros Co Hp Hk. pose proof (co_packages norm l Co) as F. rewrite Forall_forall in F. destruct (F p Hp) as (N & W & S & C & D & R).
  rewrite Forall_forall in D.
  assert (exists ds, omap (dep_resolve pkgs) (ep_deps (loaded_enc l p)) = Ok ds /\ Forall2 same_dep (p_deps p) ds) as (ds & E & Fd).
  { cbn [loaded_enc ep_deps]. apply omap_forall2. intros d Hd.
    destruct Hk as [[V ->]|[V ->]]; rewrite V.
    - exists (stored_dep d). rewrite (enc_reread_of norm) by (apply D; exact Hd). rewrite resolve_nil. split; [reflexivity|].
      split; [reflexivity|]. split; [reflexivity|]. apply same_source_refl.
    - apply (resolve_dep norm l d Co (D d Hd) (co_deps norm l Co p d Hp Hd)). left. reflexivity. }
  exists ds. split; [exact Fd|]. unfold pkg_resolve. rewrite E. cbn [obind].
  assert (opt_outcome (dep_resolve []) (ep_replace (loaded_enc l p)) = Ok (match p_deps p with [] => option_map stored_dep (p_replace p) | _ => None end)) as ->.
  { cbn [loaded_enc ep_replace]. destruct (p_deps p); [|reflexivity]. destruct (p_replace p) as [d|]; [|reflexivity].
    cbn [option_map opt_outcome]. rewrite (enc_reread_of norm) by exact R. rewrite resolve_nil. reflexivity. }
  cbn [obind loaded_enc ep_name ep_version ep_source ep_checksum]. do 2 f_equal. destruct (stored_source (p_source p)); reflexivity.
Qed.

Lemma load_patch norm d : norm_laws norm -> dep_ok norm V1 d -> patch_of_raw norm (raw_of_patch d) = Ok (stored_dep d).
Proof.
  intros L (N & W & S). unfold patch_of_raw, raw_of_patch. cbn [ru_name ru_version ru_source].
  rewrite parse_print_version by exact W. cbn [of_option obind]. unfold stored_dep.
  destruct (d_source d) as [s|]; cbn [obind_opt stored_source opt_outcome obind]; [|reflexivity]. cbn in S.
  assert (from_url norm (as_url false s) = Ok (reread s)) as K.
  { apply source_roundtrip; [exact L|apply S|]. intros _. apply S. discriminate. }
  destruct (s_kind s); cbn [opt_outcome]; rewrite ?K; reflexivity.
Qed.

Theorem C30_lockfile_roundtrip : forall norm l, norm_laws norm -> consistent norm l ->
  exists l', load norm (save l) = Ok l' /\
    lk_version l' = lk_version l /\
    Forall2 same_package (lk_packages l) (lk_packages l') /\
    lk_patch l' = map stored_dep (lk_patch l) /\
    lk_root l' = None /\
    (lk_version l <> V1 -> lk_metadata l' =
       filter (fun kv => negb (existsb (fun p => String.eqb (fst kv) (checksum_key p)) (lk_packages l))) (lk_metadata l)) /\
    (lk_version l = V1 -> forall k v, In (k, v) (lk_metadata l') <->
       (exists p c, In p (lk_packages l) /\ p_checksum p = Some c /\ k = checksum_key p /\ v = checksum_string c) \/
       (In (k, v) (lk_metadata l) /\ forall p, In p (lk_packages l) -> p_checksum p <> None -> k <> checksum_key p)).
Proof.
  intros norm l L Co.
  pose proof (co_packages norm l Co) as F. rewrite Forall_forall in F.
  unfold load, save. cbn [rl_version rl_packages rl_root rl_metadata rl_patch].
  rewrite (omap_map _ _ (loaded_enc l)) by (intros p Hp; apply load_package; auto).
  cbn [obind opt_outcome].
  rewrite (omap_map _ _ stored_dep).
  2:{ intros d Hd. apply load_patch; [exact L|]. pose proof (co_patch norm l Co) as P. rewrite Forall_forall in P. apply P. exact Hd. }
  cbn [obind]. set (meta := fold_left (encode_meta_step l) (lk_packages l) (lk_metadata l)).
  (* format 1 *)
  assert (Keys : lk_version l = V1 -> forall p q, In p (lk_packages l) -> In q (lk_packages l) -> checksum_key p = checksum_key q ->
     p_name p = p_name q /\ p_version p = p_version q).
  { intros V p q Hp Hq E. assert (lk_version l <> V4) as V4 by (rewrite V; discriminate).
    destruct (checksum_key_about norm _ p L V4 (F p Hp)) as [s1 E1].
    destruct (checksum_key_about norm _ q L V4 (F q Hq)) as [s2 E2]. rewrite E, E2 in E1. injection E1 as -> ->. auto. }
  assert (M1 : lk_version l = V1 -> forall k v, In (k, v) meta <->
       (exists p c, In p (lk_packages l) /\ p_checksum p = Some c /\ k = checksum_key p /\ v = checksum_string c) \/
       (In (k, v) (lk_metadata l) /\ forall p, In p (lk_packages l) -> p_checksum p <> None -> k <> checksum_key p)).
  { intros V. assert (is_v1 (lk_version l) = true) as V' by (rewrite V; reflexivity).
    destruct (co_v1 norm l Co V) as (_ & Same & _).
    apply (meta_fold_v1 l (lk_packages l) V'); [|apply (co_sorted norm l Co)].
    intros p q Hp Hq E. destruct (Keys V p q Hp Hq E). apply Same; assumption. }
  assert (M2 : lk_version l <> V1 -> meta =
       filter (fun kv => negb (existsb (fun p => String.eqb (fst kv) (checksum_key p)) (lk_packages l))) (lk_metadata l)).
  { intros V. apply meta_fold_v2. destruct (lk_version l); [congruence|reflexivity..]. }
  assert (match (if is_explicit (lk_version l) then Some (resolve_version_num (lk_version l)) else None) with
          | Some n => resolve_version_of n | None => detect_version (map (loaded_enc l) (lk_packages l)) meta end = Ok (lk_version l)) as ->.
  { assert (Nc : is_v1 (lk_version l) = true -> existsb (fun p => match ep_checksum p with Some _ => true | None => false end) (map (loaded_enc l) (lk_packages l)) = false).
    { intros V. induction (lk_packages l) as [|a r IH] in |- *; [reflexivity|]. cbn [map existsb loaded_enc ep_checksum]. rewrite V. exact IH. }
    destruct (lk_version l) eqn:V; try reflexivity; cbn [is_explicit resolve_version_num N.leb N.compare Pos.compare Pos.compare_cont]; unfold detect_version.
    - rewrite Nc by reflexivity. destruct (co_v1 norm l Co V) as ((p & Hp & Hc) & _).
      assert (existsb (fun kv : string * string => is_checksum_key (fst kv)) meta = true) as ->; [|reflexivity].
      destruct (p_checksum p) as [c|] eqn:E; [|congruence].
      apply existsb_exists. exists (checksum_key p, checksum_string c). split; [|apply checksum_key_is].
      apply (M1 eq_refl). left. exists p, c. auto.
    - assert (existsb (fun kv : string * string => is_checksum_key (fst kv)) meta = false) as ->; [|reflexivity].
      apply not_true_is_false. intros X. apply existsb_exists in X as ([k v] & Hin & X). cbn in X.
      rewrite M2 in Hin by discriminate. apply filter_In in Hin as [Hin N]. cbn [fst] in N.
      destruct (co_v2 norm l Co V k v Hin X) as (p & Hp & ->). apply negb_true_iff in N.
      assert (existsb (fun p0 => String.eqb (checksum_key p) (checksum_key p0)) (lk_packages l) = true); [|congruence].
      apply existsb_exists. exists p. split; [exact Hp|apply String.eqb_refl]. }
  cbn [obind].
  assert (exists ps', omap (fun p => if is_v1 (lk_version l) then let? q := pkg_resolve [] p in Ok (with_checksum q (find_checksum norm meta q))
            else pkg_resolve (map (loaded_enc l) (lk_packages l)) p) (map (loaded_enc l) (lk_packages l)) = Ok ps' /\ Forall2 same_package (lk_packages l) ps') as (ps' & E & Fp).
  { apply omap_forall2. intros p Hp. destruct (is_v1 (lk_version l)) eqn:V.
    - destruct (resolve_package norm l p [] Co Hp) as (ds & Fd & E); [left; auto|]. rewrite E. cbn [obind].
      eexists. split; [reflexivity|]. unfold with_checksum. cbn [p_name p_version p_source p_checksum p_deps p_replace].
      split; [reflexivity|]. split; [reflexivity|]. split; [reflexivity|]. split; [|split; [exact Fd|reflexivity]].
      cbn [p_checksum]. assert (lk_version l = V1) as V' by (destruct (lk_version l); (reflexivity||discriminate)).
      destruct (co_v1 norm l Co V') as (_ & Same & Agree).
      assert (lk_version l <> V4) as V4 by (rewrite V'; discriminate).
      apply find_checksum_spec.
      + intros k v Hin (d & Ed & En & Ev). cbn [p_name p_version] in En, Ev.
        apply (M1 V') in Hin as [(q & c & Hq & Hc & -> & ->)|[Hin A]].
        * destruct (checksum_key_about norm _ q L V4 (F q Hq)) as [s2 E2]. rewrite E2 in Ed. injection Ed as <-. cbn in En, Ev.
          rewrite (Same p q Hp Hq) by congruence. rewrite Hc. cbn.
          destruct (F q Hq) as (_ & _ & _ & C & _). rewrite Hc in C. apply (C33_checksum_roundtrip c C).
        * destruct (Agree k v p Hin Hp) as [R|[R ->]]; [exists d; auto|exact R|]. exfalso. eapply A; [exact Hp|exact R|reflexivity].
      + intros Hc. destruct (p_checksum p) as [c|] eqn:Ec; [|congruence].
        exists (checksum_key p), (checksum_string c). split; [apply (M1 V'); left; exists p, c; auto|].
        destruct (checksum_key_about norm _ p L V4 (F p Hp)) as [s2 E2]. exists (mkDep (p_name p) (p_version p) s2). auto.
    - destruct (resolve_package norm l p (map (loaded_enc l) (lk_packages l)) Co Hp) as (ds & Fd & E); [right; auto|]. rewrite E, V.
      eexists. split; [reflexivity|]. split; [reflexivity|]. split; [reflexivity|]. split; [reflexivity|]. split; [reflexivity|].
      split; [exact Fd|reflexivity]. }
  rewrite E. cbn [obind]. eexists. split; [reflexivity|]. cbn [lk_version lk_packages lk_patch lk_root lk_metadata].
  split; [reflexivity|]. split; [exact Fp|]. split; [reflexivity|]. split; [reflexivity|]. split; assumption.
Qed.
Print Assumptions C30_lockfile_roundtrip.

(** A source other than a path is stored up to equality. *)
Theorem C30_stored_source_is_equal : forall norm s, writable norm s -> s_kind s <> SPath -> same_source (stored_source (Some s)) (Some s).
Proof.
  intros norm s W K. cbn. destruct W as [Hn _].
  assert (source_eqb (reread s) s = true) as E.
  { unfold source_eqb, source_cmp, reread. cbn [s_url s_kind s_precise s_name]. rewrite Hn.
    rewrite (cmp_refl _ str_cmp_laws). cbn [then_cmp option_cmp].
    destruct (s_kind s); try reflexivity. destruct (s_precise s); [rewrite (cmp_refl _ str_cmp_laws)|]; reflexivity. }
  destruct (s_kind s); try exact E. congruence.
Qed.
Print Assumptions C30_stored_source_is_equal.

(** ** Example: two versions of one crate, two sources for one version, a path package. *)
Definition ver (a b c : N) : version := mkVersion a b c [] [].
Definition ex_digest : list N := repeat 175 32.
Definition ex_reg : source_id := default_source.
Definition ex_git : source_id := git_repo (GBranch "main") (Some "80e71a30").
Definition ex_foo1 := mkPkg "foo" (ver 1 0 0) (Some ex_reg) (Some ex_digest) [] (Some (mkDep "foo" (ver 1 0 1) (Some ex_reg))).
Definition ex_foo2 := mkPkg "foo" (ver 2 0 0) (Some ex_reg) (Some (repeat 1 32)) [mkDep "bar" (ver 0 1 0) (Some ex_git)] None.
Definition ex_foo2g := mkPkg "foo" (ver 2 0 0) (Some ex_git) (Some (repeat 1 32)) [] None.
Definition ex_bar := mkPkg "bar" (ver 0 1 0) (Some ex_git) None [mkDep "foo" (ver 2 0 0) (Some ex_git); mkDep "foo" (ver 1 0 0) (Some ex_reg)] None.
Definition ex_app := mkPkg "app" (ver 0 1 0) None None
  [mkDep "bar" (ver 0 1 0) (Some ex_git); mkDep "foo" (ver 1 0 0) (Some ex_reg); mkDep "foo" (ver 2 0 0) (Some ex_reg)] None.
Definition ex_lock (v : resolve_version) := mkLock v [ex_app; ex_bar; ex_foo1; ex_foo2; ex_foo2g] None [("note", "hello")] [mkDep "baz" (ver 3 0 0) (Some ex_reg)].
Lemma ex_digest_ok n : n < 256 -> is_digest (repeat n 32).
Proof. intros H. split; [reflexivity|]. apply Forall_forall. intros x Hx. apply repeat_spec in Hx. subst. exact H. Qed.
Lemma ex_source_ok v s : In s [None; Some ex_reg; Some ex_git] -> source_ok ex_norm v s.
Proof.
  intros [<-|[<-|[<-|[]]]]; [exact I| |]; (split; [|intros _; split; first [reflexivity|exact I]]).
  - split; [reflexivity|]. exists CRATES_IO_INDEX, (mkUrl CRATES_IO_INDEX None None). split; reflexivity.
  - split; [reflexivity|split; reflexivity].
Qed.
Example C30_nonvacuous : forall v, consistent ex_norm (ex_lock v).
Proof.
  intros v. assert (S : forall s, In s [None; Some ex_reg; Some ex_git] -> source_ok ex_norm v s) by apply ex_source_ok.
  assert (S1 : forall s, In s [None; Some ex_reg; Some ex_git] -> source_ok ex_norm V1 s) by apply ex_source_ok.
  assert (Nm : forall n, In n ["foo"; "bar"; "app"; "baz"] -> name_ok n).
  { intros n [<-|[<-|[<-|[<-|[]]]]]; (split; [discriminate|reflexivity]). }
  assert (D : forall n w s, In n ["foo"; "bar"; "app"; "baz"] -> version_wf w = true -> In s [None; Some ex_reg; Some ex_git] -> dep_ok ex_norm v (mkDep n w s)).
  { intros. split; [auto|]. split; [assumption|]. auto. }
  constructor; cbn [lk_version lk_packages lk_patch lk_metadata ex_lock].
  - assert (C1 : is_digest ex_digest) by (apply (ex_digest_ok 175); reflexivity).
    assert (C2 : is_digest (repeat 1 32)) by (apply (ex_digest_ok 1); reflexivity).
    assert (DD : forall n w s, In n ["foo"; "bar"; "app"; "baz"] -> version_wf w = true -> In s [None; Some ex_reg; Some ex_git] -> forall l, Forall (dep_ok ex_norm v) l -> Forall (dep_ok ex_norm v) (mkDep n w s :: l)).
    { intros. constructor; [apply D; assumption|assumption]. }
    constructor; [|constructor; [|constructor; [|constructor; [|constructor; [|constructor]]]]];
      (split; [apply Nm; cbn; tauto|]; split; [reflexivity|]; split; [apply S; cbn; tauto|]; split; [first [exact I|exact C1|exact C2]|]; split;
       [repeat (apply DD; [cbn; tauto|reflexivity|cbn; tauto|]); constructor|first [exact I|apply D; [cbn; tauto|reflexivity|cbn; tauto]]]).
  - constructor; [|constructor]. split; [apply Nm; cbn; tauto|]. split; [reflexivity|]. apply S1; cbn; tauto.
  - intros p d [<-|[<-|[<-|[<-|[<-|[]]]]]] Hd; cbn in Hd.
    + destruct Hd as [<-|[<-|[<-|[]]]]; [exists ex_bar|exists ex_foo1|exists ex_foo2]; (split; [cbn; tauto|split; [reflexivity|split; reflexivity]]).
    + destruct Hd as [<-|[<-|[]]]; [exists ex_foo2g|exists ex_foo1]; (split; [cbn; tauto|split; [reflexivity|split; reflexivity]]).
    + destruct Hd.
    + destruct Hd as [<-|[]]. exists ex_bar; (split; [cbn; tauto|split; [reflexivity|split; reflexivity]]).
    + destruct Hd.
  - intros i j p q Hi Hj En Ev Es.
    destruct i as [|[|[|[|[|i]]]]]; cbn in Hi; try (injection Hi as <-); try discriminate Es; try (destruct i; discriminate).
    destruct j as [|[|[|[|[|j]]]]]; cbn in Hj; try (injection Hj as <-); try discriminate En; try reflexivity; destruct j; discriminate.
  - cbn. auto.
  - intros _. split; [exists ex_foo1; split; [cbn; tauto|discriminate]|]. split.
    + intros p q [<-|[<-|[<-|[<-|[<-|[]]]]]] [<-|[<-|[<-|[<-|[<-|[]]]]]] En Ev; try reflexivity; try discriminate En; try discriminate Ev.
    + intros k w p [E|[]] _ (d & Ed & _). injection E as <- <-. discriminate Ed.
  - intros _ k w [E|[]] H. injection E as <- <-. discriminate H.
Qed.
Example C30_example_text :
  map rp_deps (rl_packages (save (ex_lock V3))) =
    [["bar"; "foo 1.0.0"; "foo 2.0.0 (registry+https://github.com/rust-lang/crates.io-index)"];
     ["foo 2.0.0 (git+https://example.org/r.git?branch=main#80e71a30)"; "foo 1.0.0"]; []; ["bar"]; []] /\
  map fst (rl_metadata (save (ex_lock V1))) =
    ["checksum foo 1.0.0 (registry+https://github.com/rust-lang/crates.io-index)";
     "checksum foo 2.0.0 (git+https://example.org/r.git?branch=main#80e71a30)";
     "checksum foo 2.0.0 (registry+https://github.com/rust-lang/crates.io-index)"; "note"].
Proof. split; reflexivity. Qed.

(** What does not survive.
    1. A path package and a registry package of one name and version: the dependency on the path package is
       read back as one on the registry package.
    2. A replacement of a package with dependencies.
    3. Format 1 without any checksum is read as format 2.
    4. In format 1, two packages of one name and version share the checksum listed first.
    5. The legacy root package. *)
Definition pr_reg := mkPkg "foo" (ver 1 0 0) (Some ex_reg) (Some ex_digest) [] None.
Definition pr_path := mkPkg "foo" (ver 1 0 0) None None [] None.
Definition pr_app := mkPkg "app" (ver 1 0 0) None None [mkDep "foo" (ver 1 0 0) None] None.
Theorem C30_full_roundtrip_refuted :
  (exists l', load ex_norm (save (mkLock V3 [pr_app; pr_reg; pr_path] None [] [])) = Ok l' /\
     map p_deps (lk_packages l') = [[mkDep "foo" (ver 1 0 0) (Some (reread ex_reg))]; []; []]) /\
  (exists l', load ex_norm (save (mkLock V3 [mkPkg "foo" (ver 1 0 0) None None [mkDep "bar" (ver 1 0 0) None] (Some (mkDep "foo" (ver 1 0 1) None));
                                     mkPkg "bar" (ver 1 0 0) None None [] None] None [] [])) = Ok l' /\
     map p_replace (lk_packages l') = [None; None]) /\
  (exists l', load ex_norm (save (mkLock V1 [pr_app; pr_path] None [] [])) = Ok l' /\ lk_version l' = V2) /\
  (exists l', load ex_norm (save (mkLock V1 [pr_reg; mkPkg "foo" (ver 1 0 0) (Some ex_git) (Some (repeat 1 32)) [] None] None [] [])) = Ok l' /\
     map p_checksum (lk_packages l') = [Some (repeat 1 32); Some (repeat 1 32)]) /\
  (exists l', load ex_norm (save (mkLock V3 [pr_app; pr_path] (Some pr_app) [] [])) = Ok l' /\ lk_root l' = None).
Proof.
  split; [|split; [|split; [|split]]]; eexists; (split; [vm_compute; reflexivity|vm_compute; reflexivity]).
Qed.
Print Assumptions C30_full_roundtrip_refuted.

(** ** C31 *)
Lemma omap_nth {A B} (f : A -> outcome B) l l' : omap f l = Ok l' -> forall i x, nth_error l i = Some x ->
  exists y, nth_error l' i = Some y /\ f x = Ok y.
Proof.
  revert l'. induction l as [|a l IH]; intros l' H i x Hi; [destruct i; discriminate|]. cbn [omap] in H.
  destruct (f a) as [y| |] eqn:E; try discriminate. cbn [obind] in H. destruct (omap f l) as [ys| |] eqn:E2; try discriminate.
  cbn [obind] in H. injection H as <-. destruct i as [|i]; cbn in Hi; [injection Hi as <-; exists y; auto|]. apply (IH ys eq_refl i x Hi).
Qed.
Lemma omap_nth_inv {A B} (f : A -> outcome B) l l' : omap f l = Ok l' -> forall i y, nth_error l' i = Some y ->
  exists x, nth_error l i = Some x /\ f x = Ok y.
Proof.
  revert l'. induction l as [|a l IH]; intros l' H i x Hi; [injection H as <-; destruct i; discriminate|]. cbn [omap] in H.
  destruct (f a) as [y| |] eqn:E; try discriminate. cbn [obind] in H. destruct (omap f l) as [ys| |] eqn:E2; try discriminate.
  cbn [obind] in H. injection H as <-. destruct i as [|i]; cbn in Hi; [injection Hi as <-; exists a; auto|]. apply (IH ys eq_refl i x Hi).
Qed.
Lemma pkg_resolve_fields pkgs e p : pkg_resolve pkgs e = Ok p ->
  p_name p = ep_name e /\ p_version p = ep_version e /\ p_source p = option_map es_inner (ep_source e) /\ omap (dep_resolve pkgs) (ep_deps e) = Ok (p_deps p).
Proof.
  unfold pkg_resolve. destruct (omap (dep_resolve pkgs) (ep_deps e)) as [ds| |]; try discriminate. cbn [obind].
  destruct (opt_outcome (dep_resolve []) (ep_replace e)); try discriminate. cbn [obind]. intros H; injection H as <-. auto.
Qed.
Lemma find_resolved (f : enc_package -> bool) (g : package -> bool) (h : enc_package -> outcome package) eps ps :
  omap h eps = Ok ps -> (forall e p, h e = Ok p -> dep_of_package p = mkDep (ep_name e) (ep_version e) (option_map es_inner (ep_source e)) /\ f e = g p) ->
  match find f eps, find g ps with
  | Some e, Some p => dep_of_package p = mkDep (ep_name e) (ep_version e) (option_map es_inner (ep_source e))
  | None, None => True
  | _, _ => False
  end.
Proof.
  revert ps. induction eps as [|e eps IH]; intros ps H K; [injection H as <-; exact I|]. cbn [omap] in H.
  destruct (h e) as [p| |] eqn:E; try discriminate. cbn [obind] in H. destruct (omap h eps) as [r| |] eqn:E2; try discriminate.
  cbn [obind] in H. injection H as <-. cbn [find]. destruct (K e p E) as [K1 K2]. rewrite <- K2. destruct (f e); [exact K1|].
  apply IH; auto.
Qed.

(** The reference [s], written in package number [i] as dependency number [j], is read as [d]. *)
Definition read_reference (norm : string -> option string) (r : raw_lock) (l : lockfile) (s : string) (d : dependency) : Prop :=
  load norm r = Ok l /\ exists i j rp p, nth_error (rl_packages r) i = Some rp /\ nth_error (rp_deps rp) j = Some s /\
    nth_error (lk_packages l) i = Some p /\ nth_error (p_deps p) j = Some d.

Lemma reference_read norm r l i j rp s : load norm r = Ok l -> lk_version l <> V1 ->
  nth_error (rl_packages r) i = Some rp -> nth_error (rp_deps rp) j = Some s ->
  exists p d e eps, nth_error (lk_packages l) i = Some p /\ nth_error (p_deps p) j = Some d /\
    omap (pkg_resolve eps) eps = Ok (lk_packages l) /\ enc_dep_from_str norm s = Ok e /\ dep_resolve eps e = Ok d.
Proof.
  intros H V Hi Hj. unfold load in H.
  destruct (omap (enc_package_of_raw norm) (rl_packages r)) as [eps| |] eqn:E1; try discriminate. cbn [obind] in H.
  destruct (opt_outcome (enc_package_of_raw norm) (rl_root r)); try discriminate. cbn [obind] in H.
  destruct (omap (patch_of_raw norm) (rl_patch r)); try discriminate. cbn [obind] in H.
  destruct (match rl_version r with Some n => resolve_version_of n | None => detect_version eps (rl_metadata r) end) as [v| |]; try discriminate. cbn [obind] in H.
  destruct (omap _ eps) as [ps| |] eqn:E2 in H; try discriminate. cbn [obind] in H.
  destruct (opt_outcome (pkg_resolve []) _); try discriminate. cbn [obind] in H. injection H as <-. cbn [lk_version lk_packages] in *.
  assert (is_v1 v = false) as V' by (destruct v; [congruence|reflexivity..]). rewrite V' in E2.
  destruct (omap_nth _ _ _ E1 i rp Hi) as (e & He & Ee). destruct (omap_nth _ _ _ E2 i e He) as (p & Hp & Ep).
  unfold enc_package_of_raw in Ee.
  destruct (of_option (parse_version (rp_version rp))); try discriminate. cbn [obind] in Ee.
  destruct (opt_outcome (from_url norm) (rp_source rp)); try discriminate. cbn [obind] in Ee.
  destruct (opt_outcome checksum_from_str (rp_checksum rp)); try discriminate. cbn [obind] in Ee.
  destruct (omap (enc_dep_from_str norm) (rp_deps rp)) as [eds| |] eqn:E3; try discriminate. cbn [obind] in Ee.
  destruct (opt_outcome (enc_dep_from_str norm) (rp_replace rp)); try discriminate. cbn [obind] in Ee. injection Ee as <-.
  destruct (omap_nth _ _ _ E3 j s Hj) as (ed & Hed & Eed).
  apply pkg_resolve_fields in Ep as (_ & _ & _ & Ep). cbn [ep_deps] in Ep.
  destruct (omap_nth _ _ _ Ep j ed Hed) as (d & Hd & Ed). exists p, d, ed, eps. auto.
Qed.

(** A bare name is read as the first listed package of that name (and exists, or loading fails). *)
Theorem C31_bare_name : forall norm r l s d n, read_reference norm r l s d -> lk_version l <> V1 -> words s = [n] ->
  exists q, find (fun q => String.eqb (p_name q) n) (lk_packages l) = Some q /\ d = dep_of_package q.
Proof.
  intros norm r l s d n (H & i & j & rp & p & Hi & Hj & Hp & Hd) V W.
  destruct (reference_read norm r l i j rp s H V Hi Hj) as (p' & d' & e & eps & Hp' & Hd' & E1 & E2 & E3).
  rewrite Hp in Hp'. injection Hp' as <-. rewrite Hd in Hd'. injection Hd' as <-.
  unfold enc_dep_from_str in E2. rewrite W in E2. injection E2 as <-. unfold dep_resolve in E3. cbn [ed_name ed_version ed_source] in E3.
  pose proof (find_resolved (fun p0 => String.eqb (ep_name p0) n && opt_version_eqb None (ep_version p0) && true)
    (fun q => String.eqb (p_name q) n) (pkg_resolve eps) eps _ E1) as K.
  assert (K' : forall e p0, pkg_resolve eps e = Ok p0 -> dep_of_package p0 = mkDep (ep_name e) (ep_version e) (option_map es_inner (ep_source e)) /\
     String.eqb (ep_name e) n && opt_version_eqb None (ep_version e) && true = String.eqb (p_name p0) n).
  { intros e p0 X. apply pkg_resolve_fields in X as (X1 & X2 & X3 & _). unfold dep_of_package. rewrite X1, X2, X3. cbn. rewrite !andb_true_r. auto. }
  specialize (K K'). destruct (find _ eps) as [x|] in E3, K.
  - destruct (find _ (lk_packages l)) as [q|] in K |- *; [|destruct K]. exists q. injection E3 as <-. auto.
  - discriminate E3.
Qed.
Print Assumptions C31_bare_name.

(** Name and version: the first listed package of that name and version if there is one. *)
Theorem C31_name_and_version : forall norm r l s d n w v, read_reference norm r l s d -> lk_version l <> V1 ->
  words s = [n; w] -> parse_version w = Some v ->
  match find (fun q => String.eqb (p_name q) n && version_eqb (p_version q) v) (lk_packages l) with
  | Some q => d = dep_of_package q
  | None => d = mkDep n v None
  end.
Proof.
  intros norm r l s d n w v (H & i & j & rp & p & Hi & Hj & Hp & Hd) V W Hv.
  destruct (reference_read norm r l i j rp s H V Hi Hj) as (p' & d' & e & eps & Hp' & Hd' & E1 & E2 & E3).
  rewrite Hp in Hp'. injection Hp' as <-. rewrite Hd in Hd'. injection Hd' as <-.
  unfold enc_dep_from_str in E2. rewrite W, Hv in E2. injection E2 as <-. unfold dep_resolve in E3. cbn [ed_name ed_version ed_source] in E3.
  pose proof (find_resolved (fun p0 => String.eqb (ep_name p0) n && opt_version_eqb (Some v) (ep_version p0) && true)
    (fun q => String.eqb (p_name q) n && version_eqb (p_version q) v) (pkg_resolve eps) eps _ E1) as K.
  assert (K' : forall e p0, pkg_resolve eps e = Ok p0 -> dep_of_package p0 = mkDep (ep_name e) (ep_version e) (option_map es_inner (ep_source e)) /\
     String.eqb (ep_name e) n && opt_version_eqb (Some v) (ep_version e) && true = String.eqb (p_name p0) n && version_eqb (p_version p0) v).
  { intros e p0 X. apply pkg_resolve_fields in X as (X1 & X2 & X3 & _). unfold dep_of_package. rewrite X1, X2, X3. split; [reflexivity|].
    rewrite andb_true_r. cbn [opt_version_eqb]. f_equal. destruct (version_eqb_spec v (ep_version e)), (version_eqb_spec (ep_version e) v); congruence. }
  specialize (K K'). destruct (find _ eps) as [x|] in E3, K.
  - destruct (find _ (lk_packages l)) as [q|] in K |- *; [|destruct K]. injection E3 as <-. auto.
  - destruct (find _ (lk_packages l)) as [q|] in K |- *; [destruct K|]. injection E3 as <-. reflexivity.
Qed.
Print Assumptions C31_name_and_version.

(** Hence an abbreviation of exactly one listed package is read as that package. *)
Theorem C31_unique_abbreviation : forall norm r l s d q, read_reference norm r l s d -> lk_version l <> V1 -> In q (lk_packages l) ->
  (words s = [p_name q] /\ (forall q', In q' (lk_packages l) -> p_name q' = p_name q -> q' = q)) \/
  (words s = [p_name q; print_version (p_version q)] /\ version_wf (p_version q) = true /\
     (forall q', In q' (lk_packages l) -> p_name q' = p_name q -> p_version q' = p_version q -> q' = q)) ->
  d = dep_of_package q.
Proof.
  intros norm r l s d q R V Hq [[W U]|(W & Wf & U)].
  - destruct (C31_bare_name norm r l s d _ R V W) as (q' & F & ->). apply find_some in F as [F1 F2]. apply String.eqb_eq in F2.
    rewrite (U q' F1 F2). reflexivity.
  - pose proof (C31_name_and_version norm r l s d _ _ _ R V W (parse_print_version _ Wf)) as K.
    destruct (find _ (lk_packages l)) as [q'|] eqn:F.
    + apply find_some in F as [F1 F2]. apply andb_prop in F2 as [F2 F3]. apply String.eqb_eq in F2.
      destruct (version_eqb_spec (p_version q') (p_version q)) as [E|]; [|discriminate]. rewrite (U q' F1 F2 E) in K. exact K.
    + exfalso. pose proof (find_none _ _ F q Hq) as N. cbv beta in N. rewrite String.eqb_refl in N.
      destruct (version_eqb_spec (p_version q) (p_version q)); [discriminate|congruence].
Qed.
Print Assumptions C31_unique_abbreviation.
(** What a reference in an accepted lockfile looks like: a name, then possibly a
    version, then possibly a source in parentheses, and nothing else. *)
Theorem C31_reference_shape : forall norm r l rp s, load norm r = Ok l -> In rp (rl_packages r) -> In s (rp_deps rp) ->
  (exists n, words s = [n]) \/
  (exists n w v, words s = [n; w] /\ parse_version w = Some v) \/
  (exists n w v u src, words s = [n; w; "(" ++ u ++ ")"] /\ parse_version w = Some v /\ from_url norm u = Ok src).
Proof.
  intros norm r l rp s H Hi Hj. unfold load in H.
  destruct (omap (enc_package_of_raw norm) (rl_packages r)) as [eps| |] eqn:E1; try discriminate. clear H.
  apply In_nth_error in Hi as [i Hi]. apply In_nth_error in Hj as [j Hj].
  destruct (omap_nth _ _ _ E1 i rp Hi) as (e & _ & Ee). unfold enc_package_of_raw in Ee.
  destruct (of_option (parse_version (rp_version rp))); try discriminate. cbn [obind] in Ee.
  destruct (opt_outcome (from_url norm) (rp_source rp)); try discriminate. cbn [obind] in Ee.
  destruct (opt_outcome checksum_from_str (rp_checksum rp)); try discriminate. cbn [obind] in Ee.
  destruct (omap (enc_dep_from_str norm) (rp_deps rp)) as [eds| |] eqn:E3; try discriminate. clear Ee.
  destruct (omap_nth _ _ _ E3 j s Hj) as (d & _ & Ed). unfold enc_dep_from_str in Ed.
  destruct (words s) as [|n [|w rest]] eqn:W; [discriminate|left; eauto|]. right.
  destruct (parse_version w) as [v|] eqn:V; [|discriminate]. cbn [of_option obind] in Ed.
  destruct rest as [|q rest]; [left; exists n, w, v; auto|right].
  destruct (parse_paren_source norm q) as [src| |] eqn:Q; try discriminate. cbn [obind] in Ed. destruct rest; [|discriminate].
  unfold parse_paren_source in Q. destruct (Nat.ltb (String.length q) 2) eqn:L; [discriminate|]. apply Nat.ltb_ge in L. cbn [orb] in Q.
  destruct (starts_with "(" q) eqn:A; [|discriminate]. destruct (ends_with ")" q) eqn:B; [|discriminate]. cbn [orb negb] in Q.
  apply starts_with_spec in A as [t ->]. apply ends_with_spec in B as [u B].
  assert (exists x, t = x ++ ")") as [x ->].
  { destruct u as [|c u]; [cbn in B; injection B as E; subst t; cbn in L; lia|]. cbn in B. injection B as _ E. exists u. exact E. }
  exists n, w, v, x, src. split; [reflexivity|]. split; [exact V|].
  assert (X : substring 1 (String.length ("(" ++ x ++ ")") - 2) ("(" ++ x ++ ")") = x).
  { cbn. rewrite slength_app. cbn. replace (String.length x + 1 - 1)%nat with (String.length x) by lia.
    clear. induction x as [|c x IH]; [reflexivity|]. cbn. rewrite IH. reflexivity. }
  rewrite X in Q. exact Q.
Qed.
Print Assumptions C31_reference_shape.

Definition one_package (dep : string) : raw_lock :=
  mkRawLock (Some 3) [mkRawPkg "app" "0.1.0" None None [dep] None; mkRawPkg "foo" "1.0.0" None None [] None] None [] [].
(** A bare name that is not listed is an error; but a name with a version that is not listed is accepted. *)
Theorem C31_unresolvable_is_an_error_refuted :
  load ex_norm (one_package "nosuch") = Err /\
  exists l, load ex_norm (one_package "nosuch 1.2.3") = Ok l /\
    map p_deps (lk_packages l) = [[mkDep "nosuch" (ver 1 2 3) None]; []].
Proof. split; [reflexivity|]. eexists. split; vm_compute; reflexivity. Qed.
Print Assumptions C31_unresolvable_is_an_error_refuted.
Example C31_nonvacuous :
  let r := save (ex_lock V4) in exists l, load ex_norm r = Ok l /\ lk_version l <> V1 /\
    read_reference ex_norm r l "foo 1.0.0" (dep_of_package (mkPkg "foo" (ver 1 0 0) (Some (reread ex_reg)) None [] None)) /\
    read_reference ex_norm r l "bar" (dep_of_package (mkPkg "bar" (ver 0 1 0) (Some ex_git) None [] None)) /\
    words "bar" = ["bar"] /\ words "foo 1.0.0" = ["foo"; print_version (ver 1 0 0)].
Proof.
  cbv zeta. destruct (load ex_norm (save (ex_lock V4))) as [l| |] eqn:E; [|vm_compute in E; discriminate..].
  assert (E' := E). vm_compute in E'. exists l. split; [reflexivity|]. injection E' as <-. split; [discriminate|].
  split; [split; [exact E|]; exists 0%nat, 1%nat; eexists; eexists; repeat split; reflexivity|].
  split; [split; [exact E|]; exists 0%nat, 0%nat; eexists; eexists; repeat split; reflexivity|].
  split; reflexivity.
Qed.

(** ** C32 *)
Lemma load_version norm r l : load norm r = Ok l ->
  exists eps, omap (enc_package_of_raw norm) (rl_packages r) = Ok eps /\
   match rl_version r with Some n => resolve_version_of n | None => detect_version eps (rl_metadata r) end = Ok (lk_version l).
Proof.
  unfold load. destruct (omap (enc_package_of_raw norm) (rl_packages r)) as [eps| |]; try discriminate. cbn [obind].
  destruct (opt_outcome (enc_package_of_raw norm) (rl_root r)); try discriminate. cbn [obind].
  destruct (omap (patch_of_raw norm) (rl_patch r)); try discriminate. cbn [obind].
  destruct (match rl_version r with Some n => resolve_version_of n | None => detect_version eps (rl_metadata r) end) as [v| |] eqn:Ev; try discriminate. cbn [obind].
  destruct (omap _ eps); try discriminate. cbn [obind]. destruct (opt_outcome (pkg_resolve []) _); try discriminate. cbn [obind].
  intros H; injection H as <-. exists eps. auto.
Qed.
Lemma enc_checksum norm rp e : enc_package_of_raw norm rp = Ok e -> (ep_checksum e = None <-> rp_checksum rp = None).
Proof.
  unfold enc_package_of_raw. destruct (of_option _); try discriminate. cbn [obind].
  destruct (opt_outcome (from_url norm) _); try discriminate. cbn [obind].
  destruct (rp_checksum rp) as [c|]; cbn [opt_outcome].
  - destruct (checksum_from_str c); try discriminate. cbn [obind].
    destruct (omap _ _); try discriminate. cbn [obind]. destruct (opt_outcome _ (rp_replace rp)); try discriminate. cbn [obind].
    intros H; injection H as <-. cbn. split; discriminate.
  - cbn [obind]. destruct (omap _ _); try discriminate. cbn [obind]. destruct (opt_outcome _ (rp_replace rp)); try discriminate. cbn [obind].
    intros H; injection H as <-. cbn. tauto.
Qed.
Definition has_checksum_metadata (r : raw_lock) : Prop := exists k v t, In (k, v) (rl_metadata r) /\ k = "checksum " ++ t.
Definition has_checksum_field (r : raw_lock) : Prop := exists p, In p (rl_packages r) /\ rp_checksum p <> None.
Theorem C32_explicit_version : forall norm r l n, rl_version r = Some n -> load norm r = Ok l ->
  1 <= n <= 4 /\ resolve_version_num (lk_version l) = n.
Proof.
  intros norm r l n Hn H. destruct (load_version norm r l H) as (eps & _ & E). rewrite Hn in E. unfold resolve_version_of in E.
  destruct (N.eqb_spec n 1) as [->|]; [injection E as <-; cbn; lia|].
  destruct (N.eqb_spec n 2) as [->|]; [injection E as <-; cbn; lia|].
  destruct (N.eqb_spec n 3) as [->|]; [injection E as <-; cbn; lia|].
  destruct (N.eqb_spec n 4) as [->|]; [injection E as <-; cbn; lia|]. discriminate.
Qed.
Print Assumptions C32_explicit_version.
Theorem C32_detected_version : forall norm r l, rl_version r = None -> load norm r = Ok l ->
  (lk_version l = V1 /\ has_checksum_metadata r /\ ~ has_checksum_field r) \/
  (lk_version l = V2 /\ ~ has_checksum_metadata r).
Proof.
  intros norm r l Hn H. destruct (load_version norm r l H) as (eps & Ee & E). rewrite Hn in E. unfold detect_version in E.
  destruct (existsb (fun kv => is_checksum_key (fst kv)) (rl_metadata r)) eqn:E1.
  - destruct (existsb _ eps) eqn:E2; cbn [andb] in E; [discriminate|]. injection E as <-. left. split; [reflexivity|].
    split.
    + apply existsb_exists in E1 as ([k v] & Hin & K). apply starts_with_spec in K as [t K]. exists k, v, t. auto.
    + intros (p & Hp & Hc). apply In_nth_error in Hp as [i Hi]. destruct (omap_nth _ _ _ Ee i p Hi) as (e & He & Ep).
      assert (existsb (fun p => match ep_checksum p with Some _ => true | None => false end) eps = true); [|congruence].
      apply existsb_exists. exists e. split; [apply nth_error_In in He; exact He|].
      destruct (ep_checksum e) eqn:X; [reflexivity|]. exfalso. apply Hc. apply (enc_checksum norm p e Ep). exact X.
  - cbn [andb] in E. injection E as <-. right. split; [reflexivity|]. intros (k & v & t & Hin & ->).
    assert (existsb (fun kv : string * string => is_checksum_key (fst kv)) (rl_metadata r) = true); [|congruence].
    apply existsb_exists. exists ("checksum " ++ t, v). split; [exact Hin|]. apply starts_with_spec. exists t. reflexivity.
Qed.
Print Assumptions C32_detected_version.
(** A conflict is an error, whatever else the file says. *)
Theorem C32_conflict_is_rejected : forall norm r l, rl_version r = None -> has_checksum_metadata r -> has_checksum_field r -> load norm r <> Ok l.
Proof. intros norm r l Hn M F H. destruct (C32_detected_version norm r l Hn H) as [(_ & _ & K)|(_ & K)]; auto. Qed.
Print Assumptions C32_conflict_is_rejected.
Example C32_nonvacuous :
  (exists l, load ex_norm (save (ex_lock V1)) = Ok l /\ lk_version l = V1) /\ rl_version (save (ex_lock V1)) = None /\
  (exists l, load ex_norm (save (ex_lock V2)) = Ok l /\ lk_version l = V2) /\ rl_version (save (ex_lock V2)) = None /\
  load ex_norm (mkRawLock (Some 5) [] None [] []) = Err /\
  load ex_norm (mkRawLock None [mkRawPkg "foo" "1.0.0" None (Some (repeat_str 32 "af")) [] None] None [("checksum foo 1.0.0", repeat_str 32 "af")] []) = Err.
Proof.
  split; [eexists; split; [vm_compute; reflexivity|reflexivity]|]. split; [reflexivity|].
  split; [eexists; split; [vm_compute; reflexivity|reflexivity]|]. repeat split; reflexivity.
Qed.
