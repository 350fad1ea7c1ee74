(** Property theorems C74: [cargo lock translate]. *)
From Coq Require Import List NArith Ascii String Bool Lia Arith.
From Verif Require Import Base SemverModel StrLib VerText PkgModel UrlModel UrlSpec UrlProofs SumModel LockModel LockSpec LockProofs
  PropsSource PropsLock IdSpec IdProofs LockCliModel LockCliSpec.
Import ListNotations.
Local Open Scope string_scope.
Local Open Scope N_scope.
Local Infix "++" := String.append (right associativity, at level 60).

(** ** What loading yields *)
Definition settled (s : option source_id) : Prop := match s with Some s => reread s = s | None => True end.
Lemma settled_url norm t s : norm_laws norm -> opt_outcome (from_url norm) t = Ok s -> settled s.
Proof.
  intros L. destruct t as [t|]; cbn [opt_outcome]; [|intros H; injection H as <-; exact I].
  destruct (from_url norm t) as [s'| |] eqn:E; try discriminate. cbn [obind]. intros H; injection H as <-.
  apply (from_url_writable norm t s' L E).
Qed.
Lemma settled_paren norm t s : norm_laws norm -> parse_paren_source norm t = Ok s -> reread s = s.
Proof. unfold parse_paren_source. intros L. destruct (_ || _)%bool; [discriminate|]. intros E. apply (from_url_writable norm _ s L E). Qed.
Definition enc_settled (e : option enc_source) : Prop := match e with Some e => reread (es_inner e) = es_inner e | None => True end.
Lemma settled_dep norm t d : norm_laws norm -> enc_dep_from_str norm t = Ok d -> enc_settled (ed_source d).
Proof.
  intros L. unfold enc_dep_from_str. destruct (words t) as [|n [|v [|p rest]]]; try discriminate.
  - intros H; injection H as <-. exact I.
  - destruct (parse_version v); try discriminate. cbn [of_option obind]. intros H; injection H as <-. exact I.
  - destruct (parse_version v); try discriminate. cbn [of_option obind].
    destruct (parse_paren_source norm p) as [s| |] eqn:E; try discriminate. cbn [obind].
    destruct rest; [|discriminate]. intros H; injection H as <-. cbn. apply (settled_paren norm p s L E).
Qed.
Lemma omap_in {A B} (f : A -> outcome B) l l' y : omap f l = Ok l' -> In y l' -> exists x, In x l /\ f x = Ok y.
Proof.
  intros E H. apply In_nth_error in H as [i Hi]. destruct (omap_nth_inv f l l' E i y Hi) as (x & Hx & Ex).
  exists x. split; [eapply nth_error_In; exact Hx|exact Ex].
Qed.
Lemma settled_inner e : enc_settled e -> settled (option_map es_inner e).
Proof. destruct e; exact (fun h => h). Qed.
Lemma settled_resolve pkgs d d' : (forall p, In p pkgs -> enc_settled (ep_source p)) -> enc_settled (ed_source d) ->
  dep_resolve pkgs d = Ok d' -> settled (d_source d').
Proof.
  intros P D. unfold dep_resolve. destruct (find _ pkgs) as [p|] eqn:F.
  - intros H; injection H as <-. apply find_some in F as [F _]. cbn. apply settled_inner, P, F.
  - destruct (ed_version d); try discriminate. cbn [of_option obind]. intros H; injection H as <-. apply settled_inner, D.
Qed.
Definition all_settled (l : lockfile) : Prop :=
  (forall p, In p (lk_packages l) -> settled (p_source p) /\ (forall d, In d (p_deps p) -> settled (d_source d)) /\
     match p_replace p with Some d => settled (d_source d) | None => True end) /\
  (forall d, In d (lk_patch l) -> settled (d_source d)).
Lemma load_settled norm r l : norm_laws norm -> load norm r = Ok l -> all_settled l.
Proof.
  intros L. unfold load. destruct (omap (enc_package_of_raw norm) (rl_packages r)) as [eps| |] eqn:E1; try discriminate. cbn [obind].
  destruct (opt_outcome (enc_package_of_raw norm) (rl_root r)); try discriminate. cbn [obind].
  destruct (omap (patch_of_raw norm) (rl_patch r)) as [pa| |] eqn:E3; try discriminate. cbn [obind].
  destruct (match rl_version r with Some n => resolve_version_of n | None => detect_version eps (rl_metadata r) end) as [v| |]; try discriminate. cbn [obind].
  destruct (omap _ eps) as [ps| |] eqn:E2; try discriminate. cbn [obind].
  destruct (opt_outcome (pkg_resolve []) _); try discriminate. cbn [obind]. intros H; injection H as <-.
  assert (Enc : forall e, In e eps -> enc_settled (ep_source e) /\ (forall d, In d (ep_deps e) -> enc_settled (ed_source d)) /\
     match ep_replace e with Some d => enc_settled (ed_source d) | None => True end).
  { intros e He. destruct (omap_in _ _ _ e E1 He) as (rp & _ & Ee). unfold enc_package_of_raw in Ee.
    destruct (of_option (parse_version (rp_version rp))); try discriminate. cbn [obind] in Ee.
    destruct (opt_outcome (from_url norm) (rp_source rp)) as [s| |] eqn:Es; try discriminate. cbn [obind] in Ee.
    destruct (opt_outcome checksum_from_str (rp_checksum rp)); try discriminate. cbn [obind] in Ee.
    destruct (omap (enc_dep_from_str norm) (rp_deps rp)) as [ds| |] eqn:Ed; try discriminate. cbn [obind] in Ee.
    destruct (opt_outcome (enc_dep_from_str norm) (rp_replace rp)) as [rep| |] eqn:Er; try discriminate. cbn [obind] in Ee.
    injection Ee as <-. cbn [ep_source ep_deps ep_replace]. split; [|split].
    - apply settled_url in Es; [|exact L]. destruct s; exact Es.
    - intros d Hd. destruct (omap_in _ _ _ d Ed Hd) as (t & _ & Et). apply (settled_dep norm t d L Et).
    - destruct rep as [d|]; [|exact I]. destruct (rp_replace rp) as [t|]; [|discriminate Er]. cbn [opt_outcome] in Er.
      destruct (enc_dep_from_str norm t) as [d'| |] eqn:Et; try discriminate. cbn [obind] in Er. injection Er as <-.
      apply (settled_dep norm t _ L Et). }
  assert (Res : forall pkgs e q, (forall p, In p pkgs -> enc_settled (ep_source p)) -> In e eps -> pkg_resolve pkgs e = Ok q ->
     settled (p_source q) /\ (forall d, In d (p_deps q) -> settled (d_source d)) /\
     match p_replace q with Some d => settled (d_source d) | None => True end).
  { intros pkgs e q P He Eq. destruct (Enc e He) as (S & D & R). unfold pkg_resolve in Eq.
    destruct (omap (dep_resolve pkgs) (ep_deps e)) as [ds| |] eqn:Ed; try discriminate. cbn [obind] in Eq.
    destruct (opt_outcome (dep_resolve []) (ep_replace e)) as [rep| |] eqn:Er; try discriminate. cbn [obind] in Eq. injection Eq as <-.
    cbn [p_source p_deps p_replace]. split; [apply settled_inner, S|]. split.
    - intros d Hd. destruct (omap_in _ _ _ d Ed Hd) as (x & Hx & Ex). apply (settled_resolve pkgs x d P (D x Hx) Ex).
    - destruct rep as [d|]; [|exact I]. destruct (ep_replace e) as [x|]; [|discriminate Er]. cbn [opt_outcome] in Er.
      destruct (dep_resolve [] x) as [d'| |] eqn:Ex; try discriminate. cbn [obind] in Er. injection Er as <-.
      apply (settled_resolve [] x _ (fun p f => match f with end) R Ex). }
  split; cbn [lk_packages lk_patch].
  - intros p Hp. destruct (omap_in _ _ _ p E2 Hp) as (e & He & Ee). cbv beta in Ee. destruct (is_v1 v).
    + destruct (pkg_resolve [] e) as [q| |] eqn:Eq; try discriminate. cbn [obind] in Ee. injection Ee as <-.
      apply (Res [] e q (fun p f => match f with end) He Eq).
    + apply (Res eps e p); [intros q Hq; apply (Enc q Hq)|exact He|exact Ee].
  - intros d Hd. destruct (omap_in _ _ _ d E3 Hd) as (x & _ & Ex). unfold patch_of_raw in Ex.
    destruct (of_option (parse_version (ru_version x))); try discriminate. cbn [obind] in Ex.
    destruct (opt_outcome (from_url norm) (ru_source x)) as [s| |] eqn:Es; try discriminate. cbn [obind] in Ex. injection Ex as <-.
    apply (settled_url norm _ s L Es).
Qed.
Lemma stored_settled s : settled s -> not_path s -> stored_source s = s.
Proof. destruct s as [s|]; cbn; [|reflexivity]. intros R N. destruct (s_kind s) eqn:K; try (rewrite R; reflexivity). congruence. Qed.

(** ** An exact reference is read back exactly *)
Lemma resolve_exact norm l d q : consistent norm l -> dep_ok norm (lk_version l) d -> In q (lk_packages l) -> d = dep_of_package q ->
  dep_resolve (map (loaded_enc l) (lk_packages l)) (enc_reread (dep_v2 (lk_packages l) (enc_of_dep (lk_version l) d))) = Ok (stored_dep d).
Proof.
  intros Co Hd Hq Dq.
  assert (Hn : d_name d = p_name q) by (rewrite Dq; reflexivity). assert (Hv : d_version d = p_version q) by (rewrite Dq; reflexivity).
  assert (Found : forall vo, (vo = None /\ List.length (filter (fun p => String.eqb (p_name p) (d_name d)) (lk_packages l)) = 1%nat) \/
            (vo = Some (d_version d) /\
             (List.length (filter (fun p => version_eqb (p_version p) (d_version d)) (filter (fun p => String.eqb (p_name p) (d_name d)) (lk_packages l))) = 1%nat
              \/ stored_source (d_source d) = None)) ->
     dep_resolve (map (loaded_enc l) (lk_packages l)) (mkED (d_name d) vo None) = Ok (stored_dep d)).
  { intros vo H.
    unfold dep_resolve. cbn [ed_name ed_version ed_source]. rewrite find_map. cbn [loaded_enc ep_name ep_version].
    assert (find (fun x => String.eqb (p_name x) (d_name d) && opt_version_eqb vo (p_version x) && true) (lk_packages l) = Some q) as ->.
    { destruct H as [[-> L]|[-> [L|L]]].
      - rewrite (find_ext _ (fun p => String.eqb (p_name p) (d_name d))) by (intros; cbn [opt_version_eqb]; rewrite !andb_true_r; reflexivity).
        apply unique_find; [exact L|exact Hq|]. apply String.eqb_eq. congruence.
      - rewrite filter_filter in L.
        rewrite (find_ext _ (fun p => String.eqb (p_name p) (d_name d) && version_eqb (p_version p) (d_version d))).
        + apply unique_find; [exact L|exact Hq|]. rewrite <- Hn, <- Hv, String.eqb_refl. destruct (version_eqb_spec (d_version d) (d_version d)); [reflexivity|congruence].
        + intros x. cbn [opt_version_eqb]. rewrite andb_true_r. f_equal.
          destruct (version_eqb_spec (d_version d) (p_version x)), (version_eqb_spec (p_version x) (d_version d)); congruence.
      - destruct (find _ _) as [q'|] eqn:F.
        + apply find_some in F as [F1 F2]. apply andb_prop in F2 as [F2 _]. apply andb_prop in F2 as [F2 F3].
          apply String.eqb_eq in F2. cbn in F3. destruct (version_eqb_spec (d_version d) (p_version q')); [|discriminate].
          apply In_nth_error in F1 as [i Hi]. apply In_nth_error in Hq as [j Hj].
          pose proof (co_unique norm l Co j i q q' Hj Hi) as U.
          assert (stored_source (p_source q) = None) as K by (rewrite Dq in L; exact L).
          rewrite <- U in Hi by (try congruence). congruence.
        + exfalso. pose proof (find_none _ _ F q Hq) as K. cbv beta in K. rewrite <- Hn, <- Hv, String.eqb_refl in K.
          cbn in K. destruct (version_eqb_spec (d_version d) (d_version d)); [discriminate|congruence]. }
    cbn [option_map loaded_enc ep_name ep_version ep_source]. unfold stored_dep. rewrite Dq. cbn [dep_of_package d_name d_version d_source].
    do 2 f_equal. destruct (stored_source (p_source q)); reflexivity. }
  assert (Full : dep_resolve (map (loaded_enc l) (lk_packages l)) (enc_reread (enc_of_dep (lk_version l) d)) = Ok (stored_dep d)).
  { rewrite (enc_reread_of norm) by exact Hd. destruct (stored_source (d_source d)) as [s|] eqn:E.
    - unfold dep_resolve. cbn [ed_name ed_version ed_source es_of option_map].
      rewrite find_false by (intros; apply andb_false_r). unfold stored_dep. rewrite E. reflexivity.
    - apply Found. right. auto. }
  unfold dep_v2. cbn [enc_of_dep ed_name ed_version].
  destruct (Nat.eqb_spec (List.length (filter (fun p => String.eqb (p_name p) (d_name d)) (lk_packages l))) 1) as [L|L].
  - unfold enc_reread. cbn. apply Found. left. auto.
  - destruct (Nat.eqb_spec (List.length (filter (fun p => version_eqb (p_version p) (d_version d)) (filter (fun p => String.eqb (p_name p) (d_name d)) (lk_packages l)))) 1) as [M|M].
    + unfold enc_reread. cbn. apply Found. right. auto.
    + exact Full.
Qed.

Lemma omap_pkgs norm l : norm_laws norm -> consistent norm l -> all_settled l -> no_paths l -> exact_references l ->
  forall l', load norm (save l) = Ok l' -> lk_packages l' = map written_package (lk_packages l) /\ lk_patch l' = lk_patch l.
Proof.
  intros L Co [Se1 Se2] [Np1 Np2] Ex l' E.
  destruct (C30_lockfile_roundtrip norm l L Co) as (l2 & E2 & Ev & Fp & Ep & _). rewrite E in E2. injection E2 as <-.
  split.
  2:{ rewrite Ep. rewrite <- (map_id (lk_patch l)) at 2. apply map_ext_in. intros d Hd. unfold stored_dep.
      rewrite stored_settled by auto. destruct d; reflexivity. }
  pose proof (co_packages norm l Co) as F. rewrite Forall_forall in F.
  (* dependencies, from the loading of the encoded packages *)
  assert (Dep : Forall2 (fun p p' => p_deps p' = map stored_dep (p_deps p)) (lk_packages l) (lk_packages l')).
  { clear Fp Ep Ev. unfold load, save in E. cbn [rl_version rl_packages rl_root rl_metadata rl_patch] in E.
    rewrite (omap_map _ _ (loaded_enc l)) in E by (intros p Hp; apply load_package; auto).
    cbn [obind opt_outcome] in E.
    destruct (omap (patch_of_raw norm) _) as [pa| |]; try discriminate. cbn [obind] in E.
    set (meta := fold_left (encode_meta_step l) (lk_packages l) (lk_metadata l)) in E.
    assert (match (if is_explicit (lk_version l) then Some (resolve_version_num (lk_version l)) else None) with
      | Some n => resolve_version_of n | None => detect_version (map (loaded_enc l) (lk_packages l)) meta end = Ok (lk_version l)) as V.
    { destruct (C30_lockfile_roundtrip norm l L Co) as (l3 & E3 & Ev & _). revert E3. unfold load, save.
      cbn [rl_version rl_packages rl_root rl_metadata rl_patch].
      rewrite (omap_map _ _ (loaded_enc l)) by (intros p Hp; apply load_package; auto). cbn [obind opt_outcome].
      destruct (omap (patch_of_raw norm) _); try discriminate. cbn [obind]. fold meta.
      destruct (match _ with Some n => resolve_version_of n | None => _ end) as [v| |]; try discriminate. cbn [obind].
      destruct (omap _ _) as [z| |]; try discriminate. cbn [obind]. intros H; injection H as <-. cbn in Ev. congruence. }
    rewrite V in E. cbn [obind] in E.
    destruct (omap _ (map (loaded_enc l) (lk_packages l))) as [ps| |] eqn:E2 in E; try discriminate. cbn [obind] in E. injection E as <-. cbn [lk_packages].
    assert (K : forall p, In p (lk_packages l) -> exists q,
       (fun p => if is_v1 (lk_version l) then let? q := pkg_resolve [] p in Ok (with_checksum q (find_checksum norm meta q))
            else pkg_resolve (map (loaded_enc l) (lk_packages l)) p) (loaded_enc l p) = Ok q /\ p_deps q = map stored_dep (p_deps p)).
    { intros p Hp. destruct (F p Hp) as (_ & _ & _ & _ & D & _). rewrite Forall_forall in D. cbv beta.
      assert (G : forall pkgs, (is_v1 (lk_version l) = true /\ pkgs = [] \/ is_v1 (lk_version l) = false /\ pkgs = map (loaded_enc l) (lk_packages l)) ->
        omap (dep_resolve pkgs) (ep_deps (loaded_enc l p)) = Ok (map stored_dep (p_deps p))).
      { intros pkgs K. cbn [loaded_enc ep_deps]. apply omap_map. intros d Hd. destruct K as [[V1 ->]|[V1 ->]]; rewrite V1.
        - rewrite (enc_reread_of norm) by (apply D; exact Hd). rewrite resolve_nil. reflexivity.
        - destruct (Ex p d Hp Hd) as (q & Hq & A & B & C). apply (resolve_exact norm l d q Co (D d Hd) Hq).
          destruct d. unfold dep_of_package. cbn in *. congruence. }
      destruct (is_v1 (lk_version l)) eqn:V1.
      - destruct (resolve_package norm l p [] Co Hp) as (ds & _ & Er); [left; auto|]. rewrite Er. cbn [obind].
        eexists. split; [reflexivity|]. cbn [with_checksum p_deps].
        pose proof (pkg_resolve_fields _ _ _ Er) as (_ & _ & _ & X). rewrite G in X by auto. cbn [p_deps] in X |- *. congruence.
      - destruct (resolve_package norm l p (map (loaded_enc l) (lk_packages l)) Co Hp) as (ds & _ & Er); [right; auto|]. rewrite Er.
        eexists. split; [reflexivity|].
        pose proof (pkg_resolve_fields _ _ _ Er) as (_ & _ & _ & X). rewrite G in X by auto. cbn [p_deps] in X |- *. congruence. }
    destruct (omap_forall2 (fun p q => p_deps q = map stored_dep (p_deps p)) _ (loaded_enc l) _ K) as (ps2 & E3 & F3).
    rewrite E3 in E2. injection E2 as <-. exact F3. }
  assert (G : forall ps ps', Forall2 same_package ps ps' -> Forall2 (fun p p' => p_deps p' = map stored_dep (p_deps p)) ps ps' ->
     (forall p, In p ps -> In p (lk_packages l)) -> ps' = map written_package ps).
  { intros ps ps' H. induction H as [|p p' ps ps' S H IH]; intros D Hin; [reflexivity|]. inversion D as [|? ? ? ? D1 D2]; subst.
    cbn [map]. f_equal; [|apply IH; [exact D2|intros; apply Hin; right; assumption]].
    destruct S as (S1 & S2 & S3 & S4 & _ & S6). assert (In p (lk_packages l)) as Hp by (apply Hin; left; reflexivity).
    destruct (Se1 p Hp) as (A1 & A2 & A3). destruct (Np1 p Hp) as (B1 & B2 & B3).
    assert (map stored_dep (p_deps p) = p_deps p) as X.
    { rewrite <- (map_id (p_deps p)) at 2. apply map_ext_in. intros d Hd. unfold stored_dep. rewrite stored_settled by auto. destruct d; reflexivity. }
    assert (option_map stored_dep (p_replace p) = p_replace p) as Y.
    { destruct (p_replace p) as [d|]; [|reflexivity]. cbn. unfold stored_dep. rewrite stored_settled by auto. destruct d; reflexivity. }
    rewrite stored_settled in S3 by auto. rewrite X in D1. rewrite Y in S6.
    unfold written_package. destruct p'. cbn in *. congruence. }
  apply G; auto.
Qed.

(** ** Metadata *)
Lemma load_meta norm r l : load norm r = Ok l -> lk_metadata l = rl_metadata r.
Proof.
  unfold load. destruct (omap (enc_package_of_raw norm) (rl_packages r)); try discriminate. cbn [obind].
  destruct (opt_outcome (enc_package_of_raw norm) (rl_root r)); try discriminate. cbn [obind].
  destruct (omap (patch_of_raw norm) (rl_patch r)); try discriminate. cbn [obind].
  destruct (match rl_version r with Some _ => _ | None => _ end); try discriminate. cbn [obind].
  destruct (omap _ _); try discriminate. cbn [obind].
  destruct (opt_outcome (pkg_resolve []) _); try discriminate. cbn [obind]. intros H; injection H as <-. reflexivity.
Qed.
Lemma sorted_unique a : forall b, sorted_keys a -> sorted_keys b -> (forall kv, In kv a <-> In kv b) -> a = b.
Proof.
  induction a as [|[k v] a IH]; intros b Sa Sb E.
  - destruct b as [|x b]; [reflexivity|]. destruct (proj2 (E x) (or_introl eq_refl)).
  - destruct Sa as [Fa Sa]. destruct b as [|[k' v'] b]; [destruct (proj1 (E (k, v)) (or_introl eq_refl))|]. destruct Sb as [Fb Sb].
    rewrite Forall_forall in Fa, Fb.
    assert (K : (k, v) = (k', v')).
    { destruct (proj1 (E (k, v)) (or_introl eq_refl)) as [H|H]; [congruence|].
      destruct (proj2 (E (k', v')) (or_introl eq_refl)) as [H'|H']; [congruence|].
      specialize (Fa _ H'). specialize (Fb _ H). cbn in Fa, Fb. exfalso. apply (str_lt_irrefl k).
      apply (cmp_trans_lt _ str_cmp_laws k k' k); assumption. }
    injection K as <- <-. f_equal. apply IH; auto. intros [x y]. specialize (E (x, y)). cbn in E. split; intros H.
    + destruct (proj1 E (or_intror H)) as [X|X]; [|exact X]. injection X as <- <-. specialize (Fa _ H). exfalso. apply (str_lt_irrefl _ Fa).
    + destruct (proj2 E (or_intror H)) as [X|X]; [|exact X]. injection X as <- <-. specialize (Fb _ H). exfalso. apply (str_lt_irrefl _ Fb).
Qed.
Lemma sorted_filter f m : sorted_keys m -> sorted_keys (filter f m).
Proof.
  induction m as [|[k v] m IH]; intros S; [exact I|]. destruct S as [F S]. cbn [filter]. destruct (f (k, v)); [|auto].
  split; [|auto]. rewrite Forall_forall in *. intros x Hx. apply filter_In in Hx as [Hx _]. auto.
Qed.
(** The metadata written in format [v] for packages [ps] and metadata [m]. *)
Definition meta_out (v : resolve_version) (ps : list package) (m : list (string * string)) : list (string * string) :=
  fold_left (encode_meta_step (mkLock v [] None [] [])) ps m.
Lemma step_version l l2 m p : lk_version l = lk_version l2 -> encode_meta_step l m p = encode_meta_step l2 m p.
Proof. unfold encode_meta_step. intros ->. reflexivity. Qed.
Lemma fold_version l v ps : lk_version l = v -> forall m, fold_left (encode_meta_step l) ps m = meta_out v ps m.
Proof.
  intros E. unfold meta_out. induction ps as [|p ps IH]; intros m; [reflexivity|]. cbn [fold_left].
  rewrite (step_version l (mkLock v [] None [] [])) by exact E. apply IH.
Qed.
Lemma meta_out_written v ps : forall m, meta_out v (map written_package ps) m = meta_out v ps m.
Proof. unfold meta_out. induction ps as [|p ps IH]; intros m; [reflexivity|]. cbn [map fold_left]. rewrite IH. reflexivity. Qed.
Definition one_checksum (ps : list package) : Prop :=
  forall p q, In p ps -> In q ps -> checksum_key p = checksum_key q -> p_checksum p = p_checksum q.
Lemma meta_out_sorted v ps m : (v = V1 -> one_checksum ps) -> sorted_keys m -> sorted_keys (meta_out v ps m).
Proof.
  intros K S. destruct (is_v1 v) eqn:V.
  - unfold meta_out. apply meta_fold_v1; [exact V|apply K; destruct v; (reflexivity||discriminate)|exact S].
  - unfold meta_out. rewrite meta_fold_v2 by exact V. apply sorted_filter. exact S.
Qed.
Lemma meta_out_in v ps m k x : (v = V1 -> one_checksum ps) -> sorted_keys m ->
  In (k, x) (meta_out v ps m) <->
    (v = V1 /\ exists p c, In p ps /\ p_checksum p = Some c /\ k = checksum_key p /\ x = checksum_string c) \/
    (In (k, x) m /\ forall p, In p ps -> (v = V1 -> p_checksum p <> None) -> k <> checksum_key p).
Proof.
  intros K S. destruct (is_v1 v) eqn:V.
  - assert (v = V1) as -> by (destruct v; (reflexivity||discriminate)).
    unfold meta_out. rewrite (proj2 (meta_fold_v1 (mkLock V1 [] None [] []) ps eq_refl (K eq_refl) m S)). split.
    + intros [H|[H A]]; [left; auto|right]. split; [exact H|]. intros p Hp N. apply A; auto.
    + intros [[_ H]|[H A]]; [left; exact H|right]. split; [exact H|]. intros p Hp N. apply A; auto.
  - unfold meta_out. rewrite meta_fold_v2 by exact V. rewrite filter_In. cbn [fst]. split.
    + intros [H N]. right. split; [exact H|]. intros p Hp _ ->. apply negb_true_iff in N.
      assert (existsb (fun q => String.eqb (checksum_key p) (checksum_key q)) ps = true); [|congruence].
      apply existsb_exists. exists p. split; [exact Hp|apply String.eqb_refl].
    + intros [[-> _]|[H A]]; [discriminate|]. split; [exact H|]. apply negb_true_iff. apply not_true_is_false. intros X.
      apply existsb_exists in X as (p & Hp & X). apply String.eqb_eq in X. apply (A p Hp); [|exact X]. intros ->. discriminate.
Qed.
Lemma meta_route v w ps m : sorted_keys m -> (v = V1 \/ w = V1 -> one_checksum ps) ->
  (w = V1 -> forall p x, In p ps -> p_checksum p = None -> ~ In (checksum_key p, x) m) ->
  meta_out w ps (meta_out v ps m) = meta_out w ps m.
Proof.
  intros S K N. assert (Kv : v = V1 -> one_checksum ps) by auto. assert (Kw : w = V1 -> one_checksum ps) by auto.
  pose proof (meta_out_sorted v ps m Kv S) as Sv.
  apply sorted_unique; try (apply meta_out_sorted; assumption).
  intros [k x]. rewrite !(meta_out_in w) by assumption. rewrite (meta_out_in v) by assumption. split.
  - intros [H|[[[-> (p & c & Hp & Hc & -> & ->)]|[H A]] B]]; [left; exact H| |right; auto].
    exfalso. apply (B p Hp); [congruence|reflexivity].
  - intros [H|[H A]]; [left; exact H|right]. split; [|exact A]. right. split; [exact H|].
    intros p Hp Hn ->. destruct (is_v1 w) eqn:W.
    + assert (w = V1) as -> by (destruct w; (reflexivity||discriminate)).
      destruct (p_checksum p) as [c|] eqn:Ec; [apply (A p Hp); [congruence|reflexivity]|]. apply (N eq_refl p x Hp Ec H).
    + apply (A p Hp); [|reflexivity]. intros ->. discriminate.
Qed.

(** ** One step *)
Lemma dep_v2_written ps d : dep_v2 (map written_package ps) d = dep_v2 ps d.
Proof.
  assert (M : forall (f : package -> bool), (forall p, f (written_package p) = f p) -> forall l, filter f (map written_package l) = map written_package (filter f l)).
  { intros f H l. induction l as [|a l IH]; [reflexivity|]. cbn [map filter]. rewrite H. destruct (f a); cbn [map]; rewrite IH; reflexivity. }
  unfold dep_v2. rewrite M by reflexivity. rewrite map_length.
  destruct (Nat.eqb _ 1); [reflexivity|]. destruct (ed_version d) as [v|]; [|reflexivity]. rewrite M by reflexivity. rewrite map_length. reflexivity.
Qed.
Lemma encode_written w l l' p : lk_packages l' = map written_package (lk_packages l) ->
  raw_of_enc (encode_package (in_format w l') (written_package p)) = raw_of_enc (encode_package (in_format w l) p).
Proof.
  intros E. unfold encode_package, in_format. cbn [lk_version lk_packages]. rewrite E.
  assert (D : map (dep_v2 (map written_package (lk_packages l))) (ep_deps (enc_of_package w (written_package p)))
            = map (dep_v2 (lk_packages l)) (ep_deps (enc_of_package w p))).
  { cbn [enc_of_package ep_deps written_package p_deps]. apply map_ext. intros d. apply dep_v2_written. }
  unfold raw_of_enc. destruct (is_v1 w); cbn [ep_name ep_version ep_source ep_checksum ep_deps ep_replace].
  - cbn [enc_of_package written_package ep_name ep_version ep_source ep_deps ep_replace p_name p_version p_source p_deps p_replace].
    destruct (p_deps p); reflexivity.
  - rewrite D. cbn [enc_of_package written_package ep_name ep_version ep_source ep_checksum ep_deps ep_replace p_name p_version p_source p_checksum p_deps p_replace].
    destruct (p_deps p); reflexivity.
Qed.
Lemma one_checksum_of norm l : norm_laws norm -> lk_version l = V1 -> consistent norm l -> one_checksum (lk_packages l).
Proof.
  intros L V Co p q Hp Hq E. pose proof (co_packages norm l Co) as F. rewrite Forall_forall in F.
  assert (lk_version l <> V4) as V4 by (rewrite V; discriminate).
  destruct (checksum_key_about norm _ p L V4 (F p Hp)) as [s1 E1].
  destruct (checksum_key_about norm _ q L V4 (F q Hq)) as [s2 E2]. rewrite E, E2 in E1. injection E1 as A B _.
  destruct (co_v1 norm l Co V) as (_ & Same & _). apply Same; congruence.
Qed.

(** What survives a translation, besides what it leaves out: all needed to translate again. *)
Record portable (norm : string -> option string) (formats : resolve_version -> Prop) (l : lockfile) : Prop := {
  po_ok : forall v, formats v -> consistent norm (in_format v l);
  po_paths : no_paths l;
  po_exact : exact_references l;
  po_settled : all_settled l;
  po_void : formats V1 -> no_void_entries l }.
Lemma portable_step norm formats l v l' : norm_laws norm -> portable norm formats l -> formats v ->
  load norm (save (in_format v l)) = Ok l' ->
  lk_version l' = v /\ lk_packages l' = map written_package (lk_packages l) /\ lk_patch l' = lk_patch l /\
  portable norm formats l' /\ (forall w, formats w -> save (in_format w l') = save (in_format w l)).
Proof.
  intros L [Ok Np Ex Se Vo] Hv E. pose proof (Ok v Hv) as Co.
  destruct (omap_pkgs norm (in_format v l) L Co Se Np Ex l' E) as [P Q]. cbn [in_format lk_packages lk_patch] in P, Q.
  destruct (C30_lockfile_roundtrip norm _ L Co) as (l2 & E2 & Ev & _). rewrite E in E2. injection E2 as <-. cbn in Ev.
  pose proof (load_meta _ _ _ E) as M. unfold save in M. cbn [rl_metadata] in M. rewrite (fold_version _ v) in M by reflexivity. cbn [in_format lk_packages lk_metadata] in M.
  assert (OC : formats V1 -> one_checksum (lk_packages l)).
  { intros H. apply (one_checksum_of norm (in_format V1 l) L eq_refl (Ok V1 H)). }
  assert (OCv : v = V1 -> one_checksum (lk_packages l)) by (intros ->; auto).
  pose proof (co_sorted norm _ Co) as So. cbn [in_format lk_metadata] in So.
  assert (In' : forall p', In p' (lk_packages l') -> exists p, In p (lk_packages l) /\ p' = written_package p).
  { intros p' H. rewrite P in H. apply in_map_iff in H as (p & <- & Hp). eauto. }
  split; [exact Ev|]. split; [exact P|]. split; [exact Q|]. split.
  - split.
    + (* consistent *)
      intros w Hw. pose proof (Ok w Hw) as Cw. destruct Cw as [C1 C2 C3 C4 C5 C6 C7].
      cbn [in_format lk_version lk_packages lk_patch lk_metadata] in C1, C2, C3, C4, C5, C6, C7.
      constructor; cbn [in_format lk_version lk_packages lk_patch lk_metadata].
      * rewrite P. rewrite Forall_forall in *. intros p' Hp'. apply in_map_iff in Hp' as (p & <- & Hp). destruct (C1 p Hp) as (A1 & A2 & A3 & A4 & A5 & A6).
        unfold package_ok. cbn [written_package p_name p_version p_source p_checksum p_deps p_replace]. split; [exact A1|]. split; [exact A2|]. split; [exact A3|]. split; [exact A4|].
        split; [exact A5|]. destruct (p_deps p); [exact A6|exact I].
      * rewrite Q. exact C2.
      * intros p' d Hp' Hd. destruct (In' p' Hp') as (p & Hp & ->). destruct (C3 p d Hp Hd) as (q & Hq & Nq).
        exists (written_package q). split; [rewrite P; apply in_map; exact Hq|exact Nq].
      * intros i j p' q' Hi Hj. rewrite P in Hi, Hj. rewrite nth_error_map in Hi, Hj.
        destruct (nth_error (lk_packages l) i) as [p|] eqn:Ei; [|discriminate Hi]. destruct (nth_error (lk_packages l) j) as [q|] eqn:Ej; [|discriminate Hj].
        cbn in Hi, Hj. injection Hi as <-. injection Hj as <-. cbn. intros. eapply C4; eauto.
      * rewrite M. apply meta_out_sorted; assumption.
      * intros Ew. subst w. destruct (C6 eq_refl) as ((p & Hp & Hc) & Same & Agree). split; [|split].
        -- exists (written_package p). split; [rewrite P; apply in_map; exact Hp|exact Hc].
        -- intros a b Ha Hb. destruct (In' a Ha) as (a' & Ha' & ->). destruct (In' b Hb) as (b' & Hb' & ->). cbn. intros. apply Same; assumption.
        -- intros k x a Hk Ha Ab. destruct (In' a Ha) as (a' & Ha' & ->). rewrite M in Hk. apply (meta_out_in v) in Hk; [|exact OCv|exact So].
           destruct Hk as [[-> (q & c & Hq & Hc2 & -> & ->)]|[Hk _]].
           ++ left. destruct Ab as (d & Ed & En & Evr). rewrite Forall_forall in C1.
              destruct (checksum_key_about norm V1 q L ltac:(discriminate) (C1 q Hq)) as [s2 E2]. rewrite E2 in Ed. injection Ed as <-. cbn in En, Evr.
              cbn [written_package p_checksum]. rewrite (Same a' q Ha' Hq) by congruence. rewrite Hc2. cbn.
              destruct (C1 q Hq) as (_ & _ & _ & Cq & _). rewrite Hc2 in Cq. apply (C33_checksum_roundtrip c Cq).
           ++ apply (Agree k x a' Hk Ha' Ab).
      * intros Ew k x Hk Ck. rewrite M in Hk. apply (meta_out_in v) in Hk; [|exact OCv|exact So].
        destruct Hk as [[-> (q & c & Hq & Hc2 & -> & ->)]|[Hk _]].
        -- exists (written_package q). split; [rewrite P; apply in_map; exact Hq|reflexivity].
        -- destruct (C7 Ew k x Hk Ck) as (q & Hq & ->). exists (written_package q). split; [rewrite P; apply in_map; exact Hq|reflexivity].
    + destruct Np as [N1 N2]. split.
      * intros p' Hp'. destruct (In' p' Hp') as (p & Hp & ->). destruct (N1 p Hp) as (A & B & C). cbn. split; [exact A|]. split; [exact B|].
        destruct (p_deps p); [exact C|exact I].
      * rewrite Q. exact N2.
    + intros p' d Hp' Hd. destruct (In' p' Hp') as (p & Hp & ->). destruct (Ex p d Hp Hd) as (q & Hq & X). exists (written_package q).
      split; [rewrite P; apply in_map; exact Hq|exact X].
    + eapply load_settled; [exact L|exact E].
    + intros HV p' x Hp' Hc Hk. destruct (In' p' Hp') as (p & Hp & ->). rewrite M in Hk. apply (meta_out_in v) in Hk; [|exact OCv|exact So].
      cbn in Hc. change (checksum_key (written_package p)) with (checksum_key p) in Hk.
      destruct Hk as [[-> (q & c & Hq & Hc2 & Hk & ->)]|[Hk _]].
      * assert (p_checksum p = p_checksum q) by (apply (OC HV); assumption). congruence.
      * apply (Vo HV p x Hp Hc Hk).
  - intros w Hw. unfold save. f_equal.
    + cbn [in_format lk_packages]. rewrite P, map_map. apply map_ext. intros p. apply encode_written. exact P.
    + rewrite !(fold_version _ w) by reflexivity. cbn [in_format lk_packages lk_metadata]. rewrite P, M, meta_out_written.
      apply meta_route; [exact So|intros [ ->| ->]; auto|]. intros -> p x Hp Hc. apply (Vo Hw p x Hp Hc).
    + cbn [in_format lk_patch]. rewrite Q. reflexivity.
Qed.

(** ** C74 *)
(** The format an option chooses: 3 unless one is named, by any decimal numeral. *)
Definition chosen (arg : option string) (v : resolve_version) : Prop :=
  match arg with None => v = V3 | Some s => u32_numeral s (resolve_version_num v) end.
Lemma resolve_version_of_iff n v : resolve_version_of n = Ok v <-> n = resolve_version_num v.
Proof.
  unfold resolve_version_of. split.
  - destruct (N.eqb_spec n 1) as [ ->|N1]; [intros H; injection H as <-; reflexivity|].
    destruct (N.eqb_spec n 2) as [ ->|N2]; [intros H; injection H as <-; reflexivity|].
    destruct (N.eqb_spec n 3) as [ ->|N3]; [intros H; injection H as <-; reflexivity|].
    destruct (N.eqb_spec n 4) as [ ->|N4]; [intros H; injection H as <-; reflexivity|discriminate].
  - intros ->. destruct v; reflexivity.
Qed.
(** The option is accepted exactly if it names one of the formats; then that format is written. *)
Theorem C74_format_option : forall arg l out, cmd_translate arg l = Ok out <-> exists v, chosen arg v /\ out = save (in_format v l).
Proof.
  intros arg l out. unfold cmd_translate, chosen, resolve_version_from_str, default_version. destruct arg as [s|]; cbn [obind].
  - destruct (parse_u32 s) as [n|] eqn:E.
    + pose proof (proj1 (parse_u32_iff s n) E) as U. destruct (resolve_version_of n) as [v| |] eqn:R; cbn [obind].
      * pose proof (proj1 (resolve_version_of_iff n v) R) as ->. split.
        -- intros H; injection H as <-. exists v. auto.
        -- intros (w & Hw & ->). apply parse_u32_iff in Hw. rewrite E in Hw. injection Hw as Hw.
           assert (v = w) as -> by (destruct v, w; (reflexivity||discriminate)). reflexivity.
      * split; [discriminate|]. intros (w & Hw & _). apply parse_u32_iff in Hw. rewrite E in Hw. injection Hw as ->.
        rewrite (proj2 (resolve_version_of_iff _ w) eq_refl) in R. discriminate.
      * split; [discriminate|]. intros (w & Hw & _). apply parse_u32_iff in Hw. rewrite E in Hw. injection Hw as ->.
        rewrite (proj2 (resolve_version_of_iff _ w) eq_refl) in R. discriminate.
    + split; [discriminate|]. intros (w & Hw & _). apply parse_u32_iff in Hw. congruence.
  - split; [intros H; injection H as <-; eauto|]. intros (w & -> & ->). reflexivity.
Qed.
Print Assumptions C74_format_option.
(** Any other text is an error, not a crash. *)
Theorem C74_translate_never_crashes : forall arg l, cmd_translate arg l <> Panic.
Proof.
  intros [s|] l; unfold cmd_translate, resolve_version_from_str; [|discriminate]. destruct (parse_u32 s) as [n|]; [|discriminate].
  unfold resolve_version_of. repeat (match goal with |- context [if ?b then _ else _] => destruct b end; [discriminate|]). discriminate.
Qed.
Print Assumptions C74_translate_never_crashes.

(** What the translated file contains. *)
Theorem C74_translation_keeps_the_packages : forall norm r l arg v, norm_laws norm -> load norm r = Ok l -> chosen arg v ->
  no_paths l -> exact_references l -> consistent norm (in_format v l) ->
  exists out l', cmd_translate arg l = Ok out /\ load norm out = Ok l' /\
    lk_version l' = v /\ lk_packages l' = map written_package (lk_packages l) /\ lk_patch l' = lk_patch l /\ lk_root l' = None /\
    (v <> V1 -> forall k x, In (k, x) (lk_metadata l') <->
       In (k, x) (lk_metadata l) /\ forall p, In p (lk_packages l) -> k <> checksum_key p).
Proof.
  intros norm r l arg v L E Ch Np Ex Co. exists (save (in_format v l)).
  destruct (C30_lockfile_roundtrip norm _ L Co) as (l' & E' & Ev & _ & _ & Er & M2 & _). exists l'.
  split; [apply C74_format_option; eauto|]. split; [exact E'|]. split; [exact Ev|].
  destruct (omap_pkgs norm (in_format v l) L Co (load_settled norm r l L E) Np Ex l' E') as [P Q].
  split; [exact P|]. split; [exact Q|]. split; [exact Er|]. intros V k x. rewrite (M2 V). cbn [in_format lk_packages lk_metadata].
  rewrite filter_In. cbn [fst]. split.
  - intros [H N]. split; [exact H|]. intros p Hp ->. apply negb_true_iff in N.
    assert (existsb (fun q => String.eqb (checksum_key p) (checksum_key q)) (lk_packages l) = true); [|congruence].
    apply existsb_exists. exists p. split; [exact Hp|apply String.eqb_refl].
  - intros [H A]. split; [exact H|]. apply negb_true_iff. apply not_true_is_false. intros X.
    apply existsb_exists in X as (p & Hp & X). apply String.eqb_eq in X. apply (A p Hp X).
Qed.
Print Assumptions C74_translation_keeps_the_packages.

(** Translating again and again, each time from the file just written. *)
Fixpoint translated (norm : string -> option string) (args : list (option string)) (l : lockfile) : outcome lockfile :=
  match args with
  | [] => Ok l
  | a :: rest => let? doc := cmd_translate a l in let? l' := load norm doc in translated norm rest l'
  end.
Theorem C74_route_does_not_matter : forall norm r l args last, norm_laws norm -> load norm r = Ok l ->
  no_paths l -> exact_references l ->
  (forall arg, In arg (args ++ [last])%list -> exists v, chosen arg v /\ consistent norm (in_format v l) /\ (v = V1 -> no_void_entries l)) ->
  exists l', translated norm args l = Ok l' /\ cmd_translate last l' = cmd_translate last l /\
    (args <> [] -> lk_packages l' = map written_package (lk_packages l)).
Proof.
  intros norm r l args last L E Np Ex H.
  set (formats := fun v => exists arg, In arg (args ++ [last])%list /\ chosen arg v).
  assert (Inj : forall arg v w, chosen arg v -> chosen arg w -> v = w).
  { intros [s|] v w; cbn; [|congruence]. rewrite <- !parse_u32_iff. intros A B. rewrite A in B. injection B as B. destruct v, w; (reflexivity||discriminate). }
  assert (Po : portable norm formats l).
  { constructor; auto.
    - intros v (arg & Ha & Hc). destruct (H arg Ha) as (w & Hw & Co & _). rewrite (Inj arg v w Hc Hw). exact Co.
    - eapply load_settled; eauto.
    - intros (arg & Ha & Hc). destruct (H arg Ha) as (w & Hw & _ & V). apply V. apply (Inj arg w V1 Hw Hc). }
  assert (Main : forall as_ l0, (forall a, In a as_ -> exists v, chosen a v /\ formats v) -> portable norm formats l0 ->
     exists l', translated norm as_ l0 = Ok l' /\ (forall w, formats w -> save (in_format w l') = save (in_format w l0)) /\
       (as_ <> [] -> lk_packages l' = map written_package (lk_packages l0))).
  { induction as_ as [|a as_ IH]; intros l0 Ha P0; [exists l0; split; [reflexivity|split; [reflexivity|congruence]]|].
    destruct (Ha a (or_introl eq_refl)) as (v & Hv & Fv). cbn [translated].
    rewrite (proj2 (C74_format_option a l0 (save (in_format v l0)))) by eauto. cbn [obind].
    destruct (C30_lockfile_roundtrip norm _ L (po_ok _ _ _ P0 v Fv)) as (l1 & E1 & _). rewrite E1. cbn [obind].
    destruct (portable_step norm formats l0 v l1 L P0 Fv E1) as (_ & Pk & _ & P1 & Sv).
    destruct (IH l1) as (l' & E' & S' & K'); [intros; apply Ha; right; assumption|exact P1|].
    exists l'. split; [exact E'|]. split; [intros w Fw; rewrite (S' w Fw); apply Sv; exact Fw|]. intros _.
    destruct as_ as [|b bs]; [cbn in E'; injection E' as <-; exact Pk|]. rewrite K' by discriminate. rewrite Pk, map_map. apply map_ext.
    intros p. unfold written_package. cbn. destruct (p_deps p); reflexivity. }
  destruct (Main args l) as (l' & E' & S' & K'); [|exact Po|].
  { intros a Ha. destruct (H a) as (v & Hv & _); [apply in_or_app; left; exact Ha|]. exists v. split; [exact Hv|].
    exists a. split; [apply in_or_app; left; exact Ha|exact Hv]. }
  exists l'. split; [exact E'|]. split; [|exact K'].
  destruct (H last) as (v & Hv & _); [apply in_or_app; right; left; reflexivity|].
  rewrite (proj2 (C74_format_option last l' (save (in_format v l')))) by eauto.
  rewrite (proj2 (C74_format_option last l (save (in_format v l)))) by eauto. f_equal. apply S'.
  exists last. split; [apply in_or_app; right; left; reflexivity|exact Hv].
Qed.
Print Assumptions C74_route_does_not_matter.

(** ** Example: the lockfile of C30 as it is read. *)
Definition rr_reg : source_id := reread ex_reg.
Definition rr_git : source_id := reread ex_git.
Definition rr_foo1 := mkPkg "foo" (ver 1 0 0) (Some rr_reg) (Some ex_digest) [] (Some (mkDep "foo" (ver 1 0 1) (Some rr_reg))).
Definition rr_foo2 := mkPkg "foo" (ver 2 0 0) (Some rr_reg) (Some (repeat 1 32)) [mkDep "bar" (ver 0 1 0) (Some rr_git)] None.
Definition rr_foo2g := mkPkg "foo" (ver 2 0 0) (Some rr_git) (Some (repeat 1 32)) [] None.
Definition rr_bar := mkPkg "bar" (ver 0 1 0) (Some rr_git) None [mkDep "foo" (ver 2 0 0) (Some rr_git); mkDep "foo" (ver 1 0 0) (Some rr_reg)] None.
Definition rr_app := mkPkg "app" (ver 0 1 0) None None
  [mkDep "bar" (ver 0 1 0) (Some rr_git); mkDep "foo" (ver 1 0 0) (Some rr_reg); mkDep "foo" (ver 2 0 0) (Some rr_reg)] None.
Definition rr_lock (m : list (string * string)) := mkLock V3 [rr_app; rr_bar; rr_foo1; rr_foo2; rr_foo2g] None m [mkDep "baz" (ver 3 0 0) (Some rr_reg)].
Definition rr_doc (m : list (string * string)) := save (rr_lock m).
Lemma rr_source_ok v s : In s [None; Some rr_reg; Some rr_git] -> source_ok ex_norm v s.
Proof.
  intros [<-|[<-|[<-|[]]]]; [exact I| |]; (split; [|intros _; split; first [reflexivity|exact I]]).
  - split; [reflexivity|]. exists CRATES_IO_INDEX, (mkUrl CRATES_IO_INDEX None None). split; reflexivity.
  - split; [reflexivity|split; reflexivity].
Qed.
Lemma rr_consistent : forall v, consistent ex_norm (in_format v (rr_lock [("note", "hello")])).
Proof.
  intros v. assert (S : forall s, In s [None; Some rr_reg; Some rr_git] -> source_ok ex_norm v s) by apply rr_source_ok.
  assert (S1 : forall s, In s [None; Some rr_reg; Some rr_git] -> source_ok ex_norm V1 s) by apply rr_source_ok.
  assert (Nm : forall n, In n ["foo"; "bar"; "app"; "baz"] -> name_ok n).
  { intros n [<-|[<-|[<-|[<-|[]]]]]; (split; [discriminate|reflexivity]). }
  assert (D : forall n w s, In n ["foo"; "bar"; "app"; "baz"] -> version_wf w = true -> In s [None; Some rr_reg; Some rr_git] -> dep_ok ex_norm v (mkDep n w s)).
  { intros. split; [auto|]. split; [assumption|]. auto. }
  constructor; cbn [in_format lk_version lk_packages lk_patch lk_metadata rr_lock].
  - assert (C1 : is_digest ex_digest) by (apply (ex_digest_ok 175); reflexivity).
    assert (C2 : is_digest (repeat 1 32)) by (apply (ex_digest_ok 1); reflexivity).
    assert (DD : forall n w s, In n ["foo"; "bar"; "app"; "baz"] -> version_wf w = true -> In s [None; Some rr_reg; Some rr_git] -> forall l, Forall (dep_ok ex_norm v) l -> Forall (dep_ok ex_norm v) (mkDep n w s :: l)).
    { intros. constructor; [apply D; assumption|assumption]. }
    constructor; [|constructor; [|constructor; [|constructor; [|constructor; [|constructor]]]]];
      (split; [apply Nm; cbn; tauto|]; split; [reflexivity|]; split; [apply S; cbn; tauto|]; split; [first [exact I|exact C1|exact C2]|]; split;
       [repeat (apply DD; [cbn; tauto|reflexivity|cbn; tauto|]); constructor|first [exact I|apply D; [cbn; tauto|reflexivity|cbn; tauto]]]).
  - constructor; [|constructor]. split; [apply Nm; cbn; tauto|]. split; [reflexivity|]. apply S1; cbn; tauto.
  - intros p d [<-|[<-|[<-|[<-|[<-|[]]]]]] Hd; cbn in Hd.
    + destruct Hd as [<-|[<-|[<-|[]]]]; [exists rr_bar|exists rr_foo1|exists rr_foo2]; (split; [cbn; tauto|split; [reflexivity|split; reflexivity]]).
    + destruct Hd as [<-|[<-|[]]]; [exists rr_foo2g|exists rr_foo1]; (split; [cbn; tauto|split; [reflexivity|split; reflexivity]]).
    + destruct Hd.
    + destruct Hd as [<-|[]]. exists rr_bar; (split; [cbn; tauto|split; [reflexivity|split; reflexivity]]).
    + destruct Hd.
  - intros i j p q Hi Hj En Ev Es.
    destruct i as [|[|[|[|[|i]]]]]; cbn in Hi; try (injection Hi as <-); try discriminate Es; try (destruct i; discriminate).
    destruct j as [|[|[|[|[|j]]]]]; cbn in Hj; try (injection Hj as <-); try discriminate En; try reflexivity; destruct j; discriminate.
  - cbn. auto.
  - intros _. split; [exists rr_foo1; split; [cbn; tauto|discriminate]|]. split.
    + intros p q [<-|[<-|[<-|[<-|[<-|[]]]]]] [<-|[<-|[<-|[<-|[<-|[]]]]]] En Ev; try reflexivity; try discriminate En; try discriminate Ev.
    + intros k w p [E|[]] _ (d & Ed & _). injection E as <- <-. discriminate Ed.
  - intros _ k w [E|[]] H. injection E as <- <-. discriminate H.
Qed.
Example C74_nonvacuous : let l := rr_lock [("note", "hello")] in
  load ex_norm (rr_doc [("note", "hello")]) = Ok l /\ no_paths l /\ exact_references l /\ no_void_entries l /\
  (forall v, consistent ex_norm (in_format v l)) /\
  chosen None V3 /\ chosen (Some "1") V1 /\ chosen (Some "04") V4 /\
  map rp_deps (rl_packages (rr_doc [])) =
    [["bar"; "foo 1.0.0"; "foo 2.0.0 (registry+https://github.com/rust-lang/crates.io-index)"];
     ["foo 2.0.0 (git+https://example.org/r.git?branch=main#80e71a30)"; "foo 1.0.0"]; []; ["bar"]; []].
Proof.
  cbv zeta. split; [vm_compute; reflexivity|]. split.
  { split.
    - intros p [<-|[<-|[<-|[<-|[<-|[]]]]]]; (split; [first [exact I|discriminate]|split; [|first [exact I|discriminate]]]); intros d Hd; cbn in Hd;
        repeat (destruct Hd as [<-|Hd]; [discriminate|]); destruct Hd.
    - intros d [<-|[]]. discriminate. }
  split.
  { intros p d [<-|[<-|[<-|[<-|[<-|[]]]]]] Hd; cbn in Hd.
    - destruct Hd as [<-|[<-|[<-|[]]]]; [exists rr_bar|exists rr_foo1|exists rr_foo2]; (split; [cbn; tauto|repeat split]).
    - destruct Hd as [<-|[<-|[]]]; [exists rr_foo2g|exists rr_foo1]; (split; [cbn; tauto|repeat split]).
    - destruct Hd.
    - destruct Hd as [<-|[]]. exists rr_bar; (split; [cbn; tauto|repeat split]).
    - destruct Hd. }
  split; [intros p x _ _ [H|[]]; discriminate H|]. split; [apply rr_consistent|].
  split; [reflexivity|]. split; [apply parse_u32_iff; reflexivity|]. split; [apply parse_u32_iff; reflexivity|]. vm_compute. reflexivity.
Qed.

(** What a detour can lose: an old file's ["<none>"] checksum entry (present after translating 1 to 1, absent after 1 to 3 to 1).
    What every translation loses: the legacy root package, which such files do not list among the packages. *)
Definition void_key : string := "checksum bar 0.1.0 (git+https://example.org/r.git?branch=main#80e71a30)".
Definition void_lock := rr_lock [(void_key, "<none>")].
Theorem C74_detours_and_roots_refuted :
  checksum_key rr_bar = void_key /\ p_checksum rr_bar = None /\
  (exists d1 d2 l2, cmd_translate (Some "1") void_lock = Ok d1 /\ In (void_key, "<none>") (rl_metadata d1) /\
     translated ex_norm [Some "3"] void_lock = Ok l2 /\ cmd_translate (Some "1") l2 = Ok d2 /\ ~ In (void_key, "<none>") (rl_metadata d2)) /\
  (exists l', translated ex_norm [None] (mkLock V1 [rr_foo1] (Some (mkPkg "app" (ver 0 1 0) None None [mkDep "foo" (ver 1 0 0) (Some rr_reg)] None)) [] []) = Ok l' /\
     lk_root l' = None /\ map p_name (lk_packages l') = ["foo"]).
Proof.
  split; [vm_compute; reflexivity|]. split; [reflexivity|]. split.
  - eexists. eexists. eexists. split; [vm_compute; reflexivity|]. split; [vm_compute; tauto|]. split; [vm_compute; reflexivity|].
    split; [vm_compute; reflexivity|]. vm_compute. intros H. repeat (destruct H as [H|H]; [discriminate H|]). exact H.
  - eexists. split; [vm_compute; reflexivity|]. split; reflexivity.
Qed.
Print Assumptions C74_detours_and_roots_refuted.
