From Coq Require Import List NArith Ascii String Bool Lia Arith.
From Verif Require Import Base SemverModel StrLib VerText PkgModel UrlModel UrlSpec UrlProofs SumModel LockModel LockSpec PropsSource.
Import ListNotations.
Local Open Scope string_scope.
Local Open Scope N_scope.
Local Infix "++" := String.append (right associativity, at level 60).

(** ** Words *)
Definition nonblank (a : ascii) : bool := negb (is_blank a).
Lemma visible_nonblank a : visible a = true -> nonblank a = true.
Proof. apply ascii_imp. reflexivity. Qed.
Lemma words_aux_app w r : str_forall nonblank w = true -> forall cur, words_aux cur (w ++ r) = words_aux (srev w ++ cur) r.
Proof.
  induction w as [|a w IH]; intros H cur; [reflexivity|]. cbn [str_forall] in H. apply andb_prop in H as [H1 H2].
  cbn [String.append words_aux]. unfold nonblank in H1. apply negb_true_iff in H1. rewrite H1, (IH H2), srev_cons, sapp_assoc. reflexivity.
Qed.
Lemma srev_nonempty w : w <> "" -> srev w <> "".
Proof. intros H E. apply H. rewrite <- (srev_involutive w), E. reflexivity. Qed.
Lemma words_last w : w <> "" -> str_forall nonblank w = true -> words w = [w].
Proof.
  intros Hn H. unfold words. rewrite <- (sapp_nil_r w) at 1. rewrite words_aux_app by exact H. cbn [words_aux].
  rewrite sapp_nil_r. destruct (String.eqb_spec (srev w) ""); [exfalso; eapply srev_nonempty; eauto|].
  rewrite srev_involutive. reflexivity.
Qed.
Lemma words_word w r : w <> "" -> str_forall nonblank w = true -> words (w ++ " " ++ r) = w :: words r.
Proof.
  intros Hn H. unfold words at 1. rewrite words_aux_app by exact H. cbn [String.append words_aux]. cbn [is_blank].
  change (is_blank " ") with true. cbv iota. rewrite sapp_nil_r.
  destruct (String.eqb_spec (srev w) ""); [exfalso; eapply srev_nonempty; eauto|].
  rewrite srev_involutive. reflexivity.
Qed.

Lemma substring_app_l u r : substring 0 (String.length u) (u ++ r) = u.
Proof. induction u as [|a u IH]; cbn; [destruct r; reflexivity|]. rewrite IH. reflexivity. Qed.
Lemma ends_with_app a s : ends_with a (s ++ a) = true.
Proof. unfold ends_with, strip_suffix. rewrite srev_sapp, strip_prefix_app. reflexivity. Qed.
Lemma parse_paren norm u : parse_paren_source norm ("(" ++ u ++ ")") = from_url norm u.
Proof.
  unfold parse_paren_source.
  assert (L : String.length ("(" ++ u ++ ")") = (2 + String.length u)%nat).
  { cbn [String.append String.length]. rewrite slength_app. cbn. lia. }
  rewrite L. change (Nat.ltb (2 + String.length u) 2) with false.
  assert (starts_with "(" ("(" ++ u ++ ")") = true) as -> by (apply starts_with_spec; eauto).
  assert (ends_with ")" ("(" ++ u ++ ")") = true) as ->.
  { change ("(" ++ u ++ ")") with (String "(" u ++ ")"). apply ends_with_app. }
  cbn [orb negb]. replace (2 + String.length u - 2)%nat with (String.length u) by lia.
  change ("(" ++ u ++ ")") with (String "(" (u ++ ")")). cbn [substring]. rewrite substring_app_l. reflexivity.
Qed.

(** ** Written sources are visible text *)
Lemma url_string_visible norm u : norm_laws norm -> normal_url norm u -> str_forall visible u = true.
Proof.
  intros L (s & p & E & ->). destruct (url_parse_shape norm s p L E) as (_ & H2 & _ & _ & H5 & H6 & _).
  rewrite url_string_assemble. apply assemble_forall; try reflexivity; auto.
  - destruct (u_query p); cbn in *; [|exact I]. eapply str_forall_imp; [|exact H5]. apply ascii_imp. reflexivity.
  - destruct (u_fragment p); cbn in *; [|exact I]. eapply str_forall_imp; [|exact H6]. apply plain_fragment_visible.
Qed.
Lemma as_url_visible norm e s : norm_laws norm -> writable norm s -> (e = false -> visible_ref s) ->
  str_forall visible (as_url e s) = true.
Proof.
  intros L [_ W] V. unfold as_url. unfold visible_ref in V. destruct (s_kind s) as [r| | | | |]; try contradiction.
  - destruct W as [B P].
    destruct (L _ _ B) as (_ & Hb & _).
    assert (Q : match pretty_ref e r with Some p => str_forall visible p = true | None => True end).
    { unfold pretty_ref. assert (K : forall v, (e = false -> str_forall visible v = true) -> str_forall visible (if e then byte_serialize v else v) = true).
      { intros v H. destruct e; [|auto]. eapply str_forall_imp; [|apply byte_serialize_chars]. apply ascii_imp. reflexivity. }
      destruct r; auto; rewrite str_forall_app, K by exact V; reflexivity. }
    rewrite !str_forall_app, Hb. cbn [str_forall]. destruct (pretty_ref e r); cbn [str_forall String.append]; [rewrite Q|];
      (destruct (s_precise s); cbn [str_forall String.append];
        [rewrite (str_forall_imp _ visible _ plain_fragment_visible P)|]); reflexivity.
  - rewrite str_forall_app, (url_string_visible norm (s_url s) L W). reflexivity.
  - rewrite str_forall_app, (url_string_visible norm (s_url s) L W). reflexivity.
  - rewrite str_forall_app, (url_string_visible norm (s_url s) L W). reflexivity.
Qed.

(** ** Dependencies as text *)
Definition enc_ok norm (d : enc_dep) : Prop :=
  name_ok (ed_name d) /\ match ed_version d with Some v => version_wf v = true | None => ed_source d = None end /\
  match ed_source d with
  | Some s => writable norm (es_inner s) /\ (es_encoded s = false -> unescaped_ok (es_inner s))
  | None => True end.
Definition enc_reread (d : enc_dep) : enc_dep :=
  mkED (ed_name d) (ed_version d) (option_map (fun s => mkES (reread (es_inner s)) false) (ed_source d)).
Lemma visible_all_nonblank s : str_forall visible s = true -> str_forall nonblank s = true.
Proof. apply str_forall_imp. apply visible_nonblank. Qed.
Lemma version_nonblank v : version_wf v = true -> str_forall nonblank (print_version v) = true.
Proof. intros H. eapply str_forall_imp; [|apply print_version_chars; exact H]. apply ascii_imp. reflexivity. Qed.
Lemma enc_dep_roundtrip norm d : norm_laws norm -> enc_ok norm d -> enc_dep_from_str norm (enc_dep_string d) = Ok (enc_reread d).
Proof.
  intros L ((Nn & Nv) & Hv & Hs). destruct d as [n v s]. unfold enc_dep_string, enc_reread. cbn [ed_name ed_version ed_source] in *.
  apply visible_all_nonblank in Nv. unfold enc_dep_from_str. destruct v as [v|].
  - destruct s as [[s e]|]; cbn [es_inner es_encoded option_map] in *.
    + destruct Hs as [W P].
      rewrite sapp_assoc. rewrite words_word by assumption.
      change (" (" ++ as_url e s ++ ")") with (" " ++ "(" ++ as_url e s ++ ")").
      rewrite words_word; [|apply print_version_nonempty|apply version_nonblank; exact Hv].
      rewrite words_last; [|discriminate|].
      2:{ cbn [String.append str_forall]. rewrite str_forall_app. cbn [str_forall].
          rewrite (visible_all_nonblank _ (as_url_visible norm e s L W (fun h => proj2 (P h)))). reflexivity. }
      rewrite parse_print_version by exact Hv. cbn [of_option obind]. rewrite parse_paren, source_roundtrip by (auto; intros h; apply P; exact h).
      reflexivity.
    + rewrite sapp_nil_r, words_word by assumption. rewrite words_last; [|apply print_version_nonempty|apply version_nonblank; exact Hv].
      rewrite parse_print_version by exact Hv. reflexivity.
  - rewrite Hv. cbn [option_map]. rewrite !sapp_nil_r, words_last by assumption. reflexivity.
Qed.

(** ** Lists *)
Lemma omap_forall2 {A B C} (R : A -> C -> Prop) (f : B -> outcome C) (g : A -> B) l :
  (forall x, In x l -> exists y, f (g x) = Ok y /\ R x y) -> exists l', omap f (map g l) = Ok l' /\ Forall2 R l l'.
Proof.
  induction l as [|a l IH]; intros H; [exists []; split; [reflexivity|constructor]|].
  destruct (H a) as (y & E & Ry); [left; reflexivity|]. destruct IH as (l' & E' & F); [intros; apply H; right; assumption|].
  exists (y :: l'). cbn [map omap]. rewrite E. cbn [obind]. rewrite E'. split; [reflexivity|]. constructor; assumption.
Qed.
Lemma omap_map {A B C} (f : B -> outcome C) (g : A -> B) (h : A -> C) l :
  (forall x, In x l -> f (g x) = Ok (h x)) -> omap f (map g l) = Ok (map h l).
Proof.
  induction l as [|a l IH]; intros H; [reflexivity|]. cbn [map omap]. rewrite H by (left; reflexivity). cbn [obind].
  rewrite IH by (intros; apply H; right; assumption). reflexivity.
Qed.
Lemma find_map {A B} (f : B -> bool) (g : A -> B) l : find f (map g l) = option_map g (find (fun x => f (g x)) l).
Proof. induction l as [|a l IH]; [reflexivity|]. cbn. destruct (f (g a)); [reflexivity|exact IH]. Qed.
Lemma find_ext {A} (f g : A -> bool) l : (forall x, f x = g x) -> find f l = find g l.
Proof. intros H. induction l as [|a l IH]; [reflexivity|]. cbn. rewrite H, IH. reflexivity. Qed.
Lemma unique_find {A} (f : A -> bool) l x : List.length (filter f l) = 1%nat -> In x l -> f x = true -> find f l = Some x.
Proof.
  induction l as [|a l IH]; intros L Hin Hf; [destruct Hin|]. cbn [filter find] in *. destruct (f a) eqn:E.
  - destruct Hin as [->|Hin]; [reflexivity|]. exfalso. cbn in L. injection L as L.
    assert (In x (filter f l)) as K by (apply filter_In; auto). destruct (filter f l); [destruct K|discriminate].
  - destruct Hin as [->|Hin]; [congruence|]. apply IH; assumption.
Qed.
Lemma filter_filter {A} (f g : A -> bool) l : filter g (filter f l) = filter (fun x => f x && g x) l.
Proof. induction l as [|a l IH]; [reflexivity|]. cbn. destruct (f a); cbn; [destruct (g a); rewrite IH; reflexivity|exact IH]. Qed.

(** ** Sources *)
Lemma same_source_stored a b : same_source a b -> same_source (stored_source a) (stored_source b).
Proof.
  destruct a as [a|], b as [b|]; cbn; intros H; try exact I; try contradiction.
  apply C35_equality_means in H as (U & N & [[[ [x Ka] [y Kb] ] P]|[K G]]).
  - rewrite Ka, Kb. cbn. apply C35_equality_means. unfold reread. cbn [s_url s_name s_kind s_precise]. rewrite Ka, Kb.
    repeat split; auto. left. split; [split; eexists; reflexivity|exact P].
  - rewrite <- K. destruct (s_kind a) eqn:Ka; cbn; try exact I;
      apply C35_equality_means; unfold reread, both_git; cbn [s_url s_name s_kind s_precise]; rewrite <- K, Ka;
      (split; [exact U|]; split; [reflexivity|]).
    + exfalso. apply G. split; [exists r; exact Ka|exists r; symmetry; exact K].
    + right. split; [reflexivity|]. intros [[? ?] _]; discriminate.
    + right. split; [reflexivity|]. intros [[? ?] _]; discriminate.
    + right. split; [reflexivity|]. intros [[? ?] _]; discriminate.
    + right. split; [reflexivity|]. intros [[? ?] _]; discriminate.
Qed.
Lemma same_source_refl a : same_source a a.
Proof. destruct a; cbn; [|exact I]. unfold source_eqb. rewrite source_cmp_refl. reflexivity. Qed.
Lemma same_stored_none a b : same_source a b -> stored_source a = None -> stored_source b = None.
Proof. intros H E. apply same_source_stored in H. rewrite E in H. destruct (stored_source b); [destruct H|reflexivity]. Qed.

(** ** Packages as text *)
Definition es_of (s : option source_id) : option enc_source := option_map (fun s => mkES s false) s.
Lemma enc_of_dep_ok norm v d : dep_ok norm v d -> enc_ok norm (enc_of_dep v d).
Proof.
  intros (N & W & S). unfold enc_ok, enc_of_dep. cbn [ed_name ed_version ed_source]. split; [exact N|]. split; [exact W|].
  destruct (d_source d) as [s|]; cbn; [|exact I]. unfold encodable_source. cbn in S.
  destruct (s_kind s); cbn [es_inner es_encoded]; try exact I;
    (split; [apply S|intros E; apply S; intros ->; discriminate E]).
Qed.
Lemma enc_reread_of norm v d : dep_ok norm v d ->
  enc_reread (enc_of_dep v d) = mkED (d_name d) (Some (d_version d)) (es_of (stored_source (d_source d))).
Proof.
  intros _. unfold enc_reread, enc_of_dep. cbn [ed_name ed_version ed_source]. f_equal.
  destruct (d_source d) as [s|]; cbn; [|reflexivity]. unfold encodable_source. destruct (s_kind s); reflexivity.
Qed.
Lemma dep_v2_ok norm ps d : enc_ok norm d -> enc_ok norm (dep_v2 ps d).
Proof.
  intros (N & V & S). unfold dep_v2. cbv zeta. destruct (Nat.eqb _ _); [split; [exact N|]; split; [reflexivity|exact I]|].
  destruct (ed_version d) as [v|] eqn:E; [|split; [exact N|]; rewrite E; split; assumption].
  destruct (Nat.eqb _ _); [|split; [exact N|]; rewrite E; split; assumption].
  split; [exact N|]. cbn. split; [exact V|exact I].
Qed.
Definition loaded_enc (l : lockfile) (p : package) : enc_package :=
  mkEP (p_name p) (p_version p) (es_of (stored_source (p_source p))) (if is_v1 (lk_version l) then None else p_checksum p)
    (map (fun d => enc_reread (if is_v1 (lk_version l) then enc_of_dep (lk_version l) d else dep_v2 (lk_packages l) (enc_of_dep (lk_version l) d))) (p_deps p))
    (match p_deps p with [] => option_map (fun d => enc_reread (enc_of_dep (lk_version l) d)) (p_replace p) | _ => None end).

Lemma loaded_source norm v s : norm_laws norm -> source_ok norm v s ->
  opt_outcome (from_url norm) (option_map (fun e => as_url (es_encoded e) (es_inner e)) (obind_opt s (encodable_source v))) = Ok (stored_source s).
Proof.
  intros L S. destruct s as [s|]; [|reflexivity]. cbn in *. unfold encodable_source.
  assert (K : opt_outcome (from_url norm) (Some (as_url (4 <=? resolve_version_num v) s)) = Ok (Some (reread s))).
  { cbn [opt_outcome]. rewrite source_roundtrip; [reflexivity|exact L|apply S|]. intros E. apply S. intros ->. discriminate E. }
  destruct (s_kind s); cbn [option_map es_encoded es_inner]; solve [exact K|reflexivity].
Qed.

Lemma load_package norm l p : norm_laws norm -> package_ok norm (lk_version l) p ->
  enc_package_of_raw norm (raw_of_enc (encode_package l p)) = Ok (loaded_enc l p).
Proof.
  intros L (N & W & S & C & D & R). unfold enc_package_of_raw, loaded_enc, raw_of_enc, encode_package.
  assert (E : forall b : bool, opt_outcome checksum_from_str (option_map checksum_string (if b then None else p_checksum p)) = Ok (if b then None else p_checksum p)).
  { intros []; [reflexivity|]. destruct (p_checksum p); [|reflexivity]. cbn.
    destruct (C33_checksum_roundtrip l0 C) as (-> & _). reflexivity. }
  assert (F : omap (enc_dep_from_str norm) (map enc_dep_string (map (fun d => if is_v1 (lk_version l) then enc_of_dep (lk_version l) d else dep_v2 (lk_packages l) (enc_of_dep (lk_version l) d)) (p_deps p)))
     = Ok (map (fun d => enc_reread (if is_v1 (lk_version l) then enc_of_dep (lk_version l) d else dep_v2 (lk_packages l) (enc_of_dep (lk_version l) d))) (p_deps p))).
  { rewrite map_map. apply omap_map. intros d Hd. rewrite Forall_forall in D. pose proof (enc_of_dep_ok _ _ _ (D d Hd)) as K.
    apply enc_dep_roundtrip; [exact L|]. destruct (is_v1 _); [exact K|apply dep_v2_ok; exact K]. }
  assert (G : opt_outcome (enc_dep_from_str norm) (match p_deps p with [] => option_map enc_dep_string (option_map (enc_of_dep (lk_version l)) (p_replace p)) | _ => None end)
     = Ok (match p_deps p with [] => option_map (fun d => enc_reread (enc_of_dep (lk_version l) d)) (p_replace p) | _ => None end)).
  { destruct (p_deps p); [|reflexivity]. destruct (p_replace p) as [d|]; [|reflexivity]. cbn [option_map opt_outcome].
    rewrite enc_dep_roundtrip; [reflexivity|exact L|apply enc_of_dep_ok; exact R]. }
  assert (G' : opt_outcome (enc_dep_from_str norm) (match map (enc_of_dep (lk_version l)) (p_deps p) with [] => option_map enc_dep_string (option_map (enc_of_dep (lk_version l)) (p_replace p)) | _ => None end)
     = Ok (match p_deps p with [] => option_map (fun d => enc_reread (enc_of_dep (lk_version l) d)) (p_replace p) | _ => None end)).
  { destruct (p_deps p); exact G. }
  assert (G'' : opt_outcome (enc_dep_from_str norm) (match map (dep_v2 (lk_packages l)) (map (enc_of_dep (lk_version l)) (p_deps p)) with [] => option_map enc_dep_string (option_map (enc_of_dep (lk_version l)) (p_replace p)) | _ => None end)
     = Ok (match p_deps p with [] => option_map (fun d => enc_reread (enc_of_dep (lk_version l) d)) (p_replace p) | _ => None end)).
  { destruct (p_deps p); exact G. }
  destruct (is_v1 (lk_version l)) eqn:V;
    cbn [rp_name rp_version rp_source rp_checksum rp_deps rp_replace ep_name ep_version ep_source ep_checksum ep_deps ep_replace enc_of_package];
    rewrite parse_print_version by exact W; cbn [of_option obind]; rewrite loaded_source by assumption; cbn [obind].
  - specialize (E true). cbn in E. cbn [option_map opt_outcome obind].
    change (fun d => enc_of_dep (lk_version l) d) with (enc_of_dep (lk_version l)) in F. rewrite F. cbn [obind]. rewrite G'. reflexivity.
  - specialize (E false). cbn iota in E. rewrite E. cbn [obind].
    rewrite <- (map_map (enc_of_dep (lk_version l)) (dep_v2 (lk_packages l))) in F. rewrite F. cbn [obind]. rewrite G''. reflexivity.
Qed.

(** ** Resolution *)
Lemma resolve_nil d v s : dep_resolve [] (mkED d (Some v) (es_of s)) = Ok (mkDep d v s).
Proof. unfold dep_resolve. cbn. destruct s; reflexivity. Qed.
Lemma find_false {A} (l : list A) (f : A -> bool) : (forall x, f x = false) -> find f l = None.
Proof. intros H. induction l as [|a l IH]; [reflexivity|]. cbn. rewrite H. exact IH. Qed.

Lemma resolve_dep norm l d : consistent norm l -> dep_ok norm (lk_version l) d ->
  (exists q, In q (lk_packages l) /\ names_package d q) ->
  (forall e, e = dep_v2 (lk_packages l) (enc_of_dep (lk_version l) d) \/ e = enc_of_dep (lk_version l) d ->
   exists d', dep_resolve (map (loaded_enc l) (lk_packages l)) (enc_reread e) = Ok d' /\ same_dep d d').
Proof.
  intros Co Hd (q & Hq & Hn & Hv & Hs).
  assert (Found : forall vo, (vo = None /\ List.length (filter (fun p => String.eqb (p_name p) (d_name d)) (lk_packages l)) = 1%nat) \/
            (vo = Some (d_version d) /\
             (List.length (filter (fun p => version_eqb (p_version p) (d_version d)) (filter (fun p => String.eqb (p_name p) (d_name d)) (lk_packages l))) = 1%nat
              \/ stored_source (d_source d) = None)) ->
     exists d', dep_resolve (map (loaded_enc l) (lk_packages l)) (mkED (d_name d) vo None) = Ok d' /\ same_dep d d').
  { intros vo H. exists (mkDep (p_name q) (p_version q) (stored_source (p_source q))).
    split; [|split; [symmetry; exact Hn|]; split; [symmetry; exact Hv|]; apply same_source_stored; exact Hs].
    unfold dep_resolve. cbn [ed_name ed_version ed_source]. rewrite find_map. cbn [loaded_enc ep_name ep_version].
    assert (find (fun x => String.eqb (p_name x) (d_name d) && opt_version_eqb vo (p_version x) && true) (lk_packages l) = Some q) as ->.
    { destruct H as [[-> L]|[-> [L|L]]].
      - rewrite (find_ext _ (fun p => String.eqb (p_name p) (d_name d))) by (intros; cbn [opt_version_eqb]; rewrite !andb_true_r; reflexivity).
        apply unique_find; [exact L|exact Hq|]. apply String.eqb_eq. congruence.
      - rewrite filter_filter in L.
        rewrite (find_ext _ (fun p => String.eqb (p_name p) (d_name d) && version_eqb (p_version p) (d_version d))).
        + apply unique_find; [exact L|exact Hq|]. rewrite <- Hn, <- Hv, String.eqb_refl. destruct (version_eqb_spec (d_version d) (d_version d)); [reflexivity|congruence].
        + intros x. cbn [opt_version_eqb]. rewrite andb_true_r. f_equal.
          destruct (version_eqb_spec (d_version d) (p_version x)), (version_eqb_spec (p_version x) (d_version d)); congruence.
      - destruct (find _ _) as [q'|] eqn:F.
        + apply find_some in F as [F1 F2]. apply andb_prop in F2 as [F2 _]. apply andb_prop in F2 as [F2 F3].
          apply String.eqb_eq in F2. cbn in F3. destruct (version_eqb_spec (d_version d) (p_version q')); [|discriminate].
          apply In_nth_error in F1 as [i Hi]. apply In_nth_error in Hq as [j Hj].
          pose proof (co_unique norm l Co j i q q' Hj Hi) as U.
          rewrite <- U in Hi by (try congruence; apply (same_stored_none (d_source d)); assumption). congruence.
        + exfalso. pose proof (find_none _ _ F q Hq) as K. cbv beta in K. rewrite <- Hn, <- Hv, String.eqb_refl in K.
          cbn in K. destruct (version_eqb_spec (d_version d) (d_version d)); [discriminate|congruence]. }
    cbn [option_map loaded_enc ep_name ep_version ep_source]. do 2 f_equal. destruct (stored_source (p_source q)); reflexivity. }
  assert (Full : exists d', dep_resolve (map (loaded_enc l) (lk_packages l)) (enc_reread (enc_of_dep (lk_version l) d)) = Ok d' /\ same_dep d d').
  { rewrite (enc_reread_of norm) by exact Hd. destruct (stored_source (d_source d)) as [s|] eqn:E.
    - exists (mkDep (d_name d) (d_version d) (Some s)). split.
      + unfold dep_resolve. cbn [ed_name ed_version ed_source es_of option_map].
        rewrite find_false by (intros; apply andb_false_r). reflexivity.
      + split; [reflexivity|]. split; [reflexivity|]. rewrite E. apply same_source_refl.
    - apply Found. right. auto. }
  intros e [ ->| ->]; [|exact Full].
  unfold dep_v2. cbn [enc_of_dep ed_name ed_version].
  destruct (Nat.eqb_spec (List.length (filter (fun p => String.eqb (p_name p) (d_name d)) (lk_packages l))) 1) as [L|L].
  - unfold enc_reread. cbn. apply Found. left. auto.
  - destruct (Nat.eqb_spec (List.length (filter (fun p => version_eqb (p_version p) (d_version d)) (filter (fun p => String.eqb (p_name p) (d_name d)) (lk_packages l)))) 1) as [M|M].
    + unfold enc_reread. cbn. apply Found. right. auto.
    + exact Full.
Qed.

(** ** Metadata *)
Lemma str_lt_irrefl k : str_cmp k k <> Lt.
Proof. rewrite (cmp_refl _ str_cmp_laws). discriminate. Qed.
Lemma meta_insert_in k v m k' v' : sorted_keys m ->
  In (k', v') (meta_insert k v m) <-> (k' = k /\ v' = v) \/ (k' <> k /\ In (k', v') m).
Proof.
  induction m as [|[a b] m IH]; intros S.
  - cbn. split; [intros [E|[]]; injection E as <- <-; auto|intros [[-> ->]|[_ []]]; auto].
  - destruct S as [F S]. cbn [meta_insert]. destruct (str_cmp k a) eqn:E.
    + apply (cmp_eq _ str_cmp_laws) in E as ->. cbn [In]. split.
      * intros [H|H]; [injection H as <- <-; auto|]. right. rewrite Forall_forall in F. specialize (F _ H). cbn in F.
        split; [intros ->; eapply str_lt_irrefl; eauto|auto].
      * intros [[-> ->]|[N [H|H]]]; auto. injection H as <- <-. congruence.
    + cbn [In]. split.
      * intros [H|H]; [injection H as <- <-; auto|]. right. split; [|exact H]. intros ->.
        destruct H as [H|H]; [injection H as <- <-; eapply str_lt_irrefl; eauto|].
        rewrite Forall_forall in F. specialize (F _ H). cbn in F.
        apply (str_lt_irrefl k). apply (cmp_trans_lt _ str_cmp_laws k a k); assumption.
      * intros [[-> ->]|[_ H]]; auto.
    + cbn [In]. rewrite (IH S). split.
      * intros [H|[[-> ->]|[N H]]]; auto. injection H as <- <-. right. split; [|auto]. intros ->. rewrite (cmp_refl _ str_cmp_laws) in E. discriminate.
      * intros [[-> ->]|[N [H|H]]]; auto.
Qed.
Lemma meta_insert_sorted k v m : sorted_keys m -> sorted_keys (meta_insert k v m).
Proof.
  induction m as [|[a b] m IH]; intros S; [cbn; auto|]. destruct S as [F S]. cbn [meta_insert]. destruct (str_cmp k a) eqn:E.
  - split; assumption.
  - cbn. split; [|split; assumption]. constructor; [exact E|]. eapply Forall_impl; [|exact F]. intros [x y] H. cbn in *.
    apply (cmp_trans_lt _ str_cmp_laws k a x); assumption.
  - cbn. split; [|apply IH; exact S]. apply Forall_forall. intros [x y] H. apply meta_insert_in in H; [|exact S].
    rewrite Forall_forall in F. destruct H as [[-> ->]|[_ H]]; [|apply (F _ H)]. cbn.
    rewrite (cmp_antisym _ str_cmp_laws), E. reflexivity.
Qed.
Lemma meta_fold_v1 l ps : is_v1 (lk_version l) = true ->
  (forall p q, In p ps -> In q ps -> checksum_key p = checksum_key q -> p_checksum p = p_checksum q) ->
  forall m, sorted_keys m ->
  sorted_keys (fold_left (encode_meta_step l) ps m) /\
  forall k v, In (k, v) (fold_left (encode_meta_step l) ps m) <->
    (exists p c, In p ps /\ p_checksum p = Some c /\ k = checksum_key p /\ v = checksum_string c) \/
    (In (k, v) m /\ forall p, In p ps -> p_checksum p <> None -> k <> checksum_key p).
Proof.
  intros V. induction ps as [|p ps IH]; intros K m S.
  - cbn. split; [exact S|]. intros k v. split; [intros H; right; split; [exact H|intros ? []]|intros [(? & ? & [] & _)|[H _]]; exact H].
  - cbn [fold_left]. assert (S' : sorted_keys (encode_meta_step l m p)).
    { unfold encode_meta_step. rewrite V. destruct (p_checksum p); [apply meta_insert_sorted|]; exact S. }
    destruct (IH (fun a b Ha Hb => K a b (or_intror Ha) (or_intror Hb)) _ S') as [S2 IH2]. split; [exact S2|].
    intros k v. rewrite IH2. unfold encode_meta_step at 1. rewrite V. destruct (p_checksum p) as [c|] eqn:Ec.
    + rewrite meta_insert_in by exact S. split.
      * intros [(q & c' & Hq & Hc & -> & ->)|[[[-> ->]|[N H]] A]].
        -- left. exists q, c'. repeat split; auto. right. exact Hq.
        -- left. exists p, c. repeat split; auto. left. reflexivity.
        -- right. split; [exact H|]. intros q [<-|Hq] Hc; auto.
      * intros [(q & c' & [<-|Hq] & Hc & -> & ->)|[H A]].
        -- rewrite Ec in Hc. injection Hc as <-.
           destruct (existsb (fun q => String.eqb (checksum_key q) (checksum_key p)) ps) eqn:X.
           ++ apply existsb_exists in X as (q & Hq & X). apply String.eqb_eq in X. left. exists q, c.
              repeat split; auto. rewrite (K q p) by (try (right; assumption); try (left; reflexivity); exact X). exact Ec.
           ++ right. split; [left; auto|]. intros q Hq _ E.
              assert (existsb (fun q => String.eqb (checksum_key q) (checksum_key p)) ps = true); [|congruence].
              apply existsb_exists. exists q. split; [exact Hq|]. apply String.eqb_eq. congruence.
        -- left. exists q, c'. auto.
        -- right. split; [|intros q Hq; apply A; right; exact Hq]. right. split; [|exact H]. apply A; [left; reflexivity|congruence].
    + split.
      * intros [(q & c' & Hq & Hc & -> & ->)|[H A]].
        -- left. exists q, c'. repeat split; auto. right. exact Hq.
        -- right. split; [exact H|]. intros q [<-|Hq] Hc; [congruence|auto].
      * intros [(q & c' & [<-|Hq] & Hc & -> & ->)|[H A]]; [congruence|left; exists q, c'; auto|].
        right. split; [exact H|]. intros q Hq; apply A; right; exact Hq.
Qed.
Lemma meta_fold_v2 l ps : is_v1 (lk_version l) = false -> forall m,
  fold_left (encode_meta_step l) ps m = filter (fun kv => negb (existsb (fun p => String.eqb (fst kv) (checksum_key p)) ps)) m.
Proof.
  intros V. induction ps as [|p ps IH]; intros m.
  - cbn. induction m as [|a m IHm]; cbn; [reflexivity|]. rewrite <- IHm. reflexivity.
  - cbn [fold_left]. rewrite IH. unfold encode_meta_step. rewrite V. unfold meta_remove. rewrite filter_filter.
    apply filter_ext. intros kv. cbn [existsb]. rewrite negb_orb. reflexivity.
Qed.
(** The key of a package names that package. *)
Lemma checksum_key_about norm v p : norm_laws norm -> v <> V4 -> package_ok norm v p -> 
  exists s, checksum_dependency norm (checksum_key p) = Ok (mkDep (p_name p) (p_version p) s).
Proof.
  intros L V (N & W & S & _). unfold checksum_dependency, checksum_key. rewrite strip_prefix_app.
  set (d := mkED (p_name p) (Some (p_version p)) (option_map (fun s => mkES s false) (p_source p))).
  assert (dep_string (dep_of_package p) = enc_dep_string d) as ->.
  { unfold dep_string, enc_dep_string, dep_of_package, d. cbn [d_name d_version d_source ed_name ed_version ed_source].
    destruct (p_source p); cbn [option_map es_inner es_encoded]; rewrite ?sapp_assoc; reflexivity. }
  rewrite (enc_dep_roundtrip norm d L).
  - cbn [obind]. exists (option_map reread (p_source p)). unfold enc_reread, d. cbn [ed_name ed_version ed_source].
    destruct (p_source p); reflexivity.
  - unfold enc_ok, d. cbn [ed_name ed_version ed_source]. split; [exact N|]. split; [exact W|].
    destruct (p_source p) as [s|]; cbn in *; [|exact I]. split; [apply S|]. intros _. apply S. exact V.
Qed.
Lemma checksum_key_is p : is_checksum_key (checksum_key p) = true.
Proof. apply starts_with_spec. eexists. reflexivity. Qed.
Lemma find_checksum_spec norm m p X :
  (forall k v, In (k, v) m -> entry_about norm k p -> reads_as v X) ->
  (X <> None -> exists k v, In (k, v) m /\ entry_about norm k p) -> find_checksum norm m p = X.
Proof.
  induction m as [|[k v] m IH]; intros A B.
  - destruct X as [c|]; [|reflexivity]. destruct B as (? & ? & [] & _). discriminate.
  - cbn [find_checksum]. 
    assert (Skip : (forall d, checksum_dependency norm k = Ok d -> d_name d = p_name p -> d_version d = p_version p -> False) -> find_checksum norm m p = X).
    { intros H. apply IH; [intros; eapply A; [right|]; eauto|]. intros HX. destruct (B HX) as (k' & v' & [E|Hin] & Ab); [|eauto].
      injection E as <- <-. destruct Ab as (d & E1 & E2 & E3). exfalso. eauto. }
    destruct (checksum_dependency norm k) as [d| |] eqn:E; try (apply Skip; intros; discriminate).
    destruct (String.eqb_spec (d_name d) (p_name p)) as [E1|E1]; cbn [andb].
    + destruct (version_eqb_spec (d_version d) (p_version p)) as [E2|E2].
      * specialize (A k v (or_introl eq_refl)). assert (entry_about norm k p) as Ab by (exists d; auto). specialize (A Ab).
        destruct X as [c|]; cbn in A; [rewrite A; reflexivity|]. destruct (checksum_from_str v); [exfalso; eapply A; reflexivity|reflexivity|reflexivity].
      * apply Skip. intros d' [= <-]; congruence.
    + apply Skip. intros d' [= <-]; congruence.
Qed.
