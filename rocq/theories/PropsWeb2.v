(** Property theorems C77: the web site's search and feed. *)
From Coq Require Import List NArith ZArith Ascii String Bool Lia Permutation Sorted Arith.
From Verif Require Import Base StrLib SemverModel OsvModel IdModel PkgModel DbModel UrlModel AdvModel MtimeModel OsvAdvModel SortProofs PropsMtime
  PropsOsvAdv PropsOsvAdv2 WebModel WebSpec WebProofs Calendar PropsWeb.
From Verif Require PropsAudit2.
Import ListNotations.
Local Open Scope string_scope.

Lemma names_keys d : names d = search_keys d.
Proof. unfold names, search_keys. rewrite !map_app. reflexivity. Qed.
Lemma search_index_eq lower l : search_index lower l = push_all (flat_map (fun d => map (fun k => (lower k, s_id d)) (names d)) l) [].
Proof.
  unfold search_index. rewrite (nested (fun ids k d => group_push (lower k) (s_id d) ids)). unfold push_all.
  generalize (@nil (string * list string)). induction l as [|d l IH]; intros g; cbn [flat_map]; [reflexivity|]. rewrite !fold_left_app, IH. f_equal.
  clear. rewrite names_keys. revert g. induction (search_keys d) as [|k ks IH]; intros g; cbn [map fold_left fst snd]; [reflexivity|]. apply IH.
Qed.
Lemma found_vals lower t l : vals t (flat_map (fun d => map (fun k => (lower k, s_id d)) (names d)) l) = found lower t l.
Proof.
  unfold vals, found. rewrite filter_flat_map, map_flat_map. apply flat_map_ext. intros d.
  induction (names d) as [|q ks IH]; cbn [map filter count_occ fst]; [reflexivity|].
  destruct (string_dec (lower q) t) as [->|N]; [rewrite String.eqb_refl; cbn [map snd repeat]; f_equal; exact IH|].
  destruct (String.eqb_spec (lower q) t); [contradiction|exact IH].
Qed.
Lemma ids_get_gget k ids : ids_get k ids = gget k ids.
Proof. reflexivity. Qed.
Lemma search_index_get lower t l : ids_get t (search_index lower l) = match found lower t l with [] => None | is => Some is end.
Proof.
  rewrite ids_get_gget, search_index_eq, push_all_get, found_vals. unfold gget. cbn [find goget app]. destruct (found lower t l); reflexivity.
Qed.
Lemma search_packages_spec lower l : NoDup (search_packages lower l) /\ forall n, In n (search_packages lower l) <-> exists d, In d l /\ lower (s_package d) = n.
Proof.
  unfold search_packages. induction l as [|d l IH] using rev_ind.
  - split; [constructor|]. intros n. cbn. split; [intros []|intros (d & [] & _)].
  - rewrite fold_left_app. cbn [fold_left]. set (ps := fold_left _ l []) in *. destruct IH as [N S]. unfold set_push.
    assert (X : forall n, (exists e, In e (l ++ [d])%list /\ lower (s_package e) = n) <-> In n ps \/ lower (s_package d) = n).
    { intros n. rewrite S. split.
      - intros (e & I & E). apply in_app_or in I as [I|[<-|[]]]; [left; eauto|right; exact E].
      - intros [(e & I & E)|E]; [exists e|exists d]; rewrite in_app_iff; cbn; auto. }
    destruct (existsb (String.eqb (lower (s_package d))) ps) eqn:E.
    + split; [exact N|]. intros n. rewrite X. apply existsb_exists in E as (q & Q & E). apply String.eqb_eq in E. subst q. split; [auto|].
      intros [I|<-]; assumption.
    + assert (K : ~ In (lower (s_package d)) ps).
      { intros I. rewrite <- not_true_iff_false in E. apply E, existsb_exists. exists (lower (s_package d)). split; [exact I|apply String.eqb_refl]. }
      split; [apply nodup_snoc; assumption|]. intros n. rewrite X, in_app_iff. cbn. tauto.
Qed.
Lemma found_in lower t l i : In i (found lower t l) <-> exists d n, In d l /\ s_id d = i /\ In n (names d) /\ lower n = t.
Proof.
  unfold found. rewrite in_flat_map. split.
  - intros (d & I & R). pose proof (repeat_spec _ _ _ R) as ->. assert (K : In t (map lower (names d))).
    { apply (count_occ_In string_dec). destruct (count_occ string_dec _ t); [destruct R|lia]. }
    apply in_map_iff in K as (n & E & K). exists d, n. auto.
  - intros (d & n & I & <- & K & E). exists d. split; [exact I|]. assert (C : In t (map lower (names d))) by (rewrite <- E; apply in_map, K).
    apply (count_occ_In string_dec) in C. destruct (count_occ string_dec (map lower (names d)) t); [lia|left; reflexivity].
Qed.

Section Site.
  Context (x : externals) (lower escape : string -> string) (cal : Z -> Z * N * N) (day_of : string -> option Z) (today : Z)
    (mt : mod_times) (head : option tree).
  Notation render := (render_site x lower escape cal day_of today mt head).
  Notation data := (advisory_data x cal mt head).

  Lemma files_search ds l pg : files x lower escape cal day_of today mt head ds l "js/index.js" pg <-> pg = PgSearch (search_index lower l) (search_packages lower l).
  Proof.
    unfold files. split.
    - intros H. destruct H as [[I _]|[(d & _ & E & _)|[[E _]|[[E _]|[(k & es & _ & _ & E & _)|[(k & os & _ & _ & E & _)|[[E _]|[(k & es & _ & _ & E & _)|[[E _]|[(k & es & _ & _ & E & _)|[[_ ->]|[E _]]]]]]]]]]]];
        try discriminate E; [|reflexivity].
      unfold STATIC, ASSETS in I. cbn in I. repeat (destruct I as [I|I]; [discriminate I|]). destruct I.
    - intros ->. do 10 right. left. split; reflexivity.
  Qed.
  Lemma index_page db ws : render db = Ok ws -> exists ds, omap data db = Ok ds /\
    site_get ws "js/index.js" = Some (PgSearch (search_index lower (newest_first ds)) (search_packages lower (newest_first ds))).
  Proof.
    intros H. destruct (files_spec _ _ _ _ _ _ _ _ _ _ H) as (ds & D & S). exists ds. split; [exact D|]. apply get_unique.
    - apply S, files_search. reflexivity.
    - intros pg' I. apply S, files_search in I. exact I.
  Qed.
  Lemma package_iff db ds n : omap data db = Ok ds -> ((exists d, In d (newest_first ds) /\ lower (s_package d) = n) <-> exists a, In a db /\ lower (m_package (f_meta a)) = n).
  Proof. intros D. apply (among x cal mt head db ds (fun a => lower (m_package (f_meta a)) = n) D). Qed.

  (** *** The index: under every identifier in lower case, the advisories that mention it; and the packages, in lower case. *)
  Theorem C77_index db ws : render db = Ok ws -> exists ds l ids packages,
    omap data db = Ok ds /\ newest ds l /\ site_get ws "js/index.js" = Some (PgSearch ids packages) /\
    NoDup (map fst ids) /\ (forall k is, In (k, is) ids <-> is <> [] /\ is = found lower k l) /\
    NoDup packages /\ (forall n, In n packages <-> exists a, In a db /\ lower (m_package (f_meta a)) = n).
  Proof.
    intros H. destruct (index_page db ws H) as (ds & D & G). exists ds, (newest_first ds). do 2 eexists. split; [exact D|]. split; [apply newest_first_ok|]. split; [exact G|].
    rewrite search_index_eq. split; [apply push_all_nodup; constructor|]. split.
    - intros k is. rewrite push_all_in, found_vals. reflexivity.
    - destruct (search_packages_spec lower (newest_first ds)) as [N S]. split; [exact N|]. intros n. rewrite S. apply package_iff, D.
  Qed.
  Theorem C77_found t l i : In i (found lower t l) <-> exists d n, In d l /\ s_id d = i /\ In n (names d) /\ lower n = t.
  Proof. apply found_in. Qed.

  (** *** The search, exactly. *)
  Theorem C77_search trim db ws ids packages text : render db = Ok ws -> site_get ws "js/index.js" = Some (PgSearch ids packages) ->
    let t := lower (trim text) in
    exists ds l, omap data db = Ok ds /\ newest ds l /\
    search lower trim ids packages text =
      if existsb (fun a => String.eqb (lower (m_package (f_meta a))) t) db then OpenPage ("packages/" ++ t ++ ".html")
      else match found lower t l with
           | [i] => OpenPage ("advisories/" ++ i ++ ".html")
           | [] => if String.eqb t "constructor" then OpenPage "advisories/undefined.html"
                   else if String.eqb t "__proto__" then ScriptError else NoResults
           | is => ShowResults is
           end.
  Proof.
    intros H G t. destruct (index_page db ws H) as (ds & D & G'). rewrite G in G'. injection G' as -> ->. exists ds, (newest_first ds).
    split; [exact D|]. split; [apply newest_first_ok|]. unfold search. fold t. rewrite search_index_get.
    assert (E : existsb (String.eqb t) (search_packages lower (newest_first ds)) = existsb (fun a => String.eqb (lower (m_package (f_meta a))) t) db).
    { apply eq_iff_eq_true. rewrite !existsb_exists. destruct (search_packages_spec lower (newest_first ds)) as [_ S]. specialize (S t).
      rewrite (package_iff db ds t D) in S. split.
      - intros (q & I & E). apply String.eqb_eq in E. subst q. apply S in I as (a & I & E). exists a. rewrite E, String.eqb_refl. auto.
      - intros (a & I & E). apply String.eqb_eq in E. exists t. rewrite String.eqb_refl. split; [apply S; eauto|reflexivity]. }
    rewrite E. destruct (existsb _ db); [reflexivity|]. destruct (found lower t (newest_first ds)) as [|i [|j r]]; reflexivity.
  Qed.
  (** What the user gets: if no package has the name, an advisory that mentions the identifier is opened or listed, and the pages
      opened or listed are of advisories that mention it, and exist. *)
  Theorem C77_complete trim db ws ids packages text a n : render db = Ok ws -> site_get ws "js/index.js" = Some (PgSearch ids packages) ->
    (forall b, In b db -> lower (m_package (f_meta b)) <> lower (trim text)) ->
    In a db -> (n = m_id (f_meta a) \/ In n (m_aliases (f_meta a)) \/ In n (m_related (f_meta a))) -> lower (id_string n) = lower (trim text) ->
    let i := id_string (m_id (f_meta a)) in
    search lower trim ids packages text = OpenPage ("advisories/" ++ i ++ ".html") \/
    exists is, search lower trim ids packages text = ShowResults is /\ In i is.
  Proof.
    intros H G NP I M E i. destruct (C77_search trim db ws ids packages text H G) as (ds & l & D & L & S). rewrite S. clear S.
    assert (X : existsb (fun b => String.eqb (lower (m_package (f_meta b))) (lower (trim text))) db = false).
    { apply not_true_iff_false. rewrite existsb_exists. intros (b & B & Q). apply String.eqb_eq in Q. exact (NP b B Q). }
    rewrite X. assert (F : In i (found lower (lower (trim text)) l)).
    { apply found_in. assert (K : exists d, In d l /\ s_adv d = a).
      { pose proof (data_advs _ _ _ _ _ _ D) as DB. rewrite <- DB in I. apply in_map_iff in I as (d & Q & I). exists d. split; [|exact Q].
        destruct L as [P _]. exact (Permutation_in _ P I). }
      destruct K as (d & K & Q). exists d, (id_string n). split; [exact K|]. split; [unfold s_id; rewrite Q; reflexivity|]. split; [|exact E].
      unfold names. rewrite Q, !in_app_iff. destruct M as [->|[M|M]]; [right; right; left; reflexivity|left; apply in_map, M|right; left; apply in_map, M]. }
    destruct (found lower (lower (trim text)) l) as [|j [|k r]]; [destruct F|left; destruct F as [->|[]]; reflexivity|right; eauto].
  Qed.
  Theorem C77_sound trim db ws ids packages text i : render db = Ok ws -> site_get ws "js/index.js" = Some (PgSearch ids packages) ->
    (search lower trim ids packages text = OpenPage ("advisories/" ++ i ++ ".html") \/
     exists is, search lower trim ids packages text = ShowResults is /\ In i is) ->
    lower (trim text) <> "constructor" ->
    exists a n, In a db /\ i = id_string (m_id (f_meta a)) /\
      (n = m_id (f_meta a) \/ In n (m_aliases (f_meta a)) \/ In n (m_related (f_meta a))) /\ lower (id_string n) = lower (trim text) /\
      exists pg, site_get ws ("advisories/" ++ i ++ ".html") = Some pg.
  Proof.
    intros H G R NC. destruct (C77_search trim db ws ids packages text H G) as (ds & l & D & L & S). rewrite S in R. clear S.
    set (t := lower (trim text)) in *.
    assert (F : In i (found lower t l)).
    { destruct (existsb _ db); [destruct R as [R|(is & R & _)]; discriminate R|]. destruct (found lower t l) as [|j [|k r]].
      - rewrite (proj2 (String.eqb_neq _ _) NC) in R. destruct (String.eqb t "__proto__"); destruct R as [R|(is & R & _)]; discriminate R.
      - destruct R as [R|(is & R & _)]; [|discriminate R]. injection R as R. left. apply (path_eq "advisories" ".html"). cbn. rewrite R. reflexivity.
      - destruct R as [R|(is & R & I)]; [discriminate R|]. injection R as <-. exact I. }
    apply found_in in F as (d & n & I & E & M & N).
    assert (J : In (s_adv d) db).
    { rewrite <- (data_advs _ _ _ _ _ _ D). apply in_map. destruct L as [P _]. exact (Permutation_in _ (Permutation_sym P) I). }
    assert (Q : exists k, id_string k = n /\ (k = m_id (f_meta (s_adv d)) \/ In k (m_aliases (f_meta (s_adv d))) \/ In k (m_related (f_meta (s_adv d))))).
    { unfold names in M. rewrite !in_app_iff, !in_map_iff in M. destruct M as [(k & K & M)|[(k & K & M)|[M|[]]]]; eauto. }
    destruct Q as (k & K & M'). exists (s_adv d), k. split; [exact J|]. split; [symmetry; exact E|]. split; [exact M'|]. split; [rewrite K; exact N|].
    destruct (C76_listing _ _ _ _ _ _ _ _ db ws H) as (ds' & l' & es & D' & L' & [SH _] & GL). rewrite D in D'. injection D' as <-.
    rewrite (newest_unique _ _ _ L' L) in SH. apply (C76_no_dead_links _ _ _ _ _ _ _ _ db ws _ _ _ H GL). cbn [links]. apply in_or_app. right.
    rewrite <- SH, in_map_iff in I. destruct I as (e & Q & I). apply in_map_iff. exists e. split; [|exact I]. rewrite Q, E. reflexivity.
  Qed.
  (** The page the search opens for a package is there exactly if a package is so named in lower case. *)
  Theorem C77_package_page db ws t : render db = Ok ws -> t <> "index" ->
    ((exists pg, site_get ws ("packages/" ++ t ++ ".html") = Some pg) <-> exists a, In a db /\ m_package (f_meta a) = t).
  Proof.
    intros H NI. destruct (C76_package_pages _ _ _ _ _ _ _ _ db ws t H NI) as (ds & l & D & L & A & B). cbv zeta in A, B.
    assert (X : filter (fun d => String.eqb t (s_package d)) l <> [] <-> exists a, In a db /\ m_package (f_meta a) = t).
    { rewrite <- (data_advs _ _ _ _ _ _ D). destruct L as [P _]. split.
      - intros N. destruct (filter _ l) as [|d r] eqn:F; [congruence|]. assert (I : In d (filter (fun d => String.eqb t (s_package d)) l)) by (rewrite F; left; reflexivity).
        apply filter_In in I as [I E]. apply String.eqb_eq in E. exists (s_adv d). split; [apply in_map, (Permutation_in _ (Permutation_sym P)), I|symmetry; exact E].
      - intros (a & I & E) F. apply in_map_iff in I as (d & <- & I). apply (Permutation_in _ P) in I.
        assert (J : In d (filter (fun d => String.eqb t (s_package d)) l)) by (apply filter_In; split; [exact I|apply String.eqb_eq; symmetry; exact E]).
        rewrite F in J. destruct J. }
    rewrite <- X. split.
    - intros (pg & G) F. destruct (B F) as [C _]. congruence.
    - intros N. destruct (A N) as (es & os & G & _). eauto.
  Qed.
End Site.

(** ** The feed *)
(** An advisory was published less than eight days before the day of the build. *)
Definition recent (today : Z) (d : site_adv) : Prop := exists n, s_created d = day_text n /\ four_digit_year n /\ (today - 8 < n)%Z.
(** The entry of an advisory: its page, its title, the days it was published and last changed. *)
Definition entry_of (escape : string -> string) (d : site_adv) (e : feed_entry) : Prop :=
  fe_url e = "https://rustsec.org/advisories/" ++ s_id d ++ ".html" /\
  fe_title e = escape (title_type (s_adv d)) /\ fe_summary e = escape (m_title (f_meta (s_adv d))) /\
  fe_terms e = map category_name (m_categories (f_meta (s_adv d))) /\
  fe_published e = s_created d ++ "T12:00:00+00:00" /\ fe_updated e = s_modified d ++ "T12:00:00+00:00" /\
  friendly_date (s_created d) = Ok (fe_issued e).
Lemma feed_items escape l es : omap (feed_item escape) l = Ok es -> Forall2 (entry_of escape) l es.
Proof.
  revert es. induction l as [|d l IH]; intros es H; cbn [omap] in H; [injection H as <-; constructor|].
  destruct (feed_item escape d) as [e| |] eqn:E; cbn [obind] in H; try discriminate. destruct (omap (feed_item escape) l) as [r| |]; cbn [obind] in H; try discriminate.
  injection H as <-. constructor; [|apply IH; reflexivity]. unfold feed_item in E. destruct (advisory_page d); cbn [obind] in E; try discriminate.
  destruct (friendly_date (s_created d)) as [i| |] eqn:FD; cbn [obind] in E; try discriminate. injection E as <-. unfold entry_of. cbn [fe_url fe_title fe_summary fe_terms fe_published fe_updated fe_issued]. repeat apply conj; try reflexivity. assumption.
Qed.
Section Feed.
  Context (x : externals) (lower escape : string -> string) (day_of : string -> option Z) (today : Z) (mt : mod_times) (head : option tree).
  Notation render := (render_site x lower escape gregorian day_of today mt head).
  Notation data := (advisory_data x gregorian mt head).
  (** The parsers read the dates the program writes; the files were created in years of four digits. *)
  Context (reads : forall n, four_digit_year n -> day_of (day_text n) = Some n)
    (years : forall p t, lookup p (mt_ctimes mt) = Some t -> four_digit_year (local_day t)).
  Lemma created_day a d : data a = Ok d -> exists n, s_created d = day_text n /\ four_digit_year n.
  Proof.
    intros H. apply C76_data in H as (c & _ & _ & _ & _ & CD & _). unfold cdate_for_path in CD. destruct (lookup (s_path d) (mt_ctimes mt)) as [t|] eqn:L; [|discriminate].
    exists (local_day t). split; [|exact (years _ _ L)]. unfold time_to_date in CD. destruct (negb (valid_time t)); [discriminate|].
    rewrite time_day_text in CD. unfold date_from_str in CD. destruct (x_civil x (day_text (local_day t))) as [[[y m] dd]|]; [|discriminate].
    destruct (_ && _)%bool; [injection CD as <-; reflexivity|discriminate].
  Qed.
  Definition dated (d : site_adv) : Prop := exists n, s_created d = day_text n /\ four_digit_year n.
  Lemma day_text_inj a b : four_digit_year a -> four_digit_year b -> day_text a = day_text b -> a = b.
  Proof.
    intros A B E. pose proof (day_text_cmp a b A B) as C. rewrite E in C. rewrite (cmp_refl _ str_cmp_laws) in C. symmetry in C. apply Z.compare_eq in C. exact C.
  Qed.
  Lemma week l : Forall dated l -> StronglySorted (fun a b => str_cmp (s_created a) (s_created b) <> Lt) l ->
    exists k, last_week_len day_of today l = Ok k /\ (k <= List.length l)%nat /\ Forall (recent today) (firstn k l) /\ Forall (fun d => ~ recent today d) (skipn k l).
  Proof.
    induction l as [|d l IH]; intros D S; [exists O; repeat split; cbn; auto|].
    inversion D as [|? ? (n & E & Y) D']; subst. inversion S as [|? ? S' F]; subst. cbn [last_week_len]. rewrite E, (reads n Y).
    destruct (Z.ltb_spec (today - 8) n) as [L|L].
    - destruct (IH D' S') as (k & -> & K & A & B). exists (Datatypes.S k). cbn [obind]. split; [reflexivity|]. split; [cbn; lia|]. cbn [firstn skipn]. split; [|exact B].
      constructor; [|exact A]. exists n. auto.
    - exists O. split; [reflexivity|]. split; [lia|]. split; [constructor|]. cbn [skipn]. constructor.
      + intros (m & M & MY & ML). rewrite E in M. apply day_text_inj in M; [lia|assumption|assumption].
      + apply Forall_forall. intros e I (m & M & MY & ML). rewrite Forall_forall in F. apply (F e I). rewrite E, M, day_text_cmp by assumption. apply Z.compare_lt_iff. lia.
  Qed.
  Lemma files_feed ds l pg : files x lower escape gregorian day_of today mt head ds l "feed.xml" pg <->
    exists n, feed_len day_of today l = Ok n /\ render_feed escape (firstn n l) = Ok pg.
  Proof.
    unfold files. split.
    - intros H. destruct H as [[I _]|[(d & _ & E & _)|[[E _]|[[E _]|[(k & es & _ & _ & E & _)|[(k & os & _ & _ & E & _)|[[E _]|[(k & es & _ & _ & E & _)|[[E _]|[(k & es & _ & _ & E & _)|[[E _]|[_ E]]]]]]]]]]]];
        try discriminate E; [|exact E].
      unfold STATIC, ASSETS in I. cbn in I. repeat (destruct I as [I|I]; [discriminate I|]). destruct I.
    - intros H. do 11 right. split; [reflexivity|exact H].
  Qed.
  (** The feed is the beginning of the list of advisories: at least ten of them (or all), everything published in the last week, and
      beyond ten nothing else. *)
  Theorem C77_feed db ws : render db = Ok ws -> exists ds l n first rest es,
    omap data db = Ok ds /\ newest ds l /\ firstn n l = first :: rest /\
    site_get ws "feed.xml" = Some (PgFeed (s_created first ++ "T12:00:00+00:00") es) /\ Forall2 (entry_of escape) (first :: rest) es /\
    (n <= List.length l)%nat /\ (Nat.min 10 (List.length l) <= n)%nat /\
    (forall d, In d l -> recent today d -> In d (first :: rest)) /\
    (10 < n -> forall d, In d (first :: rest) -> recent today d)%nat.
  Proof.
    intros H. destruct (files_spec _ _ _ _ _ _ _ _ _ _ H) as (ds & D & S). set (l := newest_first ds) in *. pose proof (newest_first_ok ds) as L. fold l in L.
    destruct (render_inv _ _ _ _ _ _ _ _ _ _ H) as (ds' & pages & listing & packages & keywords & categories & n & feed & D' & _ & _ & _ & _ & _ & N & F & _).
    rewrite D in D'. injection D' as <-. fold l in N, F.
    assert (DT : Forall dated l).
    { apply Forall_forall. intros d I. destruct L as [P _]. apply (Permutation_in _ (Permutation_sym P)) in I.
      apply (PropsAudit2.omap_in _ _ _ _ D) in I as (a & _ & A). exact (created_day a d A). }
    pose proof N as N0. destruct (week l DT (proj1 (proj2 L))) as (k & W & K & A & B). unfold feed_len in N. rewrite W in N. cbn [obind] in N. injection N as N.
    assert (SPLIT : forall m d, (k <= m)%nat -> In d l -> recent today d -> In d (firstn m l)).
    { intros m d M I R. rewrite <- (firstn_skipn k l) in I. apply in_app_or in I as [I|I]; [|rewrite Forall_forall in B; destruct (B d I R)].
      replace k with (Nat.min k m) in I by lia. rewrite <- firstn_firstn in I. remember (firstn m l) as fm.
      rewrite <- (firstn_skipn k fm). apply in_or_app. left. exact I. }
    unfold MIN_FEED_LEN in N.
    assert (BOUNDS : (n <= List.length l)%nat /\ (Nat.min 10 (List.length l) <= n)%nat /\ (k <= n)%nat /\ (10 < n -> n = k)%nat).
    { destruct (Nat.ltb_spec (List.length l) 10); [lia|]. destruct (Nat.ltb_spec 10 k); lia. }
    destruct BOUNDS as (B1 & B2 & B3 & B4).
    pose proof F as F0. unfold render_feed in F. destruct (firstn n l) as [|first rest] eqn:FN; [discriminate F|].
    destruct (omap (feed_item escape) (first :: rest)) as [es| |] eqn:ES; cbn [obind] in F; try discriminate F. injection F as <-.
    exists ds, l, n, first, rest, es. split; [exact D|]. split; [exact L|]. split; [exact FN|]. split.
    - apply get_unique.
      + apply S, files_feed. exists n. rewrite FN. auto.
      + intros pg' I. apply S, files_feed in I as (n' & N' & F'). fold l in N', F'. rewrite N0 in N'. injection N' as <-. rewrite FN, F0 in F'. injection F' as <-. reflexivity.
    - split; [exact (feed_items _ _ _ ES)|]. split; [exact B1|]. split; [exact B2|]. rewrite <- FN. split.
      + intros d I R. exact (SPLIT n d B3 I R).
      + intros T d I. rewrite (B4 T) in I. rewrite Forall_forall in A. exact (A d I).
  Qed.
  (** Dates on pages name the day, month and year of the calendar. *)
  Theorem C77_friendly_dates n : four_digit_year n -> exists y m d,
    gregorian n = (Z.of_N y, m, d) /\ (1 <= m <= 12)%N /\ (1 <= d <= month_days y m)%N /\
    friendly_date (day_text n) = Ok (month_name m ++ " " ++ (if N.ltb d 10 then " " else "") ++ print_dec d ++ ", " ++ pad_left 4 (print_dec y)).
  Proof.
    intros Y. destruct (friendly_day n Y) as (y & m & d & G & F). exists y, m, d. split; [exact G|]. pose proof (gregorian_is_date n) as I. rewrite G in I. unfold is_date in I.
    destruct I as (M & D). split; [exact M|].
    assert (MN : nth (N.to_nat m - 1) MONTHS "" = month_name m).
    { assert (K : In m [1; 2; 3; 4; 5; 6; 7; 8; 9; 10; 11; 12]%N) by (cbn; lia). repeat (destruct K as [<-|K]; [reflexivity|]). destruct K. }
    rewrite MN in F. split; [|exact F]. replace (Z.to_N (Z.of_N y mod 400)) with (y mod 400)%N in D; [rewrite month_days_mod in D; exact D|].
    rewrite Z2N.inj_mod by lia. rewrite N2Z.id. reflexivity.
  Qed.
End Feed.
