(** Property theorems C76: the web site. *)
From Coq Require Import List NArith ZArith Ascii String Bool Lia Permutation Sorted Arith.
From Verif Require Import Base StrLib SemverModel OsvModel IdModel PkgModel DbModel UrlModel AdvModel MtimeModel OsvAdvModel SortProofs PropsMtime
  PropsOsvAdv PropsOsvAdv2 WebModel WebSpec WebProofs.
From Verif Require PropsAudit2.
Import ListNotations.
Local Open Scope string_scope.

Lemma tail_inj s a b : a ++ s = b ++ s -> a = b.
Proof. apply sapp_inj_r. Qed.
Lemma html_json a b : a ++ ".html" <> b ++ ".json".
Proof.
  intros E. apply (f_equal srev) in E. rewrite !srev_sapp in E. discriminate.
Qed.
Lemma html_js a : a ++ ".html" <> "js/index.js".
Proof. intros E. change "js/index.js" with ("js/inde" ++ "x.js") in E. apply (f_equal srev) in E. rewrite !srev_sapp in E. discriminate. Qed.

Lemma filter_length_perm {A} (P : A -> bool) a b : Permutation a b -> List.length (filter P a) = List.length (filter P b).
Proof.
  intros H. induction H as [|d a b H IH|d e a|a b c H1 IH1 H2 IH2]; cbn [filter]; [reflexivity| | |congruence].
  - destruct (P d); cbn [List.length]; congruence.
  - destruct (P d), (P e); reflexivity.
Qed.
Lemma filter_length_map {A B} (P : B -> bool) (f : A -> B) l : List.length (filter P (map f l)) = List.length (filter (fun a => P (f a)) l).
Proof. induction l as [|a l IH]; cbn [map filter]; [reflexivity|]. destruct (P (f a)); cbn [List.length]; congruence. Qed.

Lemma list_entries l es : omap list_entry l = Ok es -> shows es l.
Proof.
  revert es. induction l as [|d l IH]; intros es H; cbn [omap] in H.
  - injection H as <-. split; [reflexivity|intros e []].
  - unfold list_entry in H at 1. destruct (friendly_date (s_created d)) as [t| |] eqn:F; cbn [obind] in H; try discriminate.
    destruct (omap list_entry l) as [r| |] eqn:R; cbn [obind] in H; try discriminate. injection H as <-. destruct (IH r eq_refl) as [M S].
    split; [cbn [map e_adv]; rewrite M; reflexivity|]. intros e [<-|I]; [cbn [e_adv e_date e_title]; auto|exact (S e I)].
Qed.
Lemma shows_entries l es : shows es l -> omap list_entry l = Ok es.
Proof.
  revert l. induction es as [|e es IH]; intros l [M S]; cbn [map] in M; subst l; cbn [omap]; [reflexivity|].
  unfold list_entry at 1. destruct (S e (or_introl eq_refl)) as [F T]. rewrite F. cbn [obind].
  rewrite (IH (map e_adv es)) by (split; [reflexivity|intros f I; apply S; right; exact I]). cbn [obind]. rewrite <- T. destruct e; reflexivity.
Qed.

Section Site.
  Context (x : externals) (lower escape : string -> string) (cal : Z -> Z * N * N) (day_of : string -> option Z) (today : Z)
    (mt : mod_times) (head : option tree).
  Notation render := (render_site x lower escape cal day_of today mt head).
  Notation data := (advisory_data x cal mt head).
  Notation packages_of := (fun d => [s_package d]).
  Definition STATIC : list string := ("contributing.html" :: ASSETS ++ ["index.html"; "search.html"])%list.

  (** A page for every key that occurs. *)
  Definition group_page (folder what : string) (keys : site_adv -> list string) (l : list site_adv) (p : string) (pg : page) : Prop :=
    exists k es, having keys k l <> [] /\ shows es (having keys k l) /\ p = folder ++ "/" ++ k ++ ".html" /\
      pg = PgGroup ("Advisories " ++ what ++ " '" ++ k ++ "'") es.
  Lemma group_writes folder what keys l ws : omap (group_write folder what) (group_all keys l) = Ok ws ->
    (forall p pg, In (p, pg) ws <-> group_page folder what keys l p pg).
  Proof.
    intros H p pg. rewrite (PropsAudit2.omap_in _ _ _ _ H). unfold group_page. split.
    - intros ([k g] & I & W). apply group_all_in in I as [N ->]. unfold group_write in W. cbn [fst snd] in W.
      destruct (omap list_entry (having keys k l)) as [es| |] eqn:E; cbn [obind] in W; try discriminate. injection W as <- <-.
      exists k, es. split; [exact N|]. split; [exact (list_entries _ _ E)|]. split; reflexivity.
    - intros (k & es & N & S & -> & ->). exists (k, having keys k l). split; [apply group_all_in; auto|]. unfold group_write. cbn [fst snd].
      rewrite (shows_entries _ _ S). reflexivity.
  Qed.
  Lemma package_writes l ws : omap (package_write x cal mt head) (group_all packages_of l) = Ok ws ->
    (forall p pg, In (p, pg) (List.concat ws) <-> group_page "packages" "for package" packages_of l p pg \/
      exists k os, having packages_of k l <> [] /\ omap (osv_of x cal mt head) (having packages_of k l) = Ok os /\
        p = "packages/" ++ k ++ ".json" /\ pg = PgOsv os).
  Proof.
    intros H p pg. rewrite in_concat. unfold group_page. split.
    - intros (w & W & I). apply (PropsAudit2.omap_in _ _ _ _ H) in W as ([k g] & G & W). apply group_all_in in G as [N ->].
      unfold package_write, group_write in W. cbn [fst snd] in W.
      destruct (omap list_entry (having _ k l)) as [es| |] eqn:E; cbn [obind] in W; try discriminate.
      destruct (omap (osv_of x cal mt head) (having _ k l)) as [os| |] eqn:O; cbn [obind] in W; try discriminate. injection W as <-.
      destruct I as [[= <- <-]|[[= <- <-]|[]]].
      + left. exists k, es. split; [exact N|]. split; [exact (list_entries _ _ E)|]. split; reflexivity.
      + right. exists k, os. auto.
    - assert (G : forall k, having packages_of k l <> [] -> exists w, In w ws /\ package_write x cal mt head (k, having packages_of k l) = Ok w).
      { intros k N. assert (I : In (k, having packages_of k l) (group_all packages_of l)) by (apply group_all_in; auto).
        destruct (proj1 (PropsAudit2.omap_ok_iff (package_write x cal mt head) (group_all packages_of l)) (ex_intro _ _ H) _ I) as [w W].
        exists w. split; [apply (PropsAudit2.omap_in _ _ _ _ H); eauto|exact W]. }
      intros [(k & es & N & S & -> & ->)|(k & os & N & O & -> & ->)]; destruct (G k N) as (w & I & W); exists w; (split; [exact I|]);
        unfold package_write, group_write in W; cbn [fst snd] in W.
      + rewrite (shows_entries _ _ S) in W. cbn [obind] in W. destruct (omap (osv_of x cal mt head) _) as [os| |]; cbn [obind] in W; try discriminate.
        injection W as <-. left. reflexivity.
      + destruct (omap list_entry _) as [es| |]; cbn [obind] in W; try discriminate. rewrite O in W. cbn [obind] in W. injection W as <-.
        right. left. reflexivity.
  Qed.

  (** The files of a site. *)
  Lemma render_inv db ws : render db = Ok ws -> exists ds pages listing packages keywords categories n feed,
    let l := newest_first ds in
    omap data db = Ok ds /\
    omap (fun d => let? p := advisory_page d in Ok ("advisories/" ++ s_id d ++ ".html", p)) ds = Ok pages /\
    omap list_entry l = Ok listing /\
    omap (package_write x cal mt head) (group_all packages_of l) = Ok packages /\
    omap (group_write "keywords" "with keyword") (group_all slugs l) = Ok keywords /\
    omap (group_write "categories" "in category") (group_all category_names l) = Ok categories /\
    feed_len day_of today l = Ok n /\ render_feed escape (firstn n l) = Ok feed /\
    ws = (("contributing.html", PgStatic)
        :: pages
        ++ map (fun p => (p, PgStatic)) ASSETS
        ++ [("index.html", PgStatic); ("search.html", PgStatic); ("advisories/index.html", PgListing listing);
            ("packages/index.html", PgIndex "Packages" (sort_items lower (count_all l)))]
        ++ List.concat packages
        ++ ("keywords/index.html", PgIndex "Keywords" (sort_items lower (name_all "keywords" slugs l)))
        :: keywords
        ++ ("categories/index.html", PgIndex "Categories" (sort_items lower (name_all "categories" category_names l)))
        :: categories
        ++ [("js/index.js", PgSearch (search_index lower l) (search_packages lower l)); ("feed.xml", feed)])%list.
  Proof.
    unfold render_site. intros H.
    destruct (omap data db) as [ds| |]; cbn [obind] in H; try discriminate.
    destruct (omap _ ds) as [pages| |] eqn:P; cbn [obind] in H; try discriminate.
    destruct (omap list_entry (newest_first ds)) as [listing| |] eqn:L; cbn [obind] in H; try discriminate.
    destruct (omap (package_write x cal mt head) _) as [packages| |] eqn:K; cbn [obind] in H; try discriminate.
    destruct (omap (group_write "keywords" _) _) as [keywords| |] eqn:W; cbn [obind] in H; try discriminate.
    destruct (omap (group_write "categories" _) _) as [categories| |] eqn:C; cbn [obind] in H; try discriminate.
    destruct (feed_len day_of today (newest_first ds)) as [n| |] eqn:N; cbn [obind] in H; try discriminate.
    destruct (render_feed escape _) as [feed| |] eqn:F; cbn [obind] in H; try discriminate.
    injection H as <-. exists ds, pages, listing, packages, keywords, categories, n, feed. cbv zeta. auto 12.
  Qed.

  (** What may be in the site, and where. *)
  Definition files (ds l : list site_adv) (p : string) (pg : page) : Prop :=
    (In p STATIC /\ pg = PgStatic) \/
    (exists d, In d ds /\ p = "advisories/" ++ s_id d ++ ".html" /\ advisory_page d = Ok pg) \/
    (p = "advisories/index.html" /\ exists es, shows es l /\ pg = PgListing es) \/
    (p = "packages/index.html" /\ pg = PgIndex "Packages" (sort_items lower (count_all l))) \/
    group_page "packages" "for package" packages_of l p pg \/
    (exists k os, having packages_of k l <> [] /\ omap (osv_of x cal mt head) (having packages_of k l) = Ok os /\
        p = "packages/" ++ k ++ ".json" /\ pg = PgOsv os) \/
    (p = "keywords/index.html" /\ pg = PgIndex "Keywords" (sort_items lower (name_all "keywords" slugs l))) \/
    group_page "keywords" "with keyword" slugs l p pg \/
    (p = "categories/index.html" /\ pg = PgIndex "Categories" (sort_items lower (name_all "categories" category_names l))) \/
    group_page "categories" "in category" category_names l p pg \/
    (p = "js/index.js" /\ pg = PgSearch (search_index lower l) (search_packages lower l)) \/
    (p = "feed.xml" /\ exists n, feed_len day_of today l = Ok n /\ render_feed escape (firstn n l) = Ok pg).
  Lemma files_spec db ws : render db = Ok ws -> exists ds, omap data db = Ok ds /\
    forall p pg, In (p, pg) ws <-> files ds (newest_first ds) p pg.
  Proof.
    intros H. destruct (render_inv _ _ H) as (ds & pages & listing & packages & keywords & categories & n & feed & D & P & L & K & W & C & N & F & E).
    exists ds. split; [exact D|]. intros p pg. subst ws. unfold files, STATIC.
    cbn [In]. rewrite !in_app_iff. cbn [In]. rewrite !in_app_iff. cbn [In]. rewrite !in_app_iff.
    rewrite (package_writes _ _ K), (group_writes _ _ _ _ _ W), (group_writes _ _ _ _ _ C), (PropsAudit2.omap_in _ _ _ _ P). cbn [In].
    assert (A : In (p, pg) (map (fun p => (p, PgStatic)) ASSETS) <-> In p ASSETS /\ pg = PgStatic).
    { rewrite in_map_iff. split; [intros (q & [= <- <-] & I); auto|intros [I ->]; eauto]. }
    rewrite A. clear A.
    assert (AP : (exists d, In d ds /\ (let? p0 := advisory_page d in Ok ("advisories/" ++ s_id d ++ ".html", p0)) = Ok (p, pg)) <->
      (exists d, In d ds /\ p = "advisories/" ++ s_id d ++ ".html" /\ advisory_page d = Ok pg)).
    { split; intros (d & I & J); exists d; (split; [exact I|]).
      - destruct (advisory_page d) as [q| |]; cbn [obind] in J; try discriminate. injection J as <- <-. auto.
      - destruct J as [-> ->]. reflexivity. }
    rewrite AP. clear AP.
    assert (LS : (exists es, shows es (newest_first ds) /\ pg = PgListing es) <-> pg = PgListing listing).
    { split; [|intros ->; exists listing; split; [exact (list_entries _ _ L)|reflexivity]]. intros (es & S & ->).
      apply shows_entries in S. rewrite L in S. injection S as ->. reflexivity. }
    rewrite LS. clear LS.
    assert (FD : (exists n0, feed_len day_of today (newest_first ds) = Ok n0 /\ render_feed escape (firstn n0 (newest_first ds)) = Ok pg) <-> pg = feed).
    { rewrite N. split; [intros (m & [= <-] & R); congruence|intros ->; eauto]. }
    rewrite FD. clear FD.
    assert (EQ : forall (a b : string) (u v : page), (a, u) = (b, v) <-> b = a /\ v = u) by (intros; split; [intros [= -> ->]; auto|intros [-> ->]; reflexivity]).
    rewrite !EQ. clear EQ. cbn [map In].
    assert (S1 : forall q : string, q = p <-> p = q) by (intros; split; congruence).
    rewrite !S1. clear. generalize (In p ASSETS). intros AS. tauto.
  Qed.

  (** Paths of different kinds of files differ. *)
  Ltac off := repeat match goal with
    | H : In _ STATIC |- _ => unfold STATIC, ASSETS in H; cbn [app In] in H; repeat (destruct H as [H|H]; [discriminate H|]); destruct H
    | H : _ ++ _ = _ |- _ => discriminate H
    | H : _ = _ ++ _ |- _ => discriminate H
    end.
  Ltac cases H := destruct H as [[H H0]|[(d0 & H & H0 & H1)|[[H H0]|[[H H0]|[(k0 & es0 & H & H0 & H1 & H2)|[(k0 & os0 & H & H0 & H1 & H2)|[[H H0]|[(k0 & es0 & H & H0 & H1 & H2)|[[H H0]|[(k0 & es0 & H & H0 & H1 & H2)|[[H H0]|[H H0]]]]]]]]]]]].
  Lemma path_eq folder suffix a b : folder ++ "/" ++ a ++ suffix = folder ++ "/" ++ b ++ suffix -> a = b.
  Proof. intros E. apply sapp_inj_l in E. apply sapp_inj_l in E. exact (tail_inj _ _ _ E). Qed.
  Lemma path_index folder a : folder ++ "/" ++ a ++ ".html" = folder ++ "/index.html" -> a = "index".
  Proof. intros E. apply (path_eq folder ".html"). exact E. Qed.

  Lemma files_advisory ds l i pg : files ds l ("advisories/" ++ i ++ ".html") pg <->
    (exists d, In d ds /\ s_id d = i /\ advisory_page d = Ok pg) \/ (i = "index" /\ exists es, shows es l /\ pg = PgListing es).
  Proof.
    split.
    - intros H. cases H; off.
      + left. exists d0. split; [exact H|]. split; [|exact H1]. symmetry. exact (path_eq "advisories" ".html" _ _ H0).
      + right. split; [exact (path_index "advisories" _ H)|exact H0].
    - intros [(d & I & <- & P)|[-> S]].
      + right. left. exists d. auto.
      + right. right. left. split; [reflexivity|exact S].
  Qed.
  Lemma files_package ds l k pg : files ds l ("packages/" ++ k ++ ".html") pg <->
    (having packages_of k l <> [] /\ exists es, shows es (having packages_of k l) /\ pg = PgGroup ("Advisories for package '" ++ k ++ "'") es) \/
    (k = "index" /\ pg = PgIndex "Packages" (sort_items lower (count_all l))).
  Proof.
    split.
    - intros H. cases H; off.
      + right. split; [exact (path_index "packages" _ H)|exact H0].
      + apply (path_eq "packages" ".html") in H1. subst k0. left. split; [exact H|]. exists es0. auto.
      + exfalso. exact (html_json ("packages/" ++ k) ("packages/" ++ k0) H1).
    - intros [(N & es & S & ->)|[-> ->]].
      + right. right. right. right. left. exists k, es. auto.
      + right. right. right. left. auto.
  Qed.
  Lemma files_json ds l k pg : files ds l ("packages/" ++ k ++ ".json") pg <->
    having packages_of k l <> [] /\ exists os, omap (osv_of x cal mt head) (having packages_of k l) = Ok os /\ pg = PgOsv os.
  Proof.
    split.
    - intros H. cases H; off.
      + exfalso. exact (html_json ("packages/index") ("packages/" ++ k) (eq_sym H)).
      + exfalso. exact (html_json ("packages/" ++ k0) ("packages/" ++ k) (eq_sym H1)).
      + apply (path_eq "packages" ".json") in H1. subst k0. split; [exact H|]. exists os0. auto.
    - intros (N & os & O & ->). right. right. right. right. right. left. exists k, os. auto.
  Qed.
  Lemma files_keyword ds l k pg : files ds l ("keywords/" ++ k ++ ".html") pg <->
    (having slugs k l <> [] /\ exists es, shows es (having slugs k l) /\ pg = PgGroup ("Advisories with keyword '" ++ k ++ "'") es) \/
    (k = "index" /\ pg = PgIndex "Keywords" (sort_items lower (name_all "keywords" slugs l))).
  Proof.
    split.
    - intros H. cases H; off.
      + right. split; [exact (path_index "keywords" _ H)|exact H0].
      + apply (path_eq "keywords" ".html") in H1. subst k0. left. split; [exact H|]. exists es0. auto.
    - intros [(N & es & S & ->)|[-> ->]].
      + do 7 right. left. exists k, es. auto.
      + do 6 right. left. auto.
  Qed.
  Lemma files_category ds l k pg : files ds l ("categories/" ++ k ++ ".html") pg <->
    (having category_names k l <> [] /\ exists es, shows es (having category_names k l) /\ pg = PgGroup ("Advisories in category '" ++ k ++ "'") es) \/
    (k = "index" /\ pg = PgIndex "Categories" (sort_items lower (name_all "categories" category_names l))).
  Proof.
    split.
    - intros H. cases H; off.
      + right. split; [exact (path_index "categories" _ H)|exact H0].
      + apply (path_eq "categories" ".html") in H1. subst k0. left. split; [exact H|]. exists es0. auto.
    - intros [(N & es & S & ->)|[-> ->]].
      + do 9 right. left. exists k, es. auto.
      + do 8 right. left. auto.
  Qed.
  Lemma shows_unique es es' l : shows es l -> shows es' l -> es = es'.
  Proof. intros A B. apply shows_entries in A, B. congruence. Qed.

  (** *** The list of advisories: every advisory of the database once, the newest first.  [site_adv] is what the program keeps
      about an advisory: see [C76_data]. *)
  Theorem C76_listing db ws : render db = Ok ws -> exists ds l es,
    omap data db = Ok ds /\ newest ds l /\ shows es l /\ site_get ws "advisories/index.html" = Some (PgListing es).
  Proof.
    intros H. destruct (render_inv _ _ H) as (ds & pages & listing & packages & keywords & categories & n & feed & D & P & L & K & W & C & N & F & E).
    exists ds, (newest_first ds), listing. split; [exact D|]. split; [apply newest_first_ok|]. split; [exact (list_entries _ _ L)|].
    set (w1 := (("contributing.html", PgStatic) :: pages ++ map (fun p => (p, PgStatic)) ASSETS ++ [("index.html", PgStatic); ("search.html", PgStatic)])%list).
    set (w2 := (("packages/index.html", PgIndex "Packages" (sort_items lower (count_all (newest_first ds))))
        :: List.concat packages
        ++ ("keywords/index.html", PgIndex "Keywords" (sort_items lower (name_all "keywords" slugs (newest_first ds))))
        :: keywords
        ++ ("categories/index.html", PgIndex "Categories" (sort_items lower (name_all "categories" category_names (newest_first ds))))
        :: categories
        ++ [("js/index.js", PgSearch (search_index lower (newest_first ds)) (search_packages lower (newest_first ds))); ("feed.xml", feed)])%list).
    assert (EW : ws = (w1 ++ ("advisories/index.html", PgListing listing) :: w2)%list)
      by (rewrite E; unfold w1, w2; cbn [app]; rewrite <- !app_assoc; reflexivity).
    rewrite EW.
    apply get_last. intros [q pg] I Q. cbn [fst] in Q. subst q. unfold w2 in I. cbn [In] in I. rewrite !in_app_iff in I. cbn [In] in I.
    rewrite !in_app_iff in I. cbn [In] in I. rewrite !in_app_iff in I. cbn [In] in I.
    rewrite (package_writes _ _ K), (group_writes _ _ _ _ _ W), (group_writes _ _ _ _ _ C) in I. unfold group_page in I.
    destruct I as [I|[[(k0 & es0 & _ & _ & I & _)|(k0 & os0 & _ & _ & I & _)]|[I|[(k0 & es0 & _ & _ & I & _)|[I|[(k0 & es0 & _ & _ & I & _)|[I|[I|[]]]]]]]]];
      discriminate I.
  Qed.

  (** What the program knows about an advisory: its file in the repository, and the days of that file's first and last change. *)
  Theorem C76_data a d : data a = Ok d <-> exists c,
    m_collection (f_meta a) = Some c /\ s_adv d = a /\
    s_path d = (match c with Crates => "crates" | RustColl => "rust" end) ++ "/" ++ m_package (f_meta a) ++ "/" ++ id_string (m_id (f_meta a)) ++ ".md" /\
    git_path head (s_path d) = Ok (s_path d) /\
    cdate_for_path cal (x_civil x) mt (s_path d) = Ok (s_created d) /\ mdate_for_path cal (x_civil x) mt (s_path d) = Ok (s_modified d).
  Proof.
    assert (G : forall p g, git_path head p = Ok g -> g = p).
    { intros p g. unfold git_path. destruct (starts_with "/" p); [discriminate|]. destruct (has_relative_path head p); congruence. }
    unfold advisory_data. split.
    - destruct (m_collection (f_meta a)) as [c|]; [|discriminate].
      set (p := collection_name c ++ "/" ++ m_package (f_meta a) ++ "/" ++ id_string (m_id (f_meta a)) ++ ".md").
      destruct (git_path head p) as [g| |] eqn:E; try discriminate. pose proof (G _ _ E) as ->.
      destruct (cdate_for_path cal (x_civil x) mt p) as [cd| |] eqn:CD; cbn [obind]; try discriminate.
      destruct (mdate_for_path cal (x_civil x) mt p) as [md| |] eqn:MD; cbn [obind]; try discriminate.
      intros [= <-]. exists c. cbn [s_adv s_path s_created s_modified]. repeat (split; [first [reflexivity|assumption]|]). assumption.
    - intros (c & -> & A & P & E & CD & MD). fold (collection_name c) in P. rewrite <- P, E, CD. cbn [obind]. rewrite MD. cbn [obind].
      destruct d as [da dp dc dm]. cbn [s_adv s_path s_created s_modified] in *. subst. reflexivity.
  Qed.

  (** *** The page of an advisory. *)
  Theorem C76_advisory_pages db ws : render db = Ok ws -> NoDup (map (fun a => id_string (m_id (f_meta a))) db) ->
    exists ds, omap data db = Ok ds /\
    (forall d, In d ds -> s_id d <> "index" -> exists reported issued modified,
       site_get ws ("advisories/" ++ s_id d ++ ".html") = Some (PgAdvisory d reported issued modified) /\
       friendly_date (m_date (f_meta (s_adv d))) = Ok reported /\ friendly_date (s_created d) = Ok issued /\
       (modified = None <-> s_modified d = s_created d) /\ (forall m, modified = Some m -> friendly_date (s_modified d) = Ok m)) /\
    (forall i, i <> "index" -> (forall d, In d ds -> s_id d <> i) -> site_get ws ("advisories/" ++ i ++ ".html") = None).
  Proof.
    intros H ND. destruct (files_spec _ _ H) as (ds & D & S). exists ds. split; [exact D|].
    assert (NS : NoDup (map s_id ds)).
    { replace (map s_id ds) with (map (fun a => id_string (m_id (f_meta a))) db); [exact ND|]. clear -D. revert ds D.
      induction db as [|a db IH]; intros ds D; cbn [omap] in D; [injection D as <-; reflexivity|].
      destruct (data a) as [d| |] eqn:A; cbn [obind] in D; try discriminate. destruct (omap data db) as [r| |]; cbn [obind] in D; try discriminate.
      injection D as <-. cbn [map]. rewrite (IH r eq_refl). f_equal. apply C76_data in A as (c & _ & <- & _). reflexivity. }
    assert (INJ : forall d e, In d ds -> In e ds -> s_id d = s_id e -> d = e).
    { clear -NS. induction ds as [|a ds IH]; intros d e I J E; [destruct I|]. cbn [map] in NS. inversion NS as [|? ? NI NS']; subst.
      destruct I as [<-|I], J as [<-|J]; [reflexivity| | |exact (IH NS' _ _ I J E)]; exfalso; apply NI; [rewrite E|rewrite <- E]; apply in_map; assumption. }
    split.
    - intros d I NI. assert (P : exists pg, advisory_page d = Ok pg).
      { destruct (render_inv _ _ H) as (ds' & pages & listing & packages & keywords & categories & n & feed & D' & P & _).
        rewrite D in D'. injection D' as <-. destruct (proj1 (PropsAudit2.omap_ok_iff _ _) (ex_intro _ _ P) d I) as [w W]. cbn in W.
        destruct (advisory_page d) as [q| |]; cbn [obind] in W; try discriminate. eauto. }
      destruct P as [pg P]. assert (SG : site_get ws ("advisories/" ++ s_id d ++ ".html") = Some pg).
      { apply get_unique; [apply S, files_advisory; left; exists d; auto|]. intros pg' I'. apply S, files_advisory in I' as [(e & J & E & Q)|[E _]]; [|contradiction].
        rewrite (INJ e d J I E) in Q. congruence. }
      unfold advisory_page in P. destruct (friendly_date (m_date _)) as [r| |] eqn:R; cbn [obind] in P; try discriminate.
      destruct (friendly_date (s_created d)) as [i| |] eqn:IS; cbn [obind] in P; try discriminate.
      destruct (String.eqb_spec (s_created d) (s_modified d)) as [E|E]; cbn [obind] in P.
      + injection P as <-. exists r, i, None. repeat (split; [first [assumption|reflexivity]|]). split; [split; congruence|discriminate].
      + destruct (friendly_date (s_modified d)) as [m| |] eqn:M; cbn [obind] in P; try discriminate. injection P as <-. exists r, i, (Some m).
        repeat (split; [first [assumption|reflexivity]|]). split; [split; [discriminate|congruence]|congruence].
    - intros i NI N. apply get_none. intros [q pg] I E. cbn [fst] in E. subst q. apply S, files_advisory in I as [(d & J & E & _)|[E _]]; [exact (N d J E)|contradiction].
  Qed.

  (** *** The pages of a package: its advisories and no others, newest first, as HTML and as OSV documents. *)
  Lemma package_having k l : having packages_of k l = filter (fun d => String.eqb k (s_package d)) l.
  Proof.
    rewrite having_unique by (intros d _; constructor; [intros []|constructor]). unfold with_key. apply filter_ext. intros d. cbn. apply orb_false_r.
  Qed.
  Lemma group_get_some ws p pg (P : page -> Prop) : In (p, pg) ws -> (forall pg', In (p, pg') ws -> pg' = pg) -> P pg -> exists pg', site_get ws p = Some pg' /\ P pg'.
  Proof. intros I U Q. exists pg. split; [exact (get_unique _ _ _ I U)|exact Q]. Qed.
  Lemma had {A} (f : site_adv -> outcome A) (keys : site_adv -> list string) l (all : list (string * list site_adv)) k :
    having keys k l <> [] -> (forall g, In g (group_all keys l) -> exists r, omap f (snd g) = Ok r) -> exists r, omap f (having keys k l) = Ok r.
  Proof. intros N G. apply (G (k, having keys k l)). apply group_all_in. auto. Qed.
  Theorem C76_package_pages db ws k : render db = Ok ws -> k <> "index" ->
    exists ds l, omap data db = Ok ds /\ newest ds l /\
    let mine := filter (fun d => String.eqb k (s_package d)) l in
    (mine <> [] -> exists es os,
       site_get ws ("packages/" ++ k ++ ".html") = Some (PgGroup ("Advisories for package '" ++ k ++ "'") es) /\ shows es mine /\
       site_get ws ("packages/" ++ k ++ ".json") = Some (PgOsv os) /\
       Forall2 (fun d o => from_rustsec x cal mt (s_path d) (s_adv d) = Ok o) mine os) /\
    (mine = [] -> site_get ws ("packages/" ++ k ++ ".html") = None /\ site_get ws ("packages/" ++ k ++ ".json") = None).
  Proof.
    intros H NI. destruct (files_spec _ _ H) as (ds & D & S). exists ds, (newest_first ds). split; [exact D|]. split; [apply newest_first_ok|].
    cbv zeta. rewrite <- package_having. set (l := newest_first ds) in *. split.
    - intros N.
      assert (W : exists es os, shows es (having packages_of k l) /\ omap (osv_of x cal mt head) (having packages_of k l) = Ok os).
      { destruct (render_inv _ _ H) as (ds' & pages & listing & packages & keywords & categories & n & feed & D' & P & L & K & _).
        rewrite D in D'. injection D' as <-. fold l in K.
        assert (I : In (k, having packages_of k l) (group_all packages_of l)) by (apply group_all_in; auto).
        destruct (proj1 (PropsAudit2.omap_ok_iff _ _) (ex_intro _ _ K) _ I) as [w W]. unfold package_write, group_write in W. cbn [fst snd] in W.
        destruct (omap list_entry (having _ k l)) as [es| |] eqn:E; cbn [obind] in W; try discriminate.
        destruct (omap (osv_of x cal mt head) _) as [os| |] eqn:O; cbn [obind] in W; try discriminate.
        exists es, os. split; [exact (list_entries _ _ E)|reflexivity]. }
      destruct W as (es & os & E & O). exists es, os. split.
      { apply get_unique; [apply S, files_package; left; split; [exact N|]; exists es; auto|]. intros pg' I. apply S, files_package in I as [(_ & es' & E' & ->)|[Q _]]; [|contradiction].
        rewrite (shows_unique _ _ _ E' E). reflexivity. }
      split; [exact E|]. split.
      { apply get_unique; [apply S, files_json; split; [exact N|]; exists os; auto|]. intros pg' I. apply S, files_json in I as (_ & os' & O' & ->). congruence. }
      apply CvssTextProofs.omap_iff in O.
      assert (G : forall p g, git_path head p = Ok g -> g = p).
      { intros p g. unfold git_path. destruct (starts_with "/" p); [discriminate|]. destruct (has_relative_path head p); congruence. }
      clear -O G. induction O as [|d o r os' A O IH]; constructor; [|exact IH]. unfold osv_of in A. destruct (git_path head (s_path d)) as [g| |] eqn:E; try discriminate.
      rewrite <- (G _ _ E). exact A.
    - intros N. split; apply get_none; intros [q pg] I E; cbn [fst] in E; subst q; apply S in I.
      + apply files_package in I as [(M & _)|[Q _]]; contradiction.
      + apply files_json in I as (M & _). contradiction.
  Qed.

  (** *** Keywords and categories. *)
  Lemma group_ok folder what keys l ws' k : omap (group_write folder what) (group_all keys l) = Ok ws' -> having keys k l <> [] -> exists es, shows es (having keys k l).
  Proof.
    intros W N. assert (I : In (k, having keys k l) (group_all keys l)) by (apply group_all_in; auto).
    destruct (proj1 (PropsAudit2.omap_ok_iff _ _) (ex_intro _ _ W) _ I) as [w X]. unfold group_write in X. cbn [fst snd] in X.
    destruct (omap list_entry _) as [es| |] eqn:E; cbn [obind] in X; try discriminate. exists es. exact (list_entries _ _ E).
  Qed.
  Lemma slugs_in d k : In k (slugs d) <-> exists w, In w (m_keywords (f_meta (s_adv d))) /\ safe_keyword w = k.
  Proof.
    unfold slugs. change (dedup str_cmp (sort_list str_cmp ?l)) with (sort_set str_cmp l). rewrite (sort_set_in _ str_cmp_laws), in_map_iff.
    split; intros (w & A & B); exists w; auto.
  Qed.
  Lemma slugs_nodup d : NoDup (slugs d).
  Proof. apply (sort_set_nodup _ str_cmp_laws). Qed.
  Definition has_keyword (k : string) (d : site_adv) : bool := existsb (fun w => String.eqb (safe_keyword w) k) (m_keywords (f_meta (s_adv d))).
  Lemma keyword_having k l : having slugs k l = filter (has_keyword k) l.
  Proof.
    rewrite having_unique by (intros d _; apply slugs_nodup). unfold with_key. apply filter_ext. intros d. apply eq_true_iff_eq.
    unfold has_keyword. rewrite !existsb_exists. split.
    - intros (q & I & E). apply String.eqb_eq in E. subst q. apply slugs_in in I as (w & I & E). exists w. split; [exact I|apply String.eqb_eq, E].
    - intros (w & I & E). apply String.eqb_eq in E. exists k. split; [apply slugs_in; eauto|apply String.eqb_refl].
  Qed.
  Theorem C76_keyword_pages db ws k : render db = Ok ws -> k <> "index" ->
    exists ds l, omap data db = Ok ds /\ newest ds l /\
    let mine := filter (fun d => existsb (fun w => String.eqb (safe_keyword w) k) (m_keywords (f_meta (s_adv d)))) l in
    (mine <> [] -> exists es, site_get ws ("keywords/" ++ k ++ ".html") = Some (PgGroup ("Advisories with keyword '" ++ k ++ "'") es) /\ shows es mine) /\
    (mine = [] -> site_get ws ("keywords/" ++ k ++ ".html") = None).
  Proof.
    intros H NI. destruct (files_spec _ _ H) as (ds & D & S). exists ds, (newest_first ds). split; [exact D|]. split; [apply newest_first_ok|].
    cbv zeta. fold (has_keyword k). rewrite <- keyword_having. set (l := newest_first ds) in *. split.
    - intros N. destruct (render_inv _ _ H) as (ds' & pages & listing & packages & keywords & categories & n & feed & D' & P & L & K & W & _).
      rewrite D in D'. injection D' as <-. fold l in W. destruct (group_ok _ _ _ _ _ _ W N) as [es E]. exists es. split; [|exact E].
      apply get_unique; [apply S, files_keyword; left; split; [exact N|]; exists es; auto|]. intros pg' I. apply S, files_keyword in I as [(_ & es' & E' & ->)|[Q _]]; [|contradiction].
      rewrite (shows_unique _ _ _ E' E). reflexivity.
    - intros N. apply get_none; intros [q pg] I E; cbn [fst] in E; subst q; apply S in I. apply files_keyword in I as [(M & _)|[Q _]]; contradiction.
  Qed.
  (** A category an advisory names twice lists it twice. *)
  Theorem C76_category_pages db ws k : render db = Ok ws -> k <> "index" ->
    exists ds l, omap data db = Ok ds /\ newest ds l /\
    let mine := flat_map (fun d => repeat d (count_occ string_dec (map category_name (m_categories (f_meta (s_adv d)))) k)) l in
    (mine <> [] -> exists es, site_get ws ("categories/" ++ k ++ ".html") = Some (PgGroup ("Advisories in category '" ++ k ++ "'") es) /\ shows es mine) /\
    (mine = [] -> site_get ws ("categories/" ++ k ++ ".html") = None).
  Proof.
    intros H NI. destruct (files_spec _ _ H) as (ds & D & S). exists ds, (newest_first ds). split; [exact D|]. split; [apply newest_first_ok|].
    cbv zeta. set (l := newest_first ds) in *. change (flat_map _ l) with (having category_names k l). split.
    - intros N. destruct (render_inv _ _ H) as (ds' & pages & listing & packages & keywords & categories & n & feed & D' & P & L & K & W & C & _).
      rewrite D in D'. injection D' as <-. fold l in C. destruct (group_ok _ _ _ _ _ _ C N) as [es E]. exists es. split; [|exact E].
      apply get_unique; [apply S, files_category; left; split; [exact N|]; exists es; auto|]. intros pg' I. apply S, files_category in I as [(_ & es' & E' & ->)|[Q _]]; [|contradiction].
      rewrite (shows_unique _ _ _ E' E). reflexivity.
    - intros N. apply get_none; intros [q pg] I E; cbn [fst] in E; subst q; apply S in I. apply files_category in I as [(M & _)|[Q _]]; contradiction.
  Qed.
  Theorem C76_category_pages_once k l : (forall d, In d l -> NoDup (map category_name (m_categories (f_meta (s_adv d))))) ->
    flat_map (fun d => repeat d (count_occ string_dec (map category_name (m_categories (f_meta (s_adv d)))) k)) l
    = filter (fun d => existsb (fun c => String.eqb k (category_name c)) (m_categories (f_meta (s_adv d)))) l.
  Proof.
    intros N. change (flat_map _ l) with (having category_names k l). rewrite having_unique by exact N. unfold with_key. apply filter_ext. intros d.
    unfold category_names. induction (m_categories (f_meta (s_adv d))) as [|c r IH]; [reflexivity|]. cbn [map existsb]. rewrite IH. reflexivity.
  Qed.

  (** *** The three indices. *)
  Lemma perm_names is : Permutation (map it_name is) (map it_name (sort_items lower is)).
  Proof. apply Permutation_map, sort_items_perm. Qed.
  Theorem C76_package_index db ws : render db = Ok ws -> (forall a, In a db -> m_package (f_meta a) <> "index") ->
    exists ds is, omap data db = Ok ds /\ site_get ws "packages/index.html" = Some (PgIndex "Packages" is) /\
    index_of lower "packages" is (fun n => exists a, In a db /\ m_package (f_meta a) = n) /\
    forall i, In i is -> it_count i = Some (N.of_nat (List.length (filter (fun a => String.eqb (it_name i) (m_package (f_meta a))) db))).
  Proof.
    intros H NI. destruct (files_spec _ _ H) as (ds & D & S). exists ds, (sort_items lower (count_all (newest_first ds))). split; [exact D|].
    set (l := newest_first ds) in *.
    assert (PM : Permutation ds l) by (apply newest_first_ok).
    assert (DB : map s_adv ds = db).
    { clear -D. revert ds D. induction db as [|a db IH]; intros ds D; cbn [omap] in D; [injection D as <-; reflexivity|].
      destruct (data a) as [d| |] eqn:A; cbn [obind] in D; try discriminate. destruct (omap data db) as [r| |]; cbn [obind] in D; try discriminate.
      injection D as <-. cbn [map]. rewrite (IH r eq_refl). f_equal. apply C76_data in A as (c & _ & <- & _). reflexivity. }
    assert (IN : forall n, (exists d, In d l /\ s_package d = n) <-> exists a, In a db /\ m_package (f_meta a) = n).
    { intros n. rewrite <- DB. split.
      - intros (d & I & E). exists (s_adv d). split; [apply in_map; apply (Permutation_in _ (Permutation_sym PM)), I|exact E].
      - intros (a & I & E). apply in_map_iff in I as (d & <- & I). exists d. split; [apply (Permutation_in _ PM), I|exact E]. }
    destruct (count_all_spec l) as [ND CS]. split; [|split].
    - apply get_unique; [apply S; right; right; right; left; auto|]. intros pg' I. apply S in I. change "packages/index.html" with ("packages/" ++ "index" ++ ".html") in I.
      apply files_package in I as [(M & _)|[_ E]]; [|exact E]. exfalso. apply having_keys in M as (d & I & [E|[]]).
      destruct (proj1 (IN "index") (ex_intro _ d (conj I E))) as (a & J & E'). exact (NI a J E').
    - split; [|split; [|split]].
      + exact (Permutation_NoDup (perm_names _) ND).
      + intros n. rewrite <- IN. split.
        * intros I. apply (Permutation_in _ (Permutation_sym (perm_names _))), in_map_iff in I as (i & <- & I). apply CS in I. exact (proj1 I).
        * intros E. apply (Permutation_in _ (perm_names _)), in_map_iff. exists (mkItem n ("/packages/" ++ n ++ ".html") (Some (times_named n l))).
          split; [reflexivity|]. apply CS. cbn [it_name]. auto.
      + intros i I. apply (Permutation_in _ (Permutation_sym (sort_items_perm _ _))), CS in I as [_ ->]. reflexivity.
      + apply sort_items_sorted.
    - intros i I. apply (Permutation_in _ (Permutation_sym (sort_items_perm _ _))), CS in I as [_ E]. rewrite E at 1. cbn [it_count]. f_equal. unfold times_named, with_key.
      f_equal. rewrite <- DB, filter_length_map, <- (filter_length_perm _ _ _ PM). f_equal. apply filter_ext. intros d. cbn [existsb]. apply orb_false_r.
  Qed.
  Lemma name_index folder keys l : index_of lower folder (sort_items lower (name_all folder keys l)) (fun n => exists d, In d l /\ In n (keys d)) /\
    forall i, In i (sort_items lower (name_all folder keys l)) -> it_count i = None.
  Proof.
    destruct (name_all_good folder keys l) as [[ND U] NM]. split; [split; [|split; [|split]]|].
    - exact (Permutation_NoDup (perm_names _) ND).
    - intros n. rewrite <- NM. split; intros I; [apply (Permutation_in _ (Permutation_sym (perm_names _)) I)|exact (Permutation_in _ (perm_names _) I)].
    - intros i I. apply U. exact (Permutation_in _ (Permutation_sym (sort_items_perm _ _)) I).
    - apply sort_items_sorted.
    - intros i I. apply U. exact (Permutation_in _ (Permutation_sym (sort_items_perm _ _)) I).
  Qed.
  Lemma data_advs db ds : omap data db = Ok ds -> map s_adv ds = db.
  Proof.
    revert ds. induction db as [|a db IH]; intros ds D; cbn [omap] in D; [injection D as <-; reflexivity|].
    destruct (data a) as [d| |] eqn:A; cbn [obind] in D; try discriminate. destruct (omap data db) as [r| |]; cbn [obind] in D; try discriminate.
    injection D as <-. cbn [map]. rewrite (IH r eq_refl). f_equal. apply C76_data in A as (c & _ & <- & _). reflexivity.
  Qed.
  Lemma among db ds (P : full_advisory -> Prop) : omap data db = Ok ds -> (exists d, In d (newest_first ds) /\ P (s_adv d)) <-> exists a, In a db /\ P a.
  Proof.
    intros D. rewrite <- (data_advs _ _ D). assert (PM : Permutation ds (newest_first ds)) by apply newest_first_ok. split.
    - intros (d & I & E). exists (s_adv d). split; [apply in_map; exact (Permutation_in _ (Permutation_sym PM) I)|exact E].
    - intros (a & I & E). apply in_map_iff in I as (d & <- & I). exists d. split; [exact (Permutation_in _ PM I)|exact E].
  Qed.
  Theorem C76_keyword_index db ws : render db = Ok ws -> (forall a w, In a db -> In w (m_keywords (f_meta a)) -> safe_keyword w <> "index") ->
    exists is, site_get ws "keywords/index.html" = Some (PgIndex "Keywords" is) /\
    index_of lower "keywords" is (fun n => exists a w, In a db /\ In w (m_keywords (f_meta a)) /\ safe_keyword w = n).
  Proof.
    intros H NI. destruct (files_spec _ _ H) as (ds & D & S). exists (sort_items lower (name_all "keywords" slugs (newest_first ds))).
    assert (IN : forall n, (exists d, In d (newest_first ds) /\ In n (slugs d)) <-> exists a w, In a db /\ In w (m_keywords (f_meta a)) /\ safe_keyword w = n).
    { intros n. pose proof (among db ds (fun a => exists w, In w (m_keywords (f_meta a)) /\ safe_keyword w = n) D) as AM. split.
      - intros (d & I & E). apply slugs_in in E. destruct (proj1 AM (ex_intro _ d (conj I E))) as (a & J & w & W). exists a, w. auto.
      - intros (a & w & I & W). destruct (proj2 AM (ex_intro _ a (conj I (ex_intro _ w W)))) as (d & J & E). exists d. split; [exact J|apply slugs_in, E]. }
    split.
    - apply get_unique; [apply S; do 6 right; left; auto|]. intros pg' I. apply S in I. change "keywords/index.html" with ("keywords/" ++ "index" ++ ".html") in I.
      apply files_keyword in I as [(M & _)|[_ E]]; [|exact E]. exfalso. apply having_keys, IN in M as (a & w & I & W & E). exact (NI a w I W E).
    - destruct (name_index "keywords" slugs (newest_first ds)) as [(A & B & C) _]. split; [exact A|]. split; [|exact C]. intros n. rewrite B. apply IN.
  Qed.
  Theorem C76_category_index db ws : render db = Ok ws -> (forall a c, In a db -> In c (m_categories (f_meta a)) -> category_name c <> "index") ->
    exists is, site_get ws "categories/index.html" = Some (PgIndex "Categories" is) /\
    index_of lower "categories" is (fun n => exists a c, In a db /\ In c (m_categories (f_meta a)) /\ category_name c = n).
  Proof.
    intros H NI. destruct (files_spec _ _ H) as (ds & D & S). exists (sort_items lower (name_all "categories" category_names (newest_first ds))).
    assert (IN : forall n, (exists d, In d (newest_first ds) /\ In n (category_names d)) <-> exists a c, In a db /\ In c (m_categories (f_meta a)) /\ category_name c = n).
    { intros n. pose proof (among db ds (fun a => exists c, In c (m_categories (f_meta a)) /\ category_name c = n) D) as AM. split.
      - intros (d & I & E). apply in_map_iff in E as (c & E & C). destruct (proj1 AM (ex_intro _ d (conj I (ex_intro _ c (conj C E))))) as (a & J & w & W). exists a, w. auto.
      - intros (a & w & I & W). destruct (proj2 AM (ex_intro _ a (conj I (ex_intro _ w W)))) as (d & J & c & C & E). exists d. split; [exact J|]. apply in_map_iff. eauto. }
    split.
    - apply get_unique; [apply S; do 8 right; left; auto|]. intros pg' I. apply S in I. change "categories/index.html" with ("categories/" ++ "index" ++ ".html") in I.
      apply files_category in I as [(M & _)|[_ E]]; [|exact E]. exfalso. apply having_keys, IN in M as (a & w & I & W & E). exact (NI a w I W E).
    - destruct (name_index "categories" category_names (newest_first ds)) as [(A & B & C) _]. split; [exact A|]. split; [|exact C]. intros n. rewrite B. apply IN.
  Qed.

  (** *** No page links to a file the site does not have. *)
  Theorem C76_no_dead_links db ws p pg target : render db = Ok ws -> site_get ws p = Some pg -> In target (links pg) ->
    exists pg', site_get ws target = Some pg'.
  Proof.
    intros H G L. apply get_in in G. destruct (files_spec _ _ H) as (ds & D & S). apply S in G. set (l := newest_first ds) in *.
    destruct (render_inv _ _ H) as (ds' & pages & listing & packages & keywords & categories & n & feed & D' & P & LS & K & W & C & N & F & _).
    rewrite D in D'. injection D' as <-. fold l in LS, K, W, C, N, F.
    assert (PM : forall d, In d l <-> In d ds).
    { intros d. assert (Q : Permutation ds l) by apply newest_first_ok. split; [apply (Permutation_in _ (Permutation_sym Q))|apply (Permutation_in _ Q)]. }
    assert (TO : forall q g, files ds l q g -> exists g', site_get ws q = Some g') by (intros q g I; apply S in I; exact (get_some _ _ _ I)).
    assert (ADV : forall d, In d ds -> exists g', site_get ws ("advisories/" ++ s_id d ++ ".html") = Some g').
    { intros d I. destruct (proj1 (PropsAudit2.omap_ok_iff _ _) (ex_intro _ _ P) d I) as [w X]. cbn in X.
      destruct (advisory_page d) as [q| |] eqn:Q; cbn [obind] in X; try discriminate. refine (TO _ q (proj2 (files_advisory ds l (s_id d) q) (or_introl (ex_intro _ d (conj I (conj eq_refl Q)))))). }
    assert (PKG : forall k, having packages_of k l <> [] -> exists g', site_get ws ("packages/" ++ k ++ ".html") = Some g').
    { intros k N0. assert (I : In (k, having packages_of k l) (group_all packages_of l)) by (apply group_all_in; auto).
      destruct (proj1 (PropsAudit2.omap_ok_iff _ _) (ex_intro _ _ K) _ I) as [w X]. unfold package_write, group_write in X. cbn [fst snd] in X.
      destruct (omap list_entry (having _ k l)) as [es| |] eqn:E; cbn [obind] in X; try discriminate. refine (TO _ _ (proj2 (files_package ds l k _) (or_introl (conj N0 (ex_intro _ es (conj (list_entries _ _ E) eq_refl)))))). }
    assert (KW : forall k, having slugs k l <> [] -> exists g', site_get ws ("keywords/" ++ k ++ ".html") = Some g').
    { intros k N0. destruct (group_ok _ _ _ _ _ _ W N0) as [es E]. refine (TO _ _ (proj2 (files_keyword ds l k _) (or_introl (conj N0 (ex_intro _ es (conj E eq_refl)))))). }
    assert (CT : forall k, having category_names k l <> [] -> exists g', site_get ws ("categories/" ++ k ++ ".html") = Some g').
    { intros k N0. destruct (group_ok _ _ _ _ _ _ C N0) as [es E]. refine (TO _ _ (proj2 (files_category ds l k _) (or_introl (conj N0 (ex_intro _ es (conj E eq_refl)))))). }
    assert (MN : In target MENU -> exists g', site_get ws target = Some g').
    { intros I. unfold MENU in I. cbn [In] in I.
      destruct I as [<-|[<-|[<-|[<-|[<-|[<-|[<-|[<-|[<-|[<-|[]]]]]]]]]]].
      1-4, 6: (eapply TO; left; split; [unfold STATIC, ASSETS; cbn; tauto|reflexivity]).
      - eapply TO. right. right. left. split; [reflexivity|]. exists listing. split; [exact (list_entries _ _ LS)|reflexivity].
      - eapply TO. do 11 right. split; [reflexivity|]. exists n. split; [exact N|exact F].
      - eapply TO. do 8 right. left. split; reflexivity.
      - eapply TO. do 6 right. left. split; reflexivity.
      - eapply TO. do 3 right. left. split; reflexivity. }
    assert (SH : forall es r, shows es r -> (forall d, In d r -> In d l) -> In target (map (fun e => "advisories/" ++ s_id (e_adv e) ++ ".html") es) -> exists g', site_get ws target = Some g').
    { intros es r [M _] SUB I. apply in_map_iff in I as (e & <- & I). apply ADV, PM, SUB. rewrite <- M. apply in_map, I. }
    assert (IX : forall folder is, (forall k, In k (map it_name is) -> exists g', site_get ws (folder ++ "/" ++ k ++ ".html") = Some g') ->
       (forall i, In i is -> it_url i = "/" ++ folder ++ "/" ++ it_name i ++ ".html") ->
       In target (map (fun i => match strip_prefix "/" (it_url i) with Some u => u | None => it_url i end) is) -> exists g', site_get ws target = Some g').
    { intros folder is G0 U I. apply in_map_iff in I as (i & <- & I). rewrite (U i I). cbn [strip_prefix append]. rewrite Ascii.eqb_refl. apply G0, in_map, I. }
    assert (SUB : forall keys k d, In d (having keys k l) -> In d l) by (intros keys k d I; apply having_in in I; apply I).
    destruct G as [[_ ->]|[(d & I & _ & A)|[[_ (es & E & ->)]|[[_ ->]|[(k & es & _ & E & _ & ->)|[(k & os & _ & _ & _ & ->)|[[_ ->]|[(k & es & _ & E & _ & ->)|[[_ ->]|[(k & es & _ & E & _ & ->)|[[_ ->]|[_ (m & NM & FM)]]]]]]]]]]]].
    - destruct L.
    - assert (LL : links pg = links (PgAdvisory d "" "" None)).
      { unfold advisory_page in A. destruct (friendly_date (m_date _)); cbn [obind] in A; try discriminate. destruct (friendly_date (s_created d)); cbn [obind] in A; try discriminate.
        destruct (String.eqb _ _); cbn [obind] in A; [injection A as <-; reflexivity|]. destruct (friendly_date (s_modified d)); cbn [obind] in A; try discriminate. injection A as <-. reflexivity. }
      rewrite LL in L. unfold links in L. apply in_app_or in L as [L|[<-|L]]; [exact (MN L)| |].
      + apply PKG, having_keys. exists d. split; [apply PM, I|left; reflexivity].
      + apply in_app_or in L as [L|L]; apply in_map_iff in L as (c & <- & L).
        * apply CT, having_keys. exists d. split; [apply PM, I|apply in_map, L].
        * apply KW, having_keys. exists d. split; [apply PM, I|apply slugs_in; eauto].
    - cbn [links] in L. apply in_app_or in L as [L|L]; [exact (MN L)|]. exact (SH es l E (fun d I => I) L).
    - cbn [links] in L. apply in_app_or in L as [L|L]; [exact (MN L)|]. destruct (count_all_spec l) as [_ CS]. refine (IX "packages" _ _ _ L).
      + intros k I. apply (Permutation_in _ (Permutation_sym (perm_names _))), in_map_iff in I as (i & <- & I). apply CS in I as [(d & I & E) _].
        apply PKG, having_keys. exists d. split; [exact I|left; exact E].
      + intros i I. apply (Permutation_in _ (Permutation_sym (sort_items_perm _ _))), CS in I as [_ ->]. reflexivity.
    - cbn [links] in L. apply in_app_or in L as [L|L]; [exact (MN L)|]. exact (SH _ _ E (SUB _ k) L).
    - destruct L.
    - cbn [links] in L. apply in_app_or in L as [L|L]; [exact (MN L)|]. destruct (name_index "keywords" slugs l) as [(_ & B & U & _) _]. refine (IX "keywords" _ _ U L).
      intros k I. apply KW, having_keys, B, I.
    - cbn [links] in L. apply in_app_or in L as [L|L]; [exact (MN L)|]. exact (SH _ _ E (SUB _ k) L).
    - cbn [links] in L. apply in_app_or in L as [L|L]; [exact (MN L)|]. destruct (name_index "categories" category_names l) as [(_ & B & U & _) _]. refine (IX "categories" _ _ U L).
      intros k I. apply CT, having_keys, B, I.
    - cbn [links] in L. apply in_app_or in L as [L|L]; [exact (MN L)|]. exact (SH _ _ E (SUB _ k) L).
    - destruct L.
    - unfold render_feed in FM. destruct (firstn m l) as [|f r] eqn:FN; [discriminate|]. destruct (omap (feed_item escape) (f :: r)) as [es| |] eqn:E; cbn [obind] in FM; try discriminate.
      injection FM as <-. cbn [links] in L. apply in_map_iff in L as (e & <- & L). apply (PropsAudit2.omap_in _ _ _ _ E) in L as (d & I & A). rewrite <- FN in I.
      unfold feed_item in A. destruct (advisory_page d); cbn [obind] in A; try discriminate. destruct (friendly_date _); cbn [obind] in A; try discriminate. injection A as <-.
      assert (SP : strip_prefix "https://rustsec.org/" ("https://rustsec.org/advisories/" ++ s_id d ++ ".html") = Some ("advisories/" ++ s_id d ++ ".html"))
        by exact (strip_prefix_app "https://rustsec.org/" ("advisories/" ++ s_id d ++ ".html")).
      match goal with |- exists g, site_get ws ?m = Some g => change m with (match strip_prefix "https://rustsec.org/" ("https://rustsec.org/advisories/" ++ s_id d ++ ".html") with
        Some u => u | None => "https://rustsec.org/advisories/" ++ s_id d ++ ".html" end) end.
      rewrite SP. apply ADV, PM. rewrite <- (firstn_skipn m l). apply in_or_app. left. exact I.
  Qed.
End Site.
