(** Property theorems C76 and C77, continued: when the site can be generated; cases. *)
From Coq Require Import List NArith ZArith Ascii String Bool Lia Permutation Sorted Arith.
From Verif Require Import Base StrLib SemverModel OsvModel IdModel PkgModel DbModel UrlModel AdvModel MtimeModel OsvAdvModel SortProofs PropsMtime
  PropsOsvAdv PropsOsvAdv2 WebModel WebSpec WebProofs Calendar PropsWeb PropsWeb2.
From Verif Require PropsAudit2.
Import ListNotations.
Local Open Scope string_scope.

Section Site.
  Context (x : externals) (lower escape : string -> string) (cal : Z -> Z * N * N) (day_of : string -> option Z) (today : Z)
    (mt : mod_times) (head : option tree).
  Notation render := (render_site x lower escape cal day_of today mt head).
  Notation data := (advisory_data x cal mt head).
  (** An advisory that can be shown: its file is in the repository with a history, its dates can be written, and it can be
      exported to OSV. *)
  Definition showable (a : full_advisory) : Prop := exists d reported issued modified o,
    data a = Ok d /\ friendly_date (m_date (f_meta a)) = Ok reported /\ friendly_date (s_created d) = Ok issued /\
    friendly_date (s_modified d) = Ok modified /\ from_rustsec x cal mt (s_path d) a = Ok o.
  Lemma omap_some {A B} (f : A -> outcome B) l : (forall a, In a l -> exists b, f a = Ok b) -> exists r, omap f l = Ok r.
  Proof. apply PropsAudit2.omap_ok_iff. Qed.
  Lemma had_all (f : site_adv -> outcome entry) keys l k g : (forall d, In d l -> exists e, f d = Ok e) -> In (k, g) (group_all keys l) -> exists es, omap f g = Ok es.
  Proof. intros H I. apply group_all_in in I as [_ ->]. apply omap_some. intros d J. apply having_in in J as [J _]. exact (H d J). Qed.
  (** Only an empty database, or an advisory that cannot be shown, keeps the site from being generated. *)
  Theorem C76_renders_exactly db : (forall a d, In a db -> data a = Ok d -> day_of (s_created d) <> None) ->
    ((exists ws, render db = Ok ws) <-> db <> [] /\ forall a, In a db -> showable a).
  Proof.
    intros DO. split.
    - intros [ws H]. destruct (render_inv _ _ _ _ _ _ _ _ _ _ H) as (ds & pages & listing & packages & keywords & categories & n & feed & D & P & L & K & _ & _ & N & F & _).
      pose proof (data_advs _ _ _ _ _ _ D) as DB. pose proof (newest_first_ok ds) as [PM _]. split.
      + intros ->. cbn in D. injection D as <-. cbn in F. rewrite firstn_nil in F. discriminate F.
      + intros a I. rewrite <- DB in I. apply in_map_iff in I as (d & <- & I).
        assert (DD : data (s_adv d) = Ok d).
        { pose proof I as J. apply (PropsAudit2.omap_in _ _ _ _ D) in J as (b & _ & J). pose proof J as J'. apply C76_data in J' as (c & _ & <- & _). exact J. }
        destruct (proj1 (PropsAudit2.omap_ok_iff _ _) (ex_intro _ _ P) d I) as [w X]. unfold advisory_page in X.
        destruct (friendly_date (m_date (f_meta (s_adv d)))) as [r| |] eqn:E1; cbn [obind] in X; try discriminate X.
        destruct (friendly_date (s_created d)) as [i| |] eqn:E2; cbn [obind] in X; try discriminate X.
        assert (E3 : exists m, friendly_date (s_modified d) = Ok m).
        { destruct (String.eqb_spec (s_created d) (s_modified d)) as [<-|NE]; [eauto|]. cbn [obind] in X.
          destruct (friendly_date (s_modified d)) as [m| |]; cbn [obind] in X; try discriminate X. eauto. }
        destruct E3 as [m E3].
        assert (IL : In d (newest_first ds)) by exact (Permutation_in _ PM I).
        assert (G : In (s_package d, having (fun d => [s_package d]) (s_package d) (newest_first ds)) (group_all (fun d => [s_package d]) (newest_first ds))).
        { apply group_all_in. split; [apply having_keys; exists d; split; [exact IL|left; reflexivity]|reflexivity]. }
        destruct (proj1 (PropsAudit2.omap_ok_iff _ _) (ex_intro _ _ K) _ G) as [w2 Y]. unfold package_write in Y. destruct (group_write _ _ _) as [h| |]; cbn [obind] in Y; try discriminate Y.
        cbn [snd] in Y. destruct (omap (osv_of x cal mt head) _) as [os| |] eqn:O in Y; cbn [obind] in Y; try discriminate Y.
        destruct (proj1 (PropsAudit2.omap_ok_iff _ _) (ex_intro _ _ O) d) as [o Z].
        { apply having_in. split; [exact IL|left; reflexivity]. }
        unfold osv_of in Z. pose proof DD as DD'. apply C76_data in DD' as (c & _ & _ & _ & GP & _). rewrite GP in Z. exists d, r, i, m, o. auto.
    - intros [NE SH]. assert (D : exists ds, omap data db = Ok ds).
      { apply omap_some. intros a I. destruct (SH a I) as (d & _ & _ & _ & _ & A & _). eauto. }
      destruct D as [ds D]. pose proof (newest_first_ok ds) as [PM _]. set (l := newest_first ds) in *.
      assert (SD : forall d, In d ds -> exists reported issued modified o, friendly_date (m_date (f_meta (s_adv d))) = Ok reported /\ friendly_date (s_created d) = Ok issued /\
        friendly_date (s_modified d) = Ok modified /\ from_rustsec x cal mt (s_path d) (s_adv d) = Ok o /\ git_path head (s_path d) = Ok (s_path d) /\ day_of (s_created d) <> None).
      { intros d I. apply (PropsAudit2.omap_in _ _ _ _ D) in I as (a & I & A). destruct (SH a I) as (d' & r & i & m & o & A' & E1 & E2 & E3 & E4).
        rewrite A in A'. injection A' as <-. pose proof A as A'. apply C76_data in A' as (c & _ & EA & _ & GP & _). exists r, i, m, o. rewrite EA. repeat (split; [assumption|]). exact (DO a d I A). }
      assert (IL : forall d, In d l -> In d ds) by (intros d; exact (Permutation_in _ (Permutation_sym PM))).
      assert (AP : forall d, In d ds -> exists p, advisory_page d = Ok p).
      { intros d I. destruct (SD d I) as (r & i & m & o & E1 & E2 & E3 & _). unfold advisory_page. rewrite E1. cbn [obind]. rewrite E2. cbn [obind].
        destruct (String.eqb _ _); cbn [obind]; [eauto|]. rewrite E3. cbn [obind]. eauto. }
      assert (LE : forall d, In d l -> exists e, list_entry d = Ok e).
      { intros d I. destruct (SD d (IL d I)) as (r & i & m & o & E1 & E2 & _). unfold list_entry. rewrite E2. cbn [obind]. eauto. }
      assert (GW : forall folder what keys, exists ws, omap (group_write folder what) (group_all keys l) = Ok ws).
      { intros folder what keys. apply omap_some. intros [k g] I. unfold group_write. cbn [fst snd]. destruct (had_all list_entry keys l k g LE I) as [es ->]. cbn [obind]. eauto. }
      assert (PW : exists ws, omap (package_write x cal mt head) (group_all (fun d => [s_package d]) l) = Ok ws).
      { apply omap_some. intros [k g] I. unfold package_write, group_write. cbn [fst snd]. destruct (had_all list_entry _ l k g LE I) as [es ->]. cbn [obind].
        assert (O : exists os, omap (osv_of x cal mt head) g = Ok os).
        { apply omap_some. intros d J. apply group_all_in in I as [_ ->]. apply having_in in J as [J _]. destruct (SD d (IL d J)) as (r & i & m & o & _ & _ & _ & E4 & GP & _).
          unfold osv_of. rewrite GP. eauto. }
        destruct O as [os ->]. cbn [obind]. eauto. }
      assert (WK : forall k, (forall d, In d k -> In d l) -> exists n, last_week_len day_of today k = Ok n).
      { induction k as [|d k IH]; intros S; cbn [last_week_len]; [eauto|]. destruct (SD d (IL d (S d (or_introl eq_refl)))) as (r & i & m & o & _ & _ & _ & _ & _ & Q).
        destruct (day_of (s_created d)) as [z|]; [|congruence]. destruct (today - 8 <? z)%Z; [|eauto]. destruct IH as [n ->]; [intros e E; apply S; right; exact E|]. cbn [obind]. eauto. }
      destruct (WK l (fun d I => I)) as [w W].
      assert (N : exists n, feed_len day_of today l = Ok n /\ (1 <= n)%nat /\ (n <= List.length l \/ n = w \/ n = 10)%nat).
      { unfold feed_len. rewrite W. cbn [obind]. eexists. split; [reflexivity|]. unfold MIN_FEED_LEN.
        assert (LL : (1 <= List.length l)%nat).
        { rewrite <- (Permutation_length PM). rewrite <- (map_length s_adv), (data_advs _ _ _ _ _ _ D). destruct db; [congruence|cbn; lia]. }
        destruct (Nat.ltb_spec (List.length l) 10); [lia|]. destruct (Nat.ltb_spec 10 w); lia. }
      destruct N as (n & N & N1 & _).
      assert (F : exists pg, render_feed escape (firstn n l) = Ok pg).
      { unfold render_feed. destruct (firstn n l) as [|f r] eqn:FN.
        - exfalso. destruct l as [|d l'] eqn:EL; [|destruct n; [lia|discriminate FN]]. apply NE. rewrite <- (data_advs _ _ _ _ _ _ D).
          apply Permutation_sym, Permutation_nil in PM. rewrite PM. reflexivity.
        - assert (O : exists es, omap (feed_item escape) (f :: r) = Ok es).
          { apply omap_some. intros d I. assert (J : In d l) by (rewrite <- (firstn_skipn n l), FN; apply in_or_app; left; exact I). unfold feed_item.
            destruct (AP d (IL d J)) as [p ->]. cbn [obind]. destruct (SD d (IL d J)) as (r0 & i & m & o & _ & E2 & _). rewrite E2. cbn [obind]. eauto. }
          destruct O as [es ->]. cbn [obind]. eauto. }
      destruct F as [feed F].
      assert (PG : exists pages, omap (fun d => let? p := advisory_page d in Ok ("advisories/" ++ s_id d ++ ".html", p)) ds = Ok pages).
      { apply omap_some. intros d I. destruct (AP d I) as [p ->]. cbn [obind]. eauto. }
      destruct PG as [pages PG]. destruct (omap_some list_entry l LE) as [listing LS]. destruct PW as [packages PW].
      destruct (GW "keywords" "with keyword" slugs) as [keywords KW]. destruct (GW "categories" "in category" category_names) as [categories CW].
      unfold render_site. rewrite D. cbn [obind]. rewrite PG. cbn [obind]. fold l. rewrite LS. cbn [obind]. rewrite PW. cbn [obind]. rewrite KW. cbn [obind]. rewrite CW. cbn [obind].
      rewrite N. cbn [obind]. rewrite F. cbn [obind]. eauto.
  Qed.
End Site.

(** ** Cases *)
Definition lower1 (c : ascii) : ascii := let n := N_of_ascii c in if (N.leb 65 n && N.leb n 90)%bool then ascii_of_N (n + 32) else c.
Fixpoint lower_ascii (s : string) : string := match s with EmptyString => "" | String c r => String (lower1 c) (lower_ascii r) end.
Definition wext : externals := mkExt iso_civil (fun s => Some s) req_of false.
Definition wdoc (id package date : string) (aliases related categories keywords : list string) : ttable :=
  [("advisory", TTab [("id", TStr id); ("package", TStr package); ("date", TStr date); ("collection", TStr "crates");
                      ("aliases", TArr (map TStr aliases)); ("related", TArr (map TStr related));
                      ("categories", TArr (map TStr categories)); ("keywords", TArr (map TStr keywords))]);
   ("versions", TTab [("patched", TArr [TStr "> 2.1.0"])])].
Definition wdecode (ts : list ttable) : list full_advisory :=
  match omap (decode_advisory wext) ts with Ok l => l | _ => [] end.
(** Commit 1 (2024-01-01) adds the first two files, commit 2 (2024-01-03) changes the first and adds a third. *)
Definition wfile (package id : string) : string := "crates/" ++ package ++ "/" ++ id ++ ".md".
Definition wtimes (files1 files2 : list path) : mod_times :=
  mkTimes (map (fun p => (p, mkTime (day_1 + 200000)%Z 0)) files2 ++ map (fun p => (p, mkTime day_1 0)) files1)%list
          (map (fun p => (p, mkTime day_1 0)) files1 ++ map (fun p => (p, mkTime (day_1 + 200000)%Z 0)) files2)%list.
Definition wmt : mod_times := wtimes [wfile "Zeta" "RUSTSEC-2023-0001"; wfile "alpha" "RUSTSEC-2023-0002"] [wfile "Zeta" "RUSTSEC-2023-0001"; wfile "alpha" "RUSTSEC-2024-0001"].
Definition wdb : list full_advisory := wdecode
  [wdoc "RUSTSEC-2023-0001" "Zeta" "2023-12-31" ["CVE-2023-0001"] [] ["memory-corruption"] ["Buffer Overflow"; "heap"];
   wdoc "RUSTSEC-2023-0002" "alpha" "2023-12-30" [] ["CVE-2023-0001"] ["denial-of-service"] ["heap"];
   wdoc "RUSTSEC-2024-0001" "alpha" "2024-01-02" ["GHSA-aaaa-bbbb-cccc"] [] [] []].
Definition whead : option tree := Some [].
Definition wrender := render_site wext lower_ascii (fun s => s) gregorian iso_day.
Definition group_view (o : option page) : option (string * list (string * string)) :=
  match o with Some (PgGroup t es) => Some (t, map (fun e => (e_title e, e_date e)) es) | _ => None end.
Lemma view {A} (f : list write -> A) o v : match o with Ok ws => Some (f ws) | _ => None end = Some v -> exists ws, o = Ok ws /\ f ws = v.
Proof. destruct o as [ws| |]; [|discriminate|discriminate]. intros [= <-]. exists ws. auto. Qed.
Example C76_nonvacuous : exists ws, wrender 19726%Z wmt whead wdb = Ok ws /\
  NoDup (map (fun a => id_string (m_id (f_meta a))) wdb) /\ (forall a, In a wdb -> m_package (f_meta a) <> "index") /\
  group_view (site_get ws "packages/alpha.html") = Some ("Advisories for package 'alpha'",
    [("RUSTSEC-2024-0001: Vulnerability in alpha", "January  3, 2024"); ("RUSTSEC-2023-0002: Vulnerability in alpha", "January  1, 2024")]) /\
  group_view (site_get ws "keywords/heap.html") = Some ("Advisories with keyword 'heap'",
    [("RUSTSEC-2023-0001: Vulnerability in Zeta", "January  1, 2024"); ("RUSTSEC-2023-0002: Vulnerability in alpha", "January  1, 2024")]) /\
  group_view (site_get ws "keywords/Buffer-Overflow.html") = Some ("Advisories with keyword 'Buffer-Overflow'", [("RUSTSEC-2023-0001: Vulnerability in Zeta", "January  1, 2024")]) /\
  site_get ws "packages/index.html" = Some (PgIndex "Packages" [mkItem "alpha" "/packages/alpha.html" (Some 2%N); mkItem "Zeta" "/packages/Zeta.html" (Some 1%N)]).
Proof.
  assert (E : match wrender 19726%Z wmt whead wdb with
    | Ok ws => Some (group_view (site_get ws "packages/alpha.html"), group_view (site_get ws "keywords/heap.html"), group_view (site_get ws "keywords/Buffer-Overflow.html"),
                     site_get ws "packages/index.html")
    | _ => None end =
    Some (Some ("Advisories for package 'alpha'", [("RUSTSEC-2024-0001: Vulnerability in alpha", "January  3, 2024"); ("RUSTSEC-2023-0002: Vulnerability in alpha", "January  1, 2024")]),
          Some ("Advisories with keyword 'heap'", [("RUSTSEC-2023-0001: Vulnerability in Zeta", "January  1, 2024"); ("RUSTSEC-2023-0002: Vulnerability in alpha", "January  1, 2024")]),
          Some ("Advisories with keyword 'Buffer-Overflow'", [("RUSTSEC-2023-0001: Vulnerability in Zeta", "January  1, 2024")]),
          Some (PgIndex "Packages" [mkItem "alpha" "/packages/alpha.html" (Some 2%N); mkItem "Zeta" "/packages/Zeta.html" (Some 1%N)]))) by (vm_compute; reflexivity).
  apply (view (fun ws => (group_view (site_get ws "packages/alpha.html"), group_view (site_get ws "keywords/heap.html"), group_view (site_get ws "keywords/Buffer-Overflow.html"),
                     site_get ws "packages/index.html"))) in E as (ws & W & E).
  apply pair_equal_spec in E as [E E4]. apply pair_equal_spec in E as [E E3]. apply pair_equal_spec in E as [E1 E2].
  exists ws. split; [exact W|]. split.
  { replace (map (fun a => id_string (m_id (f_meta a))) wdb) with ["RUSTSEC-2023-0001"; "RUSTSEC-2023-0002"; "RUSTSEC-2024-0001"] by (vm_compute; reflexivity).
    repeat constructor; cbn; intuition discriminate. }
  split; [|auto]. intros a I Q. assert (K : In "index" (map (fun a => m_package (f_meta a)) wdb)) by (rewrite <- Q; apply (in_map (fun a => m_package (f_meta a))), I).
  replace (map (fun a => m_package (f_meta a)) wdb) with ["Zeta"; "alpha"; "alpha"] in K by (vm_compute; reflexivity). cbn in K. intuition discriminate.
Qed.

(** A package (keyword, category) called "index" takes the place of the index page, which is lost. *)
Theorem C76_index_refuted : exists db ws es, wrender 19726%Z (wtimes [wfile "index" "RUSTSEC-2023-0001"; wfile "alpha" "RUSTSEC-2023-0002"] []) whead db = Ok ws /\
  map (fun a => m_package (f_meta a)) db = ["index"; "alpha"] /\
  site_get ws "packages/index.html" = Some (PgGroup "Advisories for package 'index'" es) /\ map (fun e => s_package (e_adv e)) es = ["index"].
Proof.
  exists (wdecode [wdoc "RUSTSEC-2023-0001" "index" "2023-12-31" [] [] [] []; wdoc "RUSTSEC-2023-0002" "alpha" "2023-12-31" [] [] [] []]).
  set (o := wrender _ _ _ _).
  assert (E : match o with Ok ws => Some (match site_get ws "packages/index.html" with Some (PgGroup t es) => (t, map (fun e => s_package (e_adv e)) es) | _ => ("", []) end) | _ => None end
    = Some ("Advisories for package 'index'", ["index"])) by (vm_compute; reflexivity).
  apply (view (fun ws => match site_get ws "packages/index.html" with Some (PgGroup t es) => (t, map (fun e => s_package (e_adv e)) es) | _ => ("", []) end)) in E as (ws & W & E).
  exists ws. destruct (site_get ws "packages/index.html") as [[| | |t es| | | |]|]; try discriminate E. apply pair_equal_spec in E as [-> E].
  exists es. split; [exact W|]. split; [vm_compute; reflexivity|]. split; [reflexivity|exact E].
Qed.
(** A category named twice lists the advisory twice. *)
Theorem C76_category_twice_refuted : exists db ws, wrender 19726%Z wmt whead db = Ok ws /\
  group_view (site_get ws "categories/memory-corruption.html") = Some ("Advisories in category 'memory-corruption'",
    [("RUSTSEC-2023-0001: Vulnerability in Zeta", "January  1, 2024"); ("RUSTSEC-2023-0001: Vulnerability in Zeta", "January  1, 2024")]).
Proof.
  exists (wdecode [wdoc "RUSTSEC-2023-0001" "Zeta" "2023-12-31" [] [] ["memory-corruption"; "memory-corruption"] []]).
  apply (view (fun ws => group_view (site_get ws "categories/memory-corruption.html"))). vm_compute. reflexivity.
Qed.
(** One advisory with a date that loads but has no dashes, or an empty database, keeps the whole site from being generated. *)
Theorem C76_generated_refuted :
  let basic := mkExt (fun s => if String.eqb s "20231231" then Some (2023%Z, 12%N, 31%N) else iso_civil s) (fun s => Some s) req_of false in
  wrender 19726%Z wmt whead [] = Panic /\
  exists a, decode_advisory basic (wdoc "RUSTSEC-2023-0001" "Zeta" "20231231" [] [] [] []) = Ok a /\
    render_site basic lower_ascii (fun s => s) gregorian iso_day 19726%Z wmt whead [a] = Panic /\
    exists d, advisory_data basic gregorian wmt whead a = Ok d.
Proof.
  cbv zeta. split; [reflexivity|]. eexists. split; [vm_compute; reflexivity|]. split; [vm_compute; reflexivity|]. eexists. vm_compute. reflexivity.
Qed.

(** Search: an identifier, a package; in any case, and with spaces around it. *)
Definition trim_spaces (s : string) : string := if String.eqb s " alpha " then "alpha" else s.
Definition wsearch (ws : list write) (text : string) : answer :=
  match site_get ws "js/index.js" with Some (PgSearch ids packages) => search lower_ascii trim_spaces ids packages text | _ => ScriptError end.
Example C77_nonvacuous : exists ws, wrender 19726%Z wmt whead wdb = Ok ws /\
  wsearch ws "ghsa-AAAA-bbbb-cccc" = OpenPage "advisories/RUSTSEC-2024-0001.html" /\
  wsearch ws "cve-2023-0001" = ShowResults ["RUSTSEC-2023-0001"; "RUSTSEC-2023-0002"] /\
  wsearch ws "CVE-2023-0002" = NoResults /\ wsearch ws " alpha " = OpenPage "packages/alpha.html" /\
  (exists pg, site_get ws "packages/alpha.html" = Some pg) /\
  (forall n, four_digit_year n -> iso_day (day_text n) = Some n) /\
  (forall p t, lookup p (mt_ctimes wmt) = Some t -> four_digit_year (local_day t)) /\
  match site_get ws "feed.xml" with
  | Some (PgFeed u es) => u = "2024-01-03T12:00:00+00:00" /\ map (fun e => (fe_url e, fe_published e, fe_updated e)) es =
      [("https://rustsec.org/advisories/RUSTSEC-2024-0001.html", "2024-01-03T12:00:00+00:00", "2024-01-03T12:00:00+00:00");
       ("https://rustsec.org/advisories/RUSTSEC-2023-0001.html", "2024-01-01T12:00:00+00:00", "2024-01-03T12:00:00+00:00");
       ("https://rustsec.org/advisories/RUSTSEC-2023-0002.html", "2024-01-01T12:00:00+00:00", "2024-01-01T12:00:00+00:00")]
  | _ => False
  end.
Proof.
  pose (v := fun ws : list write => (wsearch ws "ghsa-AAAA-bbbb-cccc", wsearch ws "cve-2023-0001", wsearch ws "CVE-2023-0002", wsearch ws " alpha ",
    match site_get ws "packages/alpha.html" with Some _ => true | None => false end,
    match site_get ws "feed.xml" with Some (PgFeed u es) => Some (u, map (fun e => (fe_url e, fe_published e, fe_updated e)) es) | _ => None end)).
  assert (E : match wrender 19726%Z wmt whead wdb with Ok ws => Some (v ws) | _ => None end =
    Some (OpenPage "advisories/RUSTSEC-2024-0001.html", ShowResults ["RUSTSEC-2023-0001"; "RUSTSEC-2023-0002"], NoResults, OpenPage "packages/alpha.html", true,
          Some ("2024-01-03T12:00:00+00:00",
      [("https://rustsec.org/advisories/RUSTSEC-2024-0001.html", "2024-01-03T12:00:00+00:00", "2024-01-03T12:00:00+00:00");
       ("https://rustsec.org/advisories/RUSTSEC-2023-0001.html", "2024-01-01T12:00:00+00:00", "2024-01-03T12:00:00+00:00");
       ("https://rustsec.org/advisories/RUSTSEC-2023-0002.html", "2024-01-01T12:00:00+00:00", "2024-01-01T12:00:00+00:00")]))) by (vm_compute; reflexivity).
  apply (view v) in E as (ws & W & E). exists ws. split; [exact W|]. unfold v in E. clear v.
  apply pair_equal_spec in E as [E E6]. apply pair_equal_spec in E as [E E5]. apply pair_equal_spec in E as [E E4]. apply pair_equal_spec in E as [E E3]. apply pair_equal_spec in E as [E1 E2].
  do 4 (split; [assumption|]). split; [destruct (site_get ws "packages/alpha.html"); [eauto|discriminate]|].
  split; [exact iso_day_text|]. split.
  - intros p t L. assert (X : t = mkTime day_1 0 \/ t = mkTime (day_1 + 200000)%Z 0).
    { cbn in L. repeat match type of L with (if ?b then _ else _) = _ => destruct b; [injection L as <-; auto|] end. discriminate L. }
    destruct X as [->| ->]; vm_compute; split; discriminate.
  - destruct (site_get ws "feed.xml") as [[| | | | | | |u es]|]; try discriminate E6. apply (f_equal (fun o => match o with Some y => y | None => ("", []) end)) in E6.
    apply pair_equal_spec in E6 as [-> E6]. split; [reflexivity|exact E6].
Qed.
(** The search opens a page that does not exist for a package with a capital in its name ("Zeta" has packages/Zeta.html), and for
    what every JavaScript object has; it fails on "__proto__". *)
Theorem C77_dead_pages_refuted : exists ws, wrender 19726%Z wmt whead wdb = Ok ws /\
  wsearch ws "Zeta" = OpenPage "packages/zeta.html" /\ site_get ws "packages/zeta.html" = None /\
  (exists pg, site_get ws "packages/Zeta.html" = Some pg) /\
  wsearch ws "constructor" = OpenPage "advisories/undefined.html" /\ site_get ws "advisories/undefined.html" = None /\
  wsearch ws "__proto__" = ScriptError.
Proof.
  pose (v := fun ws : list write => (wsearch ws "Zeta", site_get ws "packages/zeta.html", match site_get ws "packages/Zeta.html" with Some _ => true | None => false end,
    wsearch ws "constructor", site_get ws "advisories/undefined.html", wsearch ws "__proto__")).
  assert (E : match wrender 19726%Z wmt whead wdb with Ok ws => Some (v ws) | _ => None end =
    Some (OpenPage "packages/zeta.html", None, true, OpenPage "advisories/undefined.html", None, ScriptError)) by (vm_compute; reflexivity).
  apply (view v) in E as (ws & W & E). exists ws. split; [exact W|]. unfold v in E. clear v.
  apply pair_equal_spec in E as [E E6]. apply pair_equal_spec in E as [E E5]. apply pair_equal_spec in E as [E E4]. apply pair_equal_spec in E as [E E3]. apply pair_equal_spec in E as [E1 E2].
  do 2 (split; [assumption|]). split; [destruct (site_get ws "packages/Zeta.html"); [eauto|discriminate]|]. auto.
Qed.
(** An identifier an advisory mentions twice is found twice, instead of opening the advisory's page. *)
Theorem C77_once_refuted : exists db ws, wrender 19726%Z wmt whead db = Ok ws /\ List.length db = 1%nat /\
  wsearch ws "CVE-2023-0001" = ShowResults ["RUSTSEC-2023-0001"; "RUSTSEC-2023-0001"].
Proof.
  exists (wdecode [wdoc "RUSTSEC-2023-0001" "Zeta" "2023-12-31" ["CVE-2023-0001"] ["CVE-2023-0001"] [] []]). set (o := wrender _ _ _ _).
  assert (E : match o with Ok ws => Some (wsearch ws "CVE-2023-0001") | _ => None end = Some (ShowResults ["RUSTSEC-2023-0001"; "RUSTSEC-2023-0001"])) by (vm_compute; reflexivity).
  apply (view (fun ws => wsearch ws "CVE-2023-0001")) in E as (ws & W & E). exists ws. split; [exact W|]. split; [vm_compute; reflexivity|exact E].
Qed.

Print Assumptions C76_listing.
Print Assumptions C76_data.
Print Assumptions C76_advisory_pages.
Print Assumptions C76_package_pages.
Print Assumptions C76_keyword_pages.
Print Assumptions C76_category_pages.
Print Assumptions C76_category_pages_once.
Print Assumptions C76_package_index.
Print Assumptions C76_keyword_index.
Print Assumptions C76_category_index.
Print Assumptions C76_no_dead_links.
Print Assumptions C77_index.
Print Assumptions C77_found.
Print Assumptions C77_search.
Print Assumptions C77_complete.
Print Assumptions C77_sound.
Print Assumptions C77_package_page.
Print Assumptions C77_feed.
Print Assumptions C77_friendly_dates.
Print Assumptions C76_renders_exactly.
Print Assumptions C76_index_refuted.
Print Assumptions C76_category_twice_refuted.
Print Assumptions C76_generated_refuted.
Print Assumptions C77_dead_pages_refuted.
Print Assumptions C77_once_refuted.
Print Assumptions reads_iso_dates.
