(** Property theorems C69: reading OSV documents of other databases. *)
From Coq Require Import List NArith ZArith Ascii String Bool Lia Permutation.
From Verif Require Import Base StrLib SemverModel OsvModel IdModel IdSpec IdProofs VerText PkgModel DbModel UrlModel ScanModel AdvModel MtimeModel
  PropsMtime OsvAdvModel OsvAdvProofs SortProofs PropsOsvAdv.
Import ListNotations.
Local Open Scope string_scope.

(** A reference names an advisory: the seventeen characters after the address of the advisory pages are an id. *)
Definition names_advisory (r : osv_reference) (i : adv_id) : Prop :=
  exists s rest, url_string (or_url r) = "https://rustsec.org/advisories/" ++ s ++ rest /\ String.length s = 17 /\ id_from_str s = Ok i.
Definition is_advisory_page (r : osv_reference) : Prop := exists t, url_string (or_url r) = "https://rustsec.org/advisories/" ++ t.

Lemma substring_app n : forall a b c, String.length a = n -> substring n (String.length b) (a ++ b ++ c) = b.
Proof.
  induction n as [|n IH]; intros a b c H; destruct a as [|x a]; try discriminate; cbn [append].
  - clear H. revert c. induction b as [|y b IHb]; intros c; cbn [append String.length].
    + destruct c; reflexivity.
    + cbn [substring]. rewrite IHb. reflexivity.
  - cbn [substring]. apply IH. cbn in H. lia.
Qed.
Lemma split_at n : forall s, n <= String.length s -> exists a b, s = a ++ b /\ String.length a = n.
Proof.
  induction n as [|n IH]; intros s H; [exists "", s; split; reflexivity|]. destruct s as [|x s]; [cbn in H; lia|].
  destruct (IH s) as (a & b & -> & L); [cbn in H; lia|]. exists (String x a), b. split; [reflexivity|]. cbn. lia.
Qed.
Lemma slice_page t : slice 31 48 (ADVISORIES_URL ++ t) =
  if Nat.leb 17 (String.length t) then Some (substring 31 17 (ADVISORIES_URL ++ t)) else None.
Proof.
  unfold slice. rewrite slength_app. change (String.length ADVISORIES_URL) with 31.
  destruct (Nat.leb_spec 48 (31 + String.length t)), (Nat.leb_spec 17 (String.length t)); try lia; reflexivity.
Qed.
Lemma page_slice s rest : String.length s = 17 -> slice 31 48 (ADVISORIES_URL ++ s ++ rest) = Some s.
Proof.
  intros L. rewrite slice_page, slength_app, L. change (Nat.leb 17 (17 + String.length rest)) with true. cbv iota. f_equal.
  pose proof (substring_app 31 ADVISORIES_URL s rest eq_refl) as P. rewrite L in P. exact P.
Qed.
Lemma imported_ok r i : is_advisory_page r -> imported_id r = Ok i <-> names_advisory r i.
Proof.
  intros [t T]. unfold imported_id, names_advisory. change "https://rustsec.org/advisories/" with ADVISORIES_URL in *. rewrite T. split.
  - rewrite slice_page. destruct (Nat.leb_spec 17 (String.length t)) as [H|]; [|discriminate].
    destruct (split_at 17 t H) as (a & b & -> & L). pose proof (substring_app 31 ADVISORIES_URL a b eq_refl) as P. rewrite L in P. rewrite P. intros E.
    exists a, b. split; [reflexivity|]. split; [exact L|]. destruct (id_from_str a); congruence.
  - intros (s & rest & E & L & I). rewrite E, page_slice by exact L. rewrite I. reflexivity.
Qed.
Lemma imported_cases r : (exists i, imported_id r = Ok i) \/ imported_id r = Panic.
Proof. unfold imported_id. destruct (slice 31 48 _) as [s|]; [|right; reflexivity]. destruct (id_from_str s) as [i| |]; eauto. Qed.
Lemma page_iff r : starts_with ADVISORIES_URL (url_string (or_url r)) = true <-> is_advisory_page r.
Proof. apply starts_with_spec. Qed.
Lemma omap_total {A B} (f : A -> outcome B) l : (forall a, (exists b, f a = Ok b) \/ f a = Panic) ->
  (exists l', omap f l = Ok l' /\ forall b, In b l' <-> exists a, In a l /\ f a = Ok b) \/
  (omap f l = Panic /\ exists a, In a l /\ f a = Panic).
Proof.
  intros T. induction l as [|a l IH]; cbn [omap].
  - left. exists []. split; [reflexivity|]. intros b. cbn. split; [tauto|]. intros (a & [] & _).
  - destruct (T a) as [[b E]|E]; rewrite E; cbn [obind]; [|right; split; [reflexivity|]; exists a; split; [left; reflexivity|exact E]].
    destruct IH as [(l' & -> & H)|(-> & a' & I & P)]; cbn [obind].
    + left. exists (b :: l'). split; [reflexivity|]. intros b'. cbn [In]. rewrite H. split.
      * intros [<-|(a' & I & P)]; [exists a; tauto|exists a'; tauto].
      * intros (a' & [<-|I] & P); [left; congruence|right; exists a'; tauto].
    + right. split; [reflexivity|]. exists a'. split; [right; exact I|exact P].
Qed.

(** The advisories a document was imported from are those its references name, each once. *)
Theorem C69_imported_ids : forall o ids, rustsec_refs_imported o = Ok ids ->
  NoDup ids /\ forall i, In i ids <-> exists r, In r (o_references o) /\ names_advisory r i.
Proof.
  intros o ids. unfold rustsec_refs_imported.
  destruct (omap_total imported_id (filter (fun r => starts_with ADVISORIES_URL (url_string (or_url r))) (o_references o)) imported_cases) as [(l & E & H)|(E & _)];
    rewrite E; cbn [obind]; [|discriminate]. intros [= <-]. split; [apply (sort_set_nodup id_cmp id_cmp_laws)|]. intros i.
  change (dedup id_cmp (sort_list id_cmp l)) with (sort_set id_cmp l). rewrite (sort_set_in id_cmp id_cmp_laws), H. split.
  - intros (r & I & P). apply filter_In in I as [I S]. apply page_iff in S. exists r. split; [exact I|]. apply imported_ok; assumption.
  - intros (r & I & P). assert (S : is_advisory_page r) by (destruct P as (s & rest & U & _); exists (s ++ rest); exact U).
    exists r. split; [apply filter_In; split; [exact I|apply page_iff, S]|]. apply imported_ok; assumption.
Qed.
Print Assumptions C69_imported_ids.

(** It never fails, but panics for a reference to an advisory page which names no advisory. *)
Theorem C69_import_panics : forall o,
  rustsec_refs_imported o <> Err /\
  (rustsec_refs_imported o = Panic <-> exists r, In r (o_references o) /\ is_advisory_page r /\ forall i, ~ names_advisory r i).
Proof.
  intros o. unfold rustsec_refs_imported.
  destruct (omap_total imported_id (filter (fun r => starts_with ADVISORIES_URL (url_string (or_url r))) (o_references o)) imported_cases) as [(l & E & H)|(E & r & I & P)];
    rewrite E; cbn [obind]; (split; [discriminate|]).
  - split; [discriminate|]. intros (r & I & S & N). exfalso. destruct (imported_cases r) as [[i K]|K]; [apply (N i), imported_ok; assumption|].
    assert (J : In r (filter (fun r => starts_with ADVISORIES_URL (url_string (or_url r))) (o_references o))) by (apply filter_In; split; [exact I|apply page_iff, S]).
    clear - E J K. revert l E. induction (filter (fun r => starts_with ADVISORIES_URL (url_string (or_url r))) (o_references o)) as [|a l0 IH]; intros l E; [destruct J|].
    cbn [omap] in E. destruct J as [->|J]; [rewrite K in E; discriminate|]. destruct (imported_id a); cbn [obind] in E; try discriminate.
    destruct (omap imported_id l0) as [l1| |]; cbn [obind] in E; try discriminate. exact (IH J l1 eq_refl).
  - split; [|reflexivity]. intros _. apply filter_In in I as [I S]. apply page_iff in S. exists r. split; [exact I|]. split; [exact S|].
    intros i N. apply imported_ok in N; [congruence|exact S].
Qed.
Print Assumptions C69_import_panics.

(** The order of the references, and repeated ones, do not matter. *)
Theorem C69_import_order : forall o o', (forall r, In r (o_references o) <-> In r (o_references o')) ->
  rustsec_refs_imported o = rustsec_refs_imported o'.
Proof.
  intros o o' H.
  destruct (rustsec_refs_imported o) as [ids| |] eqn:E.
  - destruct (rustsec_refs_imported o') as [ids'| |] eqn:E'.
    + f_equal. apply (strict_unique id_cmp id_cmp_laws).
      * unfold rustsec_refs_imported in E. obinv E. injection E as <-. apply (sort_set_sorted id_cmp id_cmp_laws).
      * unfold rustsec_refs_imported in E'. obinv E'. injection E' as <-. apply (sort_set_sorted id_cmp id_cmp_laws).
      * intros i. rewrite (proj2 (C69_imported_ids o ids E)), (proj2 (C69_imported_ids o' ids' E')). split; intros (r & I & N); exists r; (split; [apply H, I|exact N]).
    + exfalso. exact (proj1 (C69_import_panics o') E').
    + apply C69_import_panics in E' as (r & I & S & N). exfalso.
      assert (P : rustsec_refs_imported o = Panic) by (apply C69_import_panics; exists r; split; [apply H, I|]; split; assumption). congruence.
  - exfalso. exact (proj1 (C69_import_panics o) E).
  - symmetry. apply C69_import_panics. apply C69_import_panics in E as (r & I & S & N). exists r. split; [apply H, I|]. split; assumption.
Qed.

(** The crates are the names of the affected packages of the ecosystem crates.io, each once, whatever their order. *)
Theorem C69_crates : forall o,
  NoDup (osv_crates o) /\
  (forall n, In n (osv_crates o) <-> exists a, In a (o_affected o) /\ op_ecosystem (oa_package a) = "crates.io" /\ op_name (oa_package a) = n) /\
  forall o', (forall a, In a (o_affected o) <-> In a (o_affected o')) -> osv_crates o = osv_crates o'.
Proof.
  intros o. unfold osv_crates. split; [apply (sort_set_nodup str_cmp str_cmp_laws)|]. split.
  - intros n. refine (iff_trans (sort_set_in str_cmp str_cmp_laws _ _) _). rewrite in_map_iff. split.
    + intros (a & <- & I). apply filter_In in I as [I E]. apply String.eqb_eq in E. exists a. auto.
    + intros (a & I & E & <-). exists a. split; [reflexivity|]. apply filter_In. split; [exact I|]. apply String.eqb_eq, E.
  - intros o' H. apply (sort_set_ext str_cmp str_cmp_laws). intros n. rewrite !in_map_iff.
    split; intros (a & E & I); exists a; (split; [exact E|]); apply filter_In; apply filter_In in I as [I S]; (split; [apply H, I|exact S]).
Qed.
Print Assumptions C69_crates.

(** What the tool exports itself names the advisory (ids of seventeen characters, which are those with four digits). *)
Theorem C69_export_names_itself : forall x cal mt path a o ids,
  let page := "https://rustsec.org/advisories/" ++ id_string (m_id (f_meta a)) ++ ".html" in
  (forall u, url_parse (x_norm x) page = Some u -> url_string u = page) ->
  id_from_str (id_string (m_id (f_meta a))) = Ok (m_id (f_meta a)) -> String.length (id_string (m_id (f_meta a))) = 17 ->
  from_rustsec x cal mt path a = Ok o -> rustsec_refs_imported o = Ok ids -> In (m_id (f_meta a)) ids.
Proof.
  intros x cal mt path a o ids page U I L H R. apply (proj2 (C69_imported_ids o ids R)).
  unfold from_rustsec, url_unwrap in H. fold page in H.
  destruct (url_parse (x_norm x) ("https://crates.io/crates/" ++ m_package (f_meta a))) as [u1|]; cbn [obind] in H; [|discriminate].
  destruct (url_parse (x_norm x) page) as [u2|] eqn:E; cbn [obind] in H; [|discriminate]. obinv H. injection H as <-. cbn [o_references].
  exists (reference_of u2). split; [right; left; reflexivity|]. exists (id_string (m_id (f_meta a))), ".html". split; [exact (U u2 eq_refl)|]. split; [exact L|exact I].
Qed.

(** An id with five digits is read as another id, and a reference to the list of advisories panics. *)
Definition refs_doc (l : list string) : osv_advisory :=
  mkOsvAdv None (mkId KGhsa None "GHSA-aaaa-bbbb-cccc") "" "" None [] [] "" "" [] []
    (map (fun s => mkORef RWeb (match url_parse (fun s => Some s) s with Some u => u | None => mkUrl "" None None end)) l) None.
Theorem C69_import_is_safe_refuted :
  rustsec_refs_imported (refs_doc ["https://rustsec.org/advisories/RUSTSEC-2024-10000.html"]) = Ok [mkId KRustSec (Some 2024%N) "RUSTSEC-2024-1000"] /\
  rustsec_refs_imported (refs_doc ["https://rustsec.org/advisories/"]) = Panic /\
  rustsec_refs_imported (refs_doc ["https://rustsec.org/advisories/index.html?page=12"]) = Ok [mkId KOther None "index.html?page=1"].
Proof. repeat split; vm_compute; reflexivity. Qed.

(** The tool does not read every OSV document: the format requires only the id and the time of the last change, and has more
    kinds of references and events. *)
Definition minimal_doc : list (string * json) := [("id", JStr "GHSA-aaaa-bbbb-cccc"); ("modified", JStr "2024-01-01T00:00:00Z")].
Definition readable_doc (refs affected : list json) : json :=
  JObj (minimal_doc ++ [("published", JStr "2024-01-01T00:00:00Z"); ("summary", JStr "A"); ("details", JStr "B");
                        ("references", JArr refs); ("affected", JArr affected)])%list.
Definition ref_doc (k : string) : json := JObj [("type", JStr k); ("url", JStr "https://a.b/c")].
Definition affected_doc (e : string) (extra : list (string * json)) : json :=
  JObj ([("package", JObj [("ecosystem", JStr "crates.io"); ("name", JStr "foo")]);
         ("ranges", JArr [JObj [("type", JStr "SEMVER"); ("events", JArr [JObj [("introduced", JStr "0")]; JObj [(e, JStr "1.0.0")]])]])] ++ extra)%list.
Theorem C69_reads_osv_refuted :
  let read := osv_of_json (fun s => Some s) in let dbs := [("database_specific", JObj [])] in
  is_ok (read (readable_doc [ref_doc "WEB"] [affected_doc "fixed" dbs])) = true /\
  read (JObj minimal_doc) = Err /\
  read (readable_doc [ref_doc "DETECTION"] [affected_doc "fixed" dbs]) = Err /\
  read (readable_doc [ref_doc "WEB"] [affected_doc "limit" dbs]) = Err /\
  read (readable_doc [ref_doc "WEB"] [affected_doc "fixed" []]) = Err.
Proof. repeat split; vm_compute; reflexivity. Qed.

Example C69_nonvacuous : exists o, rustsec_refs_imported o =
  Ok [mkId KRustSec (Some 2021%N) "RUSTSEC-2021-0003"; mkId KRustSec (Some 2024%N) "RUSTSEC-2024-0001"].
Proof.
  exists (refs_doc ["https://rustsec.org/advisories/RUSTSEC-2024-0001.html"; "https://a.b/c"; "https://rustsec.org/advisories/RUSTSEC-2021-0003";
    "https://rustsec.org/advisories/RUSTSEC-2024-0001.json"]). vm_compute. reflexivity.
Qed.
