(** Property theorems C68: exported OSV documents can be read back and lose nothing. *)
From Coq Require Import List NArith ZArith Ascii String Bool Lia.
From Verif Require Import Base StrLib SemverModel OsvModel OsvSpec IdModel IdSpec IdProofs VerText
  PkgModel DbModel CvssText UrlModel UrlSpec UrlProofs ScanModel AdvModel MtimeModel LintSpec LintProofs2 PropsScan PropsCvssText
  PropsMtime OsvAdvModel OsvAdvSpec OsvAdvProofs PropsOsvAdv.
Import ListNotations.
Local Open Scope string_scope.

(** ** Values that are read back as they are *)
Definition good_id (i : adv_id) : Prop := id_from_str (id_string i) = Ok i.
Definition good_url (norm : string -> option string) (u : url) : Prop := url_parse norm (url_string u) = Some u.
Definition good_path (p : list string) : Prop := exists s, path_string p = Ok s /\ path_from_str s = Ok p.
Definition good_category (c : category) : Prop := category_from_str (category_name c) = c.
Definition good_informational (i : informational) : Prop := informational_from_str (informational_str i) = i.
Definition good_severity (s : osv_severity) : Prop :=
  match s with SevV2 v => parse2 (print2 v) = Ok v | SevV3 b => parse3 (print3 b) = Ok b | SevV4 v => parse4 (print4 v) = Ok v end.
Definition good_cvss (c : cvss) : Prop := cvss_parse (cvss_print c) = Ok c /\ good_severity (severity_of c).
Definition opt_good {A} (P : A -> Prop) (o : option A) : Prop := forall a, o = Some a -> P a.

Lemma omap_map {A B} (f : B -> outcome A) (g : A -> B) l : (forall a, In a l -> f (g a) = Ok a) -> omap f (map g l) = Ok l.
Proof.
  induction l as [|a l IH]; intros H; [reflexivity|]. cbn [map omap]. rewrite H by (left; reflexivity). cbn [obind].
  rewrite IH by (intros; apply H; right; assumption). reflexivity.
Qed.
Lemma list_back {A} (f : json -> outcome A) (g : A -> json) l : (forall a, In a l -> f (g a) = Ok a) -> d_list f (j_list g l) = Ok l.
Proof. intros H. apply omap_map, H. Qed.
Lemma opt_back {A} (f : json -> outcome A) (g : A -> json) o : (forall a, o = Some a -> f (g a) = Ok a /\ g a <> JNull) -> d_opt f (j_opt g o) = Ok o.
Proof.
  intros H. destruct o as [a|]; [|reflexivity]. destruct (H a eq_refl) as [E N]. unfold d_opt, j_opt. rewrite E. destruct (g a); cbn [obind]; congruence.
Qed.
Lemma strs_back l : d_list d_str (j_list JStr l) = Ok l.
Proof. apply list_back. reflexivity. Qed.
Lemma path_back p : good_path p -> d_from path_from_str (j_path p) = Ok p.
Proof. intros (s & E & P). unfold j_path. rewrite E. exact P. Qed.
Lemma paths_back l : Forall good_path l -> d_list (d_from path_from_str) (j_list j_path l) = Ok l.
Proof. intros F. apply list_back. intros p I. apply path_back. rewrite Forall_forall in F. apply F, I. Qed.
Lemma ids_back l : Forall good_id l -> d_list d_id (j_list j_id l) = Ok l.
Proof. intros F. apply list_back. intros i I. rewrite Forall_forall in F. exact (F i I). Qed.
Lemma event_back e : d_event (j_event e) = Ok e.
Proof. destruct e; reflexivity. Qed.
Lemma range_back r : d_range (j_range r) = Ok r.
Proof.
  unfold d_range, j_range, d_obj. unfold jreq, jentries. cbn [filter map fst snd String.eqb Ascii.eqb Bool.eqb d_str obind].
  rewrite (list_back d_event j_event (jr_events r)) by (intros; apply event_back). cbn [obind]. destruct r; reflexivity.
Qed.
Lemma severity_back s : good_severity s -> d_severity (j_severity s) = Ok s.
Proof.
  intros G. destruct s as [v|b|v]; cbn [good_severity] in G; unfold d_severity, j_severity, d_obj, jreq, jentries;
    cbn [filter map fst snd String.eqb Ascii.eqb Bool.eqb d_str obind]; unfold d_from; cbn [d_str obind]; rewrite G; reflexivity.
Qed.
Lemma kind_back k : d_ref_kind (JStr (ref_kind_name k)) = Ok k.
Proof. destruct k; reflexivity. Qed.
Lemma reference_back norm r : good_url norm (or_url r) -> d_reference norm (j_reference r) = Ok r.
Proof.
  intros G. unfold d_reference, j_reference, d_obj, jreq, jentries. cbn [filter map fst snd String.eqb Ascii.eqb Bool.eqb].
  rewrite kind_back. cbn [obind]. unfold d_from. cbn [d_str obind]. rewrite G. cbn [of_option obind]. destruct r; reflexivity.
Qed.
Lemma eco_affected_back e : Forall good_path (ea_functions e) -> d_eco_affected (j_eco_affected e) = Ok e.
Proof.
  intros F. unfold d_eco_affected, j_eco_affected, d_obj, jreq, jentries. cbn [filter map fst snd String.eqb Ascii.eqb Bool.eqb].
  rewrite !strs_back. cbn [obind]. rewrite (paths_back _ F). cbn [obind]. destruct e; reflexivity.
Qed.
Definition good_eco (e : eco_specific) : Prop :=
  opt_good (fun a => Forall good_path (ea_functions a)) (es_affects e) /\ opt_good (Forall good_path) (es_functions e).
Lemma eco_back e : good_eco e -> d_eco (j_eco e) = Ok e.
Proof.
  intros [A F]. unfold d_eco, j_eco, d_obj, jopt, jdef, jentries. cbn [filter map fst snd String.eqb Ascii.eqb Bool.eqb].
  rewrite opt_back; [|intros a E; split; [apply eco_affected_back, (A a E)|discriminate]]. cbn [obind].
  rewrite opt_back; [|intros a E; split; [apply paths_back, (F a E)|discriminate]]. cbn [obind]. destruct e; reflexivity.
Qed.
Definition good_db (d : db_specific) : Prop :=
  Forall good_category (ds_categories d) /\ opt_good (fun c => cvss_parse (cvss_print c) = Ok c) (ds_cvss d) /\ opt_good good_informational (ds_informational d).
Lemma db_back d : good_db d -> d_db (j_db d) = Ok d.
Proof.
  intros (C & V & I). unfold d_db, j_db, d_obj, jopt, jdef, jentries. cbn [filter map fst snd String.eqb Ascii.eqb Bool.eqb].
  rewrite list_back; [|intros c IC; unfold d_from; cbn [d_str obind]; rewrite Forall_forall in C; f_equal; exact (C c IC)]. cbn [obind].
  rewrite opt_back; [|intros c E; split; [exact (V c E)|discriminate]]. cbn [obind].
  rewrite opt_back; [|intros c E; split; [unfold d_from; cbn [d_str obind]; f_equal; exact (I c E)|discriminate]]. cbn [obind]. destruct d; reflexivity.
Qed.
Lemma package_back p : d_package (j_package p) = Ok p.
Proof.
  unfold d_package, j_package, d_obj, jreq, jopt, jdef, jentries. cbn [filter map fst snd String.eqb Ascii.eqb Bool.eqb d_str obind].
  rewrite opt_back; [|intros s _; split; [reflexivity|discriminate]]. cbn [obind]. destruct p; reflexivity.
Qed.
Definition good_affected (a : osv_affected) : Prop := opt_good good_eco (oa_eco a) /\ good_db (oa_db a).
Lemma affected_back a : good_affected a -> d_affected (j_affected a) = Ok a.
Proof.
  intros [E D]. unfold d_affected, j_affected, d_obj, jreq, jopt, jdef, jentries. cbn [filter map fst snd String.eqb Ascii.eqb Bool.eqb].
  rewrite package_back. cbn [obind]. rewrite opt_back; [|intros e EE; split; [apply eco_back, (E e EE)|discriminate]]. cbn [obind].
  rewrite (db_back _ D). cbn [obind]. rewrite opt_back; [|intros l _; split; [apply list_back; intros; apply range_back|discriminate]]. cbn [obind].
  rewrite opt_back; [|intros l _; split; [apply strs_back|discriminate]]. cbn [obind]. destruct a; reflexivity.
Qed.
Record good_osv (norm : string -> option string) (o : osv_advisory) : Prop := {
  go_schema : opt_good (fun v => version_wf v = true) (o_schema o); go_id : good_id (o_id o);
  go_aliases : Forall good_id (o_aliases o); go_related : Forall good_id (o_related o);
  go_severity : Forall good_severity (o_severity o); go_affected : Forall good_affected (o_affected o);
  go_references : Forall (fun r => good_url norm (or_url r)) (o_references o) }.
Lemma osv_back norm o : good_osv norm o -> osv_of_json norm (osv_to_json o) = Ok o.
Proof.
  intros [S I A R V F U].
  assert (LF : d_list d_affected (j_list j_affected (o_affected o)) = Ok (o_affected o)).
  { apply list_back. intros a IA. apply affected_back. rewrite Forall_forall in F. exact (F a IA). }
  assert (LS : d_list d_severity (j_list j_severity (o_severity o)) = Ok (o_severity o)).
  { apply list_back. intros a IA. apply severity_back. rewrite Forall_forall in V. exact (V a IA). }
  assert (LR : d_list (d_reference norm) (j_list j_reference (o_references o)) = Ok (o_references o)).
  { apply list_back. intros a IA. apply reference_back. rewrite Forall_forall in U. exact (U a IA). }
  assert (LL : d_obj (jopt d_str "license") (JObj [("license", j_opt JStr (o_license o))]) = Ok (o_license o)).
  { unfold d_obj, jopt, jdef, jentries. cbn [filter map fst snd String.eqb Ascii.eqb Bool.eqb]. apply opt_back. intros s _. split; [reflexivity|discriminate]. }
  assert (ID : d_id (j_id (o_id o)) = Ok (o_id o)) by exact I.
  assert (LV : forall v, o_schema o = Some v -> d_opt (d_from (fun s => of_option (parse_version s))) (JStr (print_version v)) = Ok (Some v)).
  { intros v E. unfold d_opt, d_from. cbn [d_str obind]. rewrite (parse_print_version v (S v E)). reflexivity. }
  assert (LW : forall w, d_opt d_str (JStr w) = Ok (Some w)) by reflexivity.
  unfold osv_of_json, osv_to_json, d_obj at 1, jreq, jopt at 1 2, jdef, jentries.
  destruct o as [sc id mo pu w al re su de sev af rf li].
  cbn [o_schema o_id o_modified o_published o_withdrawn o_aliases o_related o_summary o_details o_severity o_affected o_references o_license] in *.
  destruct sc as [v|], w as [w|]; cbn [j_skip app filter map fst snd String.eqb Ascii.eqb Bool.eqb];
    try rewrite (LV v eq_refl); cbn [obind]; rewrite ID; cbn [obind d_str]; try rewrite LW; cbn [obind];
    rewrite (ids_back _ A); cbn [obind]; rewrite (ids_back _ R); cbn [obind]; rewrite LS; cbn [obind]; rewrite LF; cbn [obind]; rewrite LR; cbn [obind];
    rewrite LL; cbn [obind]; reflexivity.
Qed.

(** ** What loads is read back *)
Lemma category_good s : good_category (category_from_str s).
Proof.
  unfold good_category. unfold category_from_str at 2 3.
  repeat match goal with |- context [if String.eqb s ?t then _ else _] => destruct (String.eqb s t) eqn:?; [reflexivity|] end.
  cbn [category_name]. unfold category_from_str. repeat match goal with H : String.eqb s ?t = false |- context [String.eqb s ?t] => rewrite H end. reflexivity.
Qed.
Lemma informational_good s : good_informational (informational_from_str s).
Proof.
  unfold good_informational. unfold informational_from_str at 2 3.
  repeat match goal with |- context [if String.eqb s ?t then _ else _] => destruct (String.eqb s t) eqn:?; [reflexivity|] end.
  cbn [informational_str]. unfold informational_from_str. repeat match goal with H : String.eqb s ?t = false |- context [String.eqb s ?t] => rewrite H end. reflexivity.
Qed.
Lemma license_good s : license_from_str (license_spdx (license_from_str s)) = license_from_str s.
Proof.
  unfold license_from_str at 2 3. destruct (String.eqb_spec s "CC0-1.0") as [->|?]; [reflexivity|]. destruct (String.eqb_spec s "CC-BY-4.0") as [->|?]; [reflexivity|].
  unfold license_from_str, license_spdx. repeat match goal with H : s <> ?t |- context [String.eqb s ?t] => rewrite (proj2 (String.eqb_neq s t) H) end. reflexivity.
Qed.
Lemma cvss_good s c : cvss_parse s = Ok c -> good_cvss c.
Proof.
  intros H. split; [eapply C46_round_trip; eassumption|]. unfold cvss_parse in H.
  destruct (split_once "/" s) as [[id ?]|]; [|discriminate]. destruct (split_once ":" id) as [[px ve]|]; [|discriminate].
  destruct (split_once "." ve) as [[ma mi]|].
  - repeat match type of H with context [if ?b then _ else _] => destruct b end; try discriminate.
    + destruct (parse3 s) eqn:E; cbn [obind] in H; try discriminate. injection H as <-. cbn [severity_of good_severity]. exact (proj2 (C38_stable _ _ E)).
    + destruct (parse3 s) eqn:E; cbn [obind] in H; try discriminate. injection H as <-. cbn [severity_of good_severity]. exact (proj2 (C38_stable _ _ E)).
    + destruct (parse4 s) eqn:E; cbn [obind] in H; try discriminate. injection H as <-. cbn [severity_of good_severity]. exact (proj2 (proj2 (C43_stable _ _ E))).
  - destruct (parse2 s) eqn:E; cbn [obind] in H; try discriminate. injection H as <-. cbn [severity_of good_severity]. exact (proj2 (proj2 (C42_stable _ _ E))).
Qed.
Lemma id_good s i : id_from_str s = Ok i -> good_id i.
Proof. intros H. exact (id_parsed_unique _ _ H). Qed.
Lemma path_good s p : path_from_str s = Ok p -> good_path p.
Proof. intros H. exists s. split; [exact (C53_print_parse _ _ H)|exact H]. Qed.
Record good_meta (x : externals) (m : metadata) : Prop := {
  gm_id : good_id (m_id m); gm_aliases : Forall good_id (m_aliases m); gm_related : Forall good_id (m_related m);
  gm_categories : Forall good_category (m_categories m); gm_cvss : opt_good good_cvss (m_cvss m);
  gm_info : opt_good good_informational (m_informational m); gm_refs : Forall (good_url (x_norm x)) (m_references m);
  gm_url : opt_good (good_url (x_norm x)) (m_url m); gm_license : license_from_str (license_spdx (m_license m)) = m_license m }.
Lemma Forall_decoded {A} (P : A -> Prop) (f : string -> outcome A) vs l :
  (forall s a, f s = Ok a -> P a) -> Forall2 (fun v a => de_from f v = Ok a) vs l -> Forall P l.
Proof.
  intros H F. induction F as [|v a vs l E F IH]; constructor; [|exact IH]. apply de_from_ok in E as (s & _ & E). exact (H s a E).
Qed.
Lemma list_field_good {A} (P : A -> Prop) (f : string -> outcome A) k t l :
  (forall s a, f s = Ok a -> P a) -> field_def [] (de_list (de_from f)) k t = Ok l -> Forall P l.
Proof.
  intros H E. apply field_def_ok in E as [[_ ->]|(v & _ & F)]; [constructor|]. apply de_list_ok in F as (vs & -> & F). exact (Forall_decoded P f vs l H F).
Qed.
Lemma opt_field_good {A} (P : A -> Prop) (f : string -> outcome A) k t o :
  (forall s a, f s = Ok a -> P a) -> field_opt (de_from f) k t = Ok o -> opt_good P o.
Proof.
  intros H E a ->. apply field_opt_ok in E as [[_ D]|(v & b & _ & F & D)]; [discriminate|]. injection D as <-. apply de_from_ok in F as (s & _ & F). exact (H s _ F).
Qed.
Lemma url_dec_good x s u : norm_laws (x_norm x) -> match url_parse (x_norm x) s with Some u => Ok u | None => Err end = Ok u -> good_url (x_norm x) u.
Proof. intros N H. destruct (url_parse (x_norm x) s) as [w|] eqn:E; [|discriminate]. injection H as <-. exact (url_parse_string _ _ _ N E). Qed.
Lemma decode_metadata_good x t m : norm_laws (x_norm x) -> decode_metadata x t = Ok m -> good_meta x m.
Proof.
  intros N. unfold decode_metadata. intros H. do 18 bind H. apply (f_equal (fun o => match o with Ok a => a | _ => m end)) in H.
  rename H into M. cbv beta iota in M. split; rewrite <- M; cbn [m_id m_aliases m_related m_categories m_cvss m_informational m_references m_url m_license]; clear M.
  - apply field_req_ok in E as (v & _ & F). apply de_from_ok in F as (s & _ & F). exact (id_good _ _ F).
  - exact (list_field_good good_id id_from_str _ _ _ id_good E4).
  - exact (list_field_good good_id id_from_str _ _ _ id_good E5).
  - refine (list_field_good good_category (fun s => Ok (category_from_str s)) _ _ _ _ E7). intros s c [= <-]. apply category_good.
  - exact (opt_field_good good_cvss cvss_parse _ _ _ cvss_good E9).
  - refine (opt_field_good good_informational (fun s => Ok (informational_from_str s)) _ _ _ _ E10). intros s c [= <-]. apply informational_good.
  - refine (list_field_good (good_url (x_norm x)) _ _ _ _ _ E11). intros s u. apply url_dec_good, N.
  - refine (opt_field_good (good_url (x_norm x)) _ _ _ _ _ E13). intros s u. apply url_dec_good, N.
  - apply field_def_ok in E15 as [[_ ->]|(v & _ & F)]; [reflexivity|]. apply de_from_ok in F as (s & _ & [= <-]). apply license_good.
Qed.
Lemma decode_affected_good x v a : decode_affected x v = Ok a -> Forall good_path (map fst (af_functions a)).
Proof.
  unfold decode_affected. destruct v; try discriminate. intros H. do 3 bind H. injection H as <-. cbn [af_functions].
  apply field_def_ok in E1 as [[_ ->]|(v & _ & F)]; [constructor|]. destruct v; try discriminate.
  destruct (decode_functions_keys x t0 [] a2 F) as [K _]. apply Forall_forall. intros p I. apply K in I as [[]|(k & _ & P)]. exact (path_good _ _ P).
Qed.
Record good_advisory (x : externals) (a : full_advisory) : Prop := {
  ga_meta : good_meta x (f_meta a); ga_paths : forall af, f_affected a = Some af -> Forall good_path (map fst (af_functions af)) }.
Lemma decode_good x t a : norm_laws (x_norm x) -> decode_advisory x t = Ok a -> good_advisory x a.
Proof.
  intros N. unfold decode_advisory. intros H. do 3 bind H. injection H as <-. split; cbn [f_meta f_affected].
  - apply field_req_ok in E as (v & _ & F). destruct v; try discriminate. exact (decode_metadata_good _ _ _ N F).
  - intros af ->. apply field_opt_ok in E0 as [[_ D]|(v & b & _ & F & D)]; [discriminate|]. injection D as <-. exact (decode_affected_good _ _ _ F).
Qed.
Lemma with_title_good x a t d : good_advisory x a -> good_advisory x (with_title a t d).
Proof. intros [[] P]. split; [split; assumption|exact P]. Qed.
Lemma full_good x toml data a : norm_laws (x_norm x) -> full_from_str x toml data = Ok a -> good_advisory x a.
Proof.
  intros N. unfold full_from_str. intros H. bind H. destruct (toml (PartsModel.front_document (PartsModel.pt_front a0))) as [t|]; [|discriminate]. bind H.
  repeat match type of H with context [if ?b then _ else _] => destruct b; try discriminate end. injection H as <-. apply with_title_good, (decode_good x t); assumption.
Qed.
Lemma export_good x cal mt path a o : norm_laws (x_norm x) -> good_advisory x a -> from_rustsec x cal mt path a = Ok o -> good_osv (x_norm x) o.
Proof.
  intros N [G P] H. unfold from_rustsec, url_unwrap in H.
  destruct (url_parse (x_norm x) ("https://crates.io/crates/" ++ m_package (f_meta a))) as [u1|] eqn:U1; cbn [obind] in H; [|discriminate].
  destruct (url_parse (x_norm x) ("https://rustsec.org/advisories/" ++ id_string (m_id (f_meta a)) ++ ".html")) as [u2|] eqn:U2; cbn [obind] in H; [|discriminate].
  obinv H. injection H as <-. destruct G. split; cbn [o_schema o_id o_aliases o_related o_severity o_affected o_references]; try assumption.
  - intros v; discriminate.
  - destruct (m_cvss (f_meta a)) as [c|]; constructor; [|constructor]. apply (gm_cvss0 c eq_refl).
  - constructor; [|constructor]. split; cbn [oa_eco oa_db].
    + intros e [= <-]. split; cbn [es_affects es_functions]; [|intros l; discriminate]. intros e [= <-]. cbn [eco_affected_of ea_functions].
      destruct (f_affected a) as [af|]; [exact (P af eq_refl)|constructor].
    + split; [|split]; cbn [ds_categories ds_cvss ds_informational]; try assumption. intros c E'. apply (gm_cvss0 c E').
  - cbn [map]. constructor; [exact (url_parse_string _ _ _ N U1)|]. constructor; [exact (url_parse_string _ _ _ N U2)|].
    apply Forall_forall. intros r I. apply in_map_iff in I as (u & <- & I). cbn [reference_of or_url]. apply in_app_or in I as [I|I].
    + destruct (m_url (f_meta a)) as [w|]; [|destruct I]. destruct I as [<-|[]]. apply (gm_url0 w eq_refl).
    + rewrite Forall_forall in gm_refs0. exact (gm_refs0 u I).
Qed.

(** Whatever is exported can be read back, and is the same. *)
Theorem C68_export_reads_back : forall x cal mt path toml data a o, norm_laws (x_norm x) ->
  full_from_str x toml data = Ok a -> from_rustsec x cal mt path a = Ok o ->
  osv_of_json (x_norm x) (osv_to_json o) = Ok o.
Proof. intros x cal mt path toml data a o N L H. eapply osv_back, export_good; eauto. eapply full_good; eauto. Qed.
Print Assumptions C68_export_reads_back.

(** Nothing but the keywords, the source, the collection, [expect-deleted], the version requirements of functions and the exact
    spelling of dates is lost: two advisories with the same document agree on everything else, and on which versions are
    affected. *)
Definition all_urls (m : metadata) : list url := (match m_url m with Some u => [u] | None => [] end ++ m_references m)%list.
Definition platform_info (a : full_advisory) : list string * list string * list (list string) :=
  match f_affected a with Some af => (af_arch af, af_os af, map fst (af_functions af)) | None => ([], [], []) end.
Theorem C68_export_loses_nothing : forall x cal mt path path' toml data data' a a' o o', norm_laws (x_norm x) ->
  full_from_str x toml data = Ok a -> full_from_str x toml data' = Ok a' ->
  from_rustsec x cal mt path a = Ok o -> from_rustsec x cal mt path' a' = Ok o' ->
  osv_to_json o = osv_to_json o' ->
  let m := f_meta a in let m' := f_meta a' in
  m_id m = m_id m' /\ m_package m = m_package m' /\ m_title m = m_title m' /\ m_description m = m_description m' /\
  m_aliases m = m_aliases m' /\ m_related m = m_related m' /\ m_categories m = m_categories m' /\ m_cvss m = m_cvss m' /\
  m_informational m = m_informational m' /\ m_license m = m_license m' /\ all_urls m = all_urls m' /\
  platform_info a = platform_info a' /\ (m_withdrawn m = None <-> m_withdrawn m' = None) /\
  (let safe b := (patched (f_versions b) ++ unaffected (f_versions b))%list in
   reqs_wf (safe a) -> reqs_wf (safe a') -> no_silent_overflow (x_checks x) (safe a) -> no_silent_overflow (x_checks x) (safe a') ->
   forall v, version_wf v = true -> (~ declared_safe (safe a) v <-> ~ declared_safe (safe a') v)).
Proof.
  intros x cal mt path path' toml data data' a a' o o' N L L' H H' J m m'.
  assert (O : o = o').
  { pose proof (C68_export_reads_back _ _ _ _ _ _ _ _ N L H) as B. pose proof (C68_export_reads_back _ _ _ _ _ _ _ _ N L' H') as B'.
    rewrite J in B. rewrite B in B'. injection B' as ->. reflexivity. }
  subst o'. assert (SAFE : let safe b := (patched (f_versions b) ++ unaffected (f_versions b))%list in
   reqs_wf (safe a) -> reqs_wf (safe a') -> no_silent_overflow (x_checks x) (safe a) -> no_silent_overflow (x_checks x) (safe a') ->
   forall v, version_wf v = true -> ~ declared_safe (safe a) v <-> ~ declared_safe (safe a') v).
  { intros safe W W' NO NO' v V. 
    destruct (C67_same_verdict x cal mt path a o "crates.io" (m_package m) v W NO V H) as (b & E & B).
    destruct (C67_same_verdict x cal mt path' a' o "crates.io" (m_package m) v W' NO' V H') as (b' & E' & B'). rewrite E in E'. injection E' as <-.
    assert (P : m_package m = m_package m').
    { apply from_rustsec_inv in H as (r & rest & _ & A & P & _). apply from_rustsec_inv in H' as (r' & rest' & _ & A' & P' & _).
      rewrite A in A'. injection A' as <-. rewrite P in P'. injection P' as E1 _. exact E1. }
    unfold m, m' in *. fold (safe a) in B. fold (safe a') in B'. tauto. }
  pose proof (full_good _ _ _ _ N L) as [G _]. pose proof (full_good _ _ _ _ N L') as [G' _].
  apply gm_license in G, G'. clear J L L'. unfold from_rustsec in H, H'. obinv H. obinv H'.
  rewrite <- H' in H. clear H'. injection H as E_id E_mod E_pub E_wd E_al E_rel E_ti E_de E_sev E_pk E_pu E_ar E_os E_fn E_ca E_cv E_in E_rg E_rf E_li.
  subst m m'. cbv zeta. repeat (apply conj; try assumption).
  - rewrite <- G, <- G', H2. reflexivity.
  - apply (f_equal (map or_url)) in H1. rewrite !map_map in H1. cbn [reference_of or_url] in H1. rewrite !map_id in H1. exact H1.
  - unfold platform_info. destruct (f_affected a) as [af|], (f_affected a') as [af'|]; cbn [affected_default af_arch af_os af_functions map] in *; rewrite ?E_ar, ?E_os, ?E_fn;
      try rewrite <- E_ar; try rewrite <- E_os; try rewrite <- E_fn; reflexivity.
  - intros W. rewrite W in E5. injection E5 as <-. rewrite <- E_wd in E12. destruct (m_withdrawn (f_meta a')); [|reflexivity]. obinv E12. discriminate.
  - intros W. rewrite W in E12. injection E12 as <-. rewrite E_wd in E5. destruct (m_withdrawn (f_meta a)); [|reflexivity]. obinv E5. discriminate.
Qed.
Print Assumptions C68_export_loses_nothing.

(** Two files which differ in a keyword have the same document. *)
Definition NL : string := String PartsModel.nl "".
Definition visible_norm (s : string) : option string :=
  if (str_forall visible s && negb (has_char "?" s) && negb (has_char "#" s))%bool then Some s else None.
Lemma visible_norm_laws : norm_laws visible_norm.
Proof.
  intros s b H. pose proof H as H0. unfold visible_norm in H.
  destruct (str_forall visible s && negb (has_char "?" s) && negb (has_char "#" s))%bool eqn:E; [|discriminate]. injection H as <-.
  apply andb_prop in E as [E E3]. apply andb_prop in E as [E1 E2]. split; [exact H0|]. split; [exact E1|].
  split; [destruct (has_char "?" s)|destruct (has_char "#" s)]; try discriminate; reflexivity.
Qed.
Definition extn : externals := mkExt civil_of visible_norm req_of false.
Definition data_of (s : string) : string :=
  "```toml" ++ NL ++ s ++ NL ++ "```" ++ NL ++ NL ++ "# Reads too far" ++ NL ++ NL ++ "By one byte." ++ NL.
Definition toml_of (s : string) : option ttable :=
  Some (if contains "keyword" s
        then match doc "2024-03-09" [">= 1.2.3, < 2.0.0"; "> 2.1.0"] with
             | (k, TTab t) :: r => (k, TTab (("keywords", TArr [TStr "overflow"]) :: t)) :: r
             | t => t
             end
        else doc "2024-03-09" [">= 1.2.3, < 2.0.0"; "> 2.1.0"]).
Theorem C68_keywords_refuted : exists a a' o o',
  full_from_str extn toml_of (data_of "x") = Ok a /\ full_from_str extn toml_of (data_of "keyword") = Ok a' /\
  from_rustsec extn gregorian times_of "a" a = Ok o /\ from_rustsec extn gregorian times_of "a" a' = Ok o' /\
  osv_to_json o = osv_to_json o' /\ m_keywords (f_meta a) <> m_keywords (f_meta a').
Proof.
  do 4 eexists. split; [vm_compute; reflexivity|]. split; [vm_compute; reflexivity|]. split; [vm_compute; reflexivity|].
  split; [vm_compute; reflexivity|]. split; [reflexivity|]. discriminate.
Qed.
Example C68_nonvacuous : norm_laws (x_norm extn) /\ exists a o, full_from_str extn toml_of (data_of "x") = Ok a /\ from_rustsec extn gregorian times_of "a" a = Ok o /\
  m_title (f_meta a) = "Reads too far" /\ osv_of_json (x_norm extn) (osv_to_json o) = Ok o.
Proof.
  split; [exact visible_norm_laws|do 2 eexists; split; [vm_compute; reflexivity|]; split; [vm_compute; reflexivity|]; split; vm_compute; reflexivity].
Qed.
