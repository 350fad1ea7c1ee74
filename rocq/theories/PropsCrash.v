(** C83: what can crash the loader, and the commands that walk an advisory repository. *)
From Coq Require Import List NArith ZArith Ascii String Bool Arith Lia Permutation.
From Verif Require Import Base StrLib SemverModel OsvModel OsvSpec IdModel IdProofs PkgModel DbModel DbSpec DbProofs PropsDb UrlModel CvssText ScanModel PropsScan PartsModel PartsSpec PropsParts
  AdvModel LintModel LintProofs2 MtimeModel OsvAdvModel DecodeSpec PropsDecode ConfigModel PropsConfig VerText AdminModel PropsOsvAdv PropsExportAll PropsOsv SortProofs OsvProofs PropsOsvAdv2 PropsDecode2 PropsMtime.
Import ListNotations.
Local Open Scope string_scope.

(** ** Specification *)
(** The text has no opening fence, and its twentieth byte boundary lies inside a character. *)
Definition cut_character (data : string) : Prop :=
  (~ exists r, data = "```toml" ++ r) /\ exists a, String.get 20 data = Some a /\ (128 <= N_of_ascii a < 192)%N.
(** The document's table [versions] lists requirements that crash the computation of the ranges (C06). *)
Definition clashing_versions (x : externals) (t : ttable) : Prop :=
  exists vt p u, In ("versions", TTab vt) t /\ required vt "patched" (texts (a_req x)) p /\ defaulted vt "unaffected" (texts (a_req x)) [] u /\
    versions_new (x_checks x) p u = Panic.
(** The file is an advisory file whose document is [t]. *)
Definition file_with (toml : string -> option ttable) (data : string) (t : ttable) : Prop :=
  exists raw_front gap raw_title raw_desc front d, data = advisory_file raw_front gap raw_title raw_desc /\ file_parts raw_front gap raw_title /\
    trimmed raw_front front /\ document front d /\ toml d = Some t.

(** ** Decoding *)
Lemma omap_nopanic {A B} (f : A -> outcome B) l : (forall a, f a <> Panic) -> omap f l <> Panic.
Proof.
  intros H. induction l as [|a l IH]; cbn [omap]; [discriminate|]. apply obind_nopanic; [apply H|]. intros b. apply obind_nopanic; [exact IH|discriminate].
Qed.
Ltac np := repeat first
  [ discriminate | assumption | apply obind_nopanic; intros | apply omap_nopanic; intros
  | match goal with |- context [match ?o with _ => _ end] => destruct o end
  | match goal with |- context [if ?b then _ else _] => destruct b end ].
Lemma components_nopanic s : components s <> Panic.
Proof. unfold components. apply omap_nopanic. intros a. unfold component. np. Qed.
Lemma set_metric_nopanic sch : forall v id value, set_metric sch v id value <> Panic.
Proof.
  induction sch as [|[n toks] sch IH]; intros [|cur v] id value; cbn [set_metric]; try discriminate. destruct (String.eqb id n).
  - apply obind_nopanic; [unfold value_of|intros a; destruct cur; discriminate]. np.
  - apply obind_nopanic; [apply IH|discriminate].
Qed.
Lemma set_all_nopanic sch up cs : forall v, set_all sch up v cs <> Panic.
Proof. induction cs as [|[id value] cs IH]; intros v; cbn [set_all]; [discriminate|]. apply obind_nopanic; [apply set_metric_nopanic|intros a; apply IH]. Qed.
Lemma cvss_nopanic s : cvss_parse s <> Panic.
Proof.
  assert (P2 : parse2 s <> Panic).
  { unfold parse2. apply obind_nopanic; [apply components_nopanic|]. intros cs. apply obind_nopanic; [apply set_all_nopanic|]. intros v. destruct (check2 v); discriminate. }
  assert (P3 : parse3 s <> Panic).
  { unfold parse3. apply obind_nopanic; [apply components_nopanic|]. intros [|[id ver] cs]; [discriminate|]. destruct (negb (String.eqb id "CVSS")); [discriminate|].
    apply obind_nopanic; [destruct (String.eqb ver "3.0"); [discriminate|destruct (String.eqb ver "3.1"); discriminate]|]. intros m. apply obind_nopanic; [apply set_all_nopanic|discriminate]. }
  assert (P4 : parse4 s <> Panic).
  { unfold parse4. apply obind_nopanic; [apply components_nopanic|]. intros [|[id ver] cs]; [discriminate|]. destruct (negb (String.eqb id "CVSS")); [discriminate|].
    destruct (negb (String.eqb ver "4.0")); [discriminate|]. apply obind_nopanic; [apply set_all_nopanic|]. intros v. destruct (check4 v); discriminate. }
  unfold cvss_parse. destruct (split_once "/" s) as [[id rest]|]; [|discriminate]. destruct (split_once ":" id) as [[p ver]|]; [|discriminate].
  destruct (split_once "." ver) as [[ma mi]|]; [|apply obind_nopanic; [exact P2|discriminate]].
  destruct (_ && _)%bool; [apply obind_nopanic; [exact P3|discriminate]|]. destruct (_ && _)%bool; [apply obind_nopanic; [exact P3|discriminate]|].
  destruct (_ && _)%bool; [apply obind_nopanic; [exact P4|discriminate]|discriminate].
Qed.
Lemma source_nopanic norm s : from_url norm s <> Panic.
Proof.
  unfold from_url. destruct (split_once "+" s) as [[k r]|]; [|discriminate].
  repeat (match goal with |- context [String.eqb ?a ?b] => destruct (String.eqb a b) end; [destruct (url_parse norm r); discriminate|]). discriminate.
Qed.
Lemma date_nopanic civil s : date_from_str civil s <> Panic.
Proof. unfold date_from_str. destruct (civil s) as [[[y m] d]|]; [|discriminate]. destruct (_ && _)%bool; discriminate. Qed.
Lemma path_nopanic s : path_from_str s <> Panic.
Proof. unfold path_from_str. apply obind_nopanic; [apply omap_identifiers_no_panic|]. intros l. destruct (Nat.leb 2 _); discriminate. Qed.
Section Decoding.
  Context (x : externals).
  Lemma url_nopanic v : de_url x v <> Panic.
  Proof. apply de_from_nopanic. intros s. destruct (url_parse (x_norm x) s); discriminate. Qed.
  Lemma req_nopanic v : de_req x v <> Panic.
  Proof. apply de_from_nopanic. intros s. destruct (x_req x s); discriminate. Qed.
  Lemma date_value_nopanic v : de_date x v <> Panic.
  Proof. apply de_from_nopanic. intros s. apply date_nopanic. Qed.
  Lemma id_value_nopanic v : de_id v <> Panic.
  Proof. apply de_from_nopanic. intros s. apply id_from_str_nopanic. Qed.
  Lemma metadata_nopanic t : decode_metadata x t <> Panic.
  Proof.
    unfold decode_metadata.
    repeat first
      [ apply obind_nopanic; [|intros] | apply field_req_nopanic; intros | apply field_def_nopanic; intros | apply field_opt_nopanic; intros
      | apply de_list_nopanic; intros | apply id_value_nopanic | apply de_string_nopanic | apply date_value_nopanic | apply url_nopanic | apply de_bool_nopanic
      | apply de_from_nopanic; intros | apply cvss_nopanic | apply source_nopanic | discriminate ].
    all: first [apply id_from_str_nopanic|apply date_nopanic|destruct (url_parse _ _); discriminate|idtac].
    unfold collection_from_str. match goal with |- context [String.eqb ?a "crates"] => destruct (String.eqb a "crates"); [discriminate|]; destruct (String.eqb a "rust"); discriminate end.
  Qed.
  Lemma functions_nopanic t : forall m, decode_functions x t m <> Panic.
  Proof.
    induction t as [|[k v] t IH]; intros m; cbn [decode_functions]; [discriminate|].
    apply obind_nopanic; [apply path_nopanic|]. intros p. apply obind_nopanic; [apply de_list_nopanic; intros; apply req_nopanic|]. intros rs. apply IH.
  Qed.
  Lemma affected_nopanic v : decode_affected x v <> Panic.
  Proof.
    destruct v; try discriminate. cbn [decode_affected].
    repeat first [apply obind_nopanic; [|intros] | apply field_def_nopanic; intros | apply de_list_nopanic; intros | apply de_string_nopanic | discriminate].
    destruct w; try discriminate. apply functions_nopanic.
  Qed.
  (** Decoding a document crashes only in its versions. *)
  Lemma decode_panic t : one_each (TTab t) -> decode_advisory x t = Panic -> clashing_versions x t.
  Proof.
    intros W H. inversion W as [| | | |? N C]; subst. unfold decode_advisory in H.
    destruct (field_req _ "advisory" t) as [m| |] eqn:E1; cbn [obind] in H; try discriminate.
    2:{ exfalso. revert E1. apply field_req_nopanic. intros w. destruct w; try discriminate. apply metadata_nopanic. }
    destruct (field_opt (decode_affected x) "affected" t) as [af| |] eqn:E2; cbn [obind] in H; try discriminate.
    2:{ exfalso. revert E2. apply field_opt_nopanic. intros w. apply affected_nopanic. }
    destruct (field_req (decode_versions x) "versions" t) as [vs| |] eqn:E3; cbn [obind] in H; try discriminate.
    unfold field_req in E3. destruct (tget "versions" t) as [v|] eqn:G; [|discriminate]. apply (tget_iff t "versions" v N) in G.
    destruct v as [| | | |vt]; try discriminate E3. cbn [decode_versions] in E3.
    pose proof (C _ _ G) as Wv. inversion Wv as [| | | |? Nv _]; subst.
    destruct (field_req (de_list (de_req x)) "patched" vt) as [p| |] eqn:E4; cbn [obind] in E3; try discriminate.
    2:{ exfalso. revert E4. apply field_req_nopanic. intros w. apply de_list_nopanic. intros. apply req_nopanic. }
    destruct (field_def [] (de_list (de_req x)) "unaffected" vt) as [u| |] eqn:E5; cbn [obind] in E3; try discriminate.
    2:{ exfalso. revert E5. apply field_def_nopanic. intros w. apply de_list_nopanic. intros. apply req_nopanic. }
    exists vt, p, u. split; [exact G|]. split; [revert E4; apply required_iff; [exact Nv|intros; apply reqs_iff]|]. split; [revert E5; apply defaulted_iff; [exact Nv|intros; apply reqs_iff]|]. exact E3.
  Qed.
  Lemma panic_decode t a : one_each (TTab t) -> says x t a -> forall t', one_each (TTab t') -> (forall k v, k <> "versions" -> In (k, v) t <-> In (k, v) t') -> clashing_versions x t' ->
    decode_advisory x t' = Panic.
  Proof.
    intros W S t' W' K (vt & p & u & I & P & U & V). apply (C78_document x t a W) in S. unfold decode_advisory in *.
    inversion W as [| | | |? N C]; subst. inversion W' as [| | | |? N' C']; subst.
    assert (G : forall k, k <> "versions" -> tget k t' = tget k t).
    { intros k Nk. destruct (tget k t') as [v|] eqn:E.
      - apply (tget_iff t' k v N') in E. apply (K k v Nk) in E. symmetry. apply (tget_iff t k v N). exact E.
      - destruct (tget k t) as [v|] eqn:E'; [|reflexivity]. apply (tget_iff t k v N), (K k v Nk), (tget_iff t' k v N') in E'. congruence. }
    unfold field_req, field_opt in *. rewrite (G "advisory") by discriminate. rewrite (G "affected") by discriminate.
    destruct (match tget "advisory" t with Some v => _ | None => _ end); cbn [obind] in *; try discriminate.
    destruct (match tget "affected" t with Some v => _ | None => _ end); cbn [obind] in *; try discriminate.
    rewrite (proj2 (tget_iff t' "versions" _ N') I). cbn [decode_versions]. pose proof (C' _ _ I) as Wv. inversion Wv as [| | | |? Nv _]; subst.
    assert (E4 : field_req (de_list (de_req x)) "patched" vt = Ok p) by (revert P; apply required_iff; [exact Nv|intros; apply reqs_iff]).
    assert (E5 : field_def [] (de_list (de_req x)) "unaffected" vt = Ok u) by (revert U; apply defaulted_iff; [exact Nv|intros; apply reqs_iff]).
    rewrite E4. cbn [obind]. rewrite E5. cbn [obind]. rewrite V. reflexivity.
  Qed.
End Decoding.

(** Loading a file crashes only if it has no opening fence and a character in the way of the message, or if its version
    requirements do. *)
Theorem C83_loading : forall x toml data, (forall s t, toml s = Some t -> one_each (TTab t)) -> full_from_str x toml data = Panic ->
  cut_character data \/ exists t, file_with toml data t /\ clashing_versions x t.
Proof.
  intros x toml data W H. unfold full_from_str in H. destruct (parts_parse data) as [p| |] eqn:P; cbn [obind] in H; try discriminate.
  - destruct (toml (front_document (pt_front p))) as [t|] eqn:T; [|discriminate]. right. exists t.
    destruct (decode_advisory x t) as [b| |] eqn:D; cbn [obind] in H; [|discriminate|].
    { destruct (negb (String.eqb (m_title (f_meta b)) "")); [discriminate|]. destruct (negb (String.eqb (m_description (f_meta b)) "")); discriminate. }
    split; [|exact (decode_panic x t (W _ _ T) D)]. destruct (C16_split_sound data p P) as (rf & gap & rt & rd & A1 & A2 & A3 & _).
    exists rf, gap, rt, rd, (pt_front p), (front_document (pt_front p)). repeat (split; [assumption|]). split; [apply document_iff; reflexivity|exact T].
  - left. unfold parts_parse in P. destruct (strip_prefix FENCE data) as [body|] eqn:E.
    { destruct (split_str CLOSE body) as [[front rest]|]; [|discriminate]. destruct (strip_prefix "# " (trim_start rest)) as [m|]; [|discriminate].
      destruct (split_once nl m) as [[title desc]|]; discriminate. }
    split; [intros [r ->]; change "```toml" with FENCE in E; rewrite strip_prefix_app in E; discriminate|].
    destruct (Nat.ltb 20 (String.length data) && continuation_at 20 data)%bool eqn:X; [|discriminate].
    apply andb_true_iff in X as [_ X]. unfold continuation_at in X. destruct (String.get 20 data) as [a|]; [|discriminate].
    exists a. split; [reflexivity|]. apply andb_true_iff in X as [X1 X2]. apply N.leb_le in X1. apply N.ltb_lt in X2. split; assumption.
Qed.
Print Assumptions C83_loading.

Lemma get_length n : forall s a, String.get n s = Some a -> (n < String.length s)%nat.
Proof. induction n as [|n IH]; intros [|b s] a H; cbn in *; try discriminate; [lia|]. apply IH in H. lia. Qed.
(** And those files do crash it: every text of the first kind, and every document of the second kind which would load with
    other versions. *)
Theorem C83_loading_crashes_refuted : forall x toml data, (forall s t, toml s = Some t -> one_each (TTab t)) ->
  (cut_character data -> full_from_str x toml data = Panic) /\
  (forall t t0 a, file_with toml data t -> one_each (TTab t0) -> says x t0 a -> (forall k v, k <> "versions" -> In (k, v) t0 <-> In (k, v) t) ->
     clashing_versions x t -> full_from_str x toml data = Panic).
Proof.
  intros x toml data W. split.
  - intros [N (a & G & B)]. unfold full_from_str, parts_parse. destruct (strip_prefix FENCE data) as [body|] eqn:E.
    { exfalso. apply N. exists body. apply strip_prefix_spec in E. exact E. }
    assert (C : (Nat.ltb 20 (String.length data) && continuation_at 20 data)%bool = true).
    { apply andb_true_iff. split; [apply Nat.ltb_lt; exact (get_length 20 data a G)|]. unfold continuation_at. rewrite G. apply andb_true_iff. split; [apply N.leb_le|apply N.ltb_lt]; apply B. }
    rewrite C. reflexivity.
  - intros t t0 a (rf & gap & rt & rd & front & d & -> & F & Tf & Dd & T) W0 S K C. unfold full_from_str.
    destruct (trim_end_spec rt) as (b & Bb & Eb & Nb).
    rewrite (C16_split_complete rf gap rt rd front (trim_end rt) (trim_end (trim_start rd)) F Tf (conj (ex_intro _ b (conj Bb Eb)) Nb) (trim_both_spec rd)).
    cbn [obind pt_front]. apply document_iff in Dd. subst d. rewrite T. rewrite (panic_decode x t0 a W0 S t (W _ _ T) K C). reflexivity.
Qed.
Print Assumptions C83_loading_crashes_refuted.
(** What requirements crash it, if none names the largest number: some requirement means exactly one version, which is the
    open lower bound of another. *)
Theorem C83_clashing_versions : forall x t, (forall s r, x_req x s = Some r -> req_wf r = true) -> clashing_versions x t ->
  exists vt p u, In ("versions", TTab vt) t /\ required vt "patched" (texts (a_req x)) p /\ defaulted vt "unaffected" (texts (a_req x)) [] u /\
    (below_u64_max (p ++ u) ->
     exists r1 r2 lo, In r1 (p ++ u)%list /\ In r2 (p ++ u)%list /\ In lo r1 /\ c_op lo = OpGreater /\
       forall v, version_wf v = true -> (req_denotes r2 v <-> prec_eq v (OsvSpec.written lo))).
Proof.
  intros x t Q (vt & p & u & I & P & U & V). exists vt, p, u. repeat (split; [assumption|]). intros B.
  assert (L : forall v l, texts (a_req x) v l -> forall r, In r l -> req_wf r = true).
  { intros v l (ss & _ & F). induction F as [|s r ss l A F IH]; intros r' J; [destruct J|]. destruct J as [<-|J]; [exact (Q s r A)|apply IH; assumption]. }
  apply (C06_only_panic_is_point_range_at_open_bound (x_checks x) p u); [|exact B|exact V].
  intros r J. apply in_app_or in J as [J|J]; [destruct P as (v & _ & P); exact (L v p P r J)|].
  destruct U as [(v & _ & U)|[_ ->]]; [exact (L v u U r J)|destruct J].
Qed.
Print Assumptions C83_clashing_versions.

(** ** The commands *)
Section Walk.
  Context (x : externals) (toml : string -> option ttable).
  (** Some file of the repository crashes when it is loaded. *)
  Definition repository_file (t : dtree) (f : dfile) : Prop :=
    exists es e fs, (dt_crates t = Some es \/ dt_rust t = Some es) /\ In e es /\ de_files e = Some fs /\ In f fs.
  Definition loading_crashes (f : dfile) : Prop := exists s, df_text f = Some s /\ full_from_str x toml s = Panic.
  Definition linting_crashes (f : dfile) : Prop := exists s, df_text f = Some s /\ lint_file x toml (df_name f) (Some s) = Panic.
  Lemma load_cases f : match df_text f with
                       | None => load_advisory x toml f = Err
                       | Some s => load_advisory x toml f = full_from_str x toml s
                       end.
  Proof. unfold load_advisory. destruct (df_text f); reflexivity. Qed.

  (** Opening a database crashes only if loading one of its files does. *)
  Theorem C83_database : forall todb t, db_open (fs_tree_of x toml todb t) = Panic -> exists f, repository_file t f /\ loading_crashes f.
  Proof.
    intros todb t H.
    unfold db_open in H. destruct (advisory_paths (fs_tree_of x toml todb t)) as [ps| |] eqn:Ep; cbn [obind] in H; try discriminate.
    2:{ unfold advisory_paths in Ep. destruct (t_crates (fs_tree_of x toml todb t)); discriminate. }
    assert (E : exists p, In p ps /\ f_parsed (pl_file p) = Panic).
    { clear Ep. revert H. generalize (mkDb entries_new [] []). induction ps as [|p ps IH]; intros db H; cbn [open_loop] in H; [discriminate|].
      destruct (f_parsed (pl_file p)) as [a| |] eqn:P; [| |exists p; split; [left; reflexivity|exact P]];
        (destruct (open_step db p) as [db'| |] eqn:O; cbn [obind] in H; try discriminate;
         [destruct (IH db' H) as (q & J & Q); exists q; split; [right; exact J|exact Q]|];
         exfalso; apply (open_step_nopanic db p); [rewrite P; discriminate|exact O]). }
    destruct E as (p & J & P). apply (advisory_paths_in _ ps p Ep) in J as (es & e & fs & T & Je & _ & Ef & Jf & _).
    assert (M : forall o, option_map (map (fs_entry_of x toml todb)) o = Some es -> exists es0, o = Some es0 /\ es = map (fs_entry_of x toml todb) es0).
    { intros [es0|] [= <-]. exists es0. split; reflexivity. }
    assert (D : exists es0, (dt_crates t = Some es0 \/ dt_rust t = Some es0) /\ es = map (fs_entry_of x toml todb) es0).
    { destruct T as [[_ T]|[_ T]]; cbn [fs_tree_of t_crates t_rust] in T; apply M in T as (es0 & T & ->); exists es0; auto. }
    destruct D as (es0 & D & ->). apply in_map_iff in Je as (e0 & <- & Je). cbn [fs_entry_of e_files] in Ef. destruct (de_files e0) as [fs0|] eqn:F0; [|discriminate].
    cbn [option_map] in Ef. injection Ef as <-. apply in_map_iff in Jf as (f & Ef & Jf). rewrite <- Ef in P. cbn [fs_file_of f_parsed] in P.
    exists f. split; [exists es0, e0, fs0; auto|]. pose proof (load_cases f) as C. unfold loading_crashes. destruct (df_text f) as [s|]; rewrite C in P; [|discriminate].
    exists s. split; [reflexivity|]. destruct (full_from_str x toml s); [discriminate|discriminate|reflexivity].
  Qed.

  Lemma omap_panics {A B} (f : A -> outcome B) l : omap f l = Panic -> exists a, In a l /\ f a = Panic.
  Proof.
    induction l as [|a l IH]; cbn [omap]; [discriminate|]. destruct (f a) as [b| |] eqn:E; cbn [obind]; [|discriminate|intros _; exists a; split; [left; reflexivity|exact E]].
    destruct (omap f l) as [bs| |] eqn:E'; cbn [obind]; try discriminate. intros _. destruct (IH eq_refl) as (a' & I & P). exists a'. split; [right; exact I|exact P].
  Qed.
  Lemma collection_panics c : lint_collection x toml c = Panic ->
    exists es e fs f, c = Some es /\ In e es /\ de_files e = Some fs /\ In f fs /\ (loading_crashes f \/ linting_crashes f).
  Proof.
    unfold lint_collection. destruct c as [es|]; [|discriminate]. destruct (omap (lint_dir x toml) (sort_names de_name es)) as [ls| |] eqn:E; cbn [obind]; try discriminate. intros _.
    apply omap_panics in E as (e & I & E). apply (Permutation_in e (Permutation_sym (sort_perm _ es))) in I. unfold lint_dir in E. destruct (de_files e) as [fs|] eqn:F; [|discriminate].
    apply omap_panics in E as (f & J & E). apply (Permutation_in f (Permutation_sym (sort_perm _ fs))) in J. exists es, e, fs, f. repeat (split; [assumption || reflexivity|]).
    unfold admin_lint_advisory in E. unfold loading_crashes, linting_crashes. destruct (df_text f) as [s|] eqn:S; [|discriminate].
    destruct (full_from_str x toml s) as [a| |] eqn:L; cbn [obind] in E; try discriminate; [|left; eauto].
    destruct (lint_file x toml (df_name f) (Some s)) as [l| |] eqn:K; cbn [obind] in E; try discriminate. right. eauto.
  Qed.
  (** `rustsec-admin lint` exits with 0 or 1, unless loading or linting one of the files crashes. *)
  Theorem C83_lint : forall todb index_ok lock index t,
    (exists n, lint_status x toml todb index_ok lock index t = Ok n /\ (n = 0 \/ n = 1)) \/
    (lint_status x toml todb index_ok lock index t = Panic /\ exists f, repository_file t f /\ (loading_crashes f \/ linting_crashes f)).
  Proof.
    intros todb index_ok lock index t. unfold lint_status. destruct (db_open (fs_tree_of x toml todb t)) as [db| |] eqn:O; [|left; exists 1; auto|].
    2:{ right. split; [reflexivity|]. destruct (C83_database todb t O) as (f & R & L). exists f. auto. }
    destruct (negb index_ok); [left; exists 1; auto|]. destruct (db_iter db); [left; exists 1; auto|].
    destruct (admin_lint x toml lock index t) as [n| |] eqn:L; [destruct n; left; eexists; eauto|left; exists 1; auto|].
    right. split; [reflexivity|]. unfold admin_lint in L.
    destruct (lint_collection x toml (dt_crates t)) as [cs| |] eqn:C; cbn [obind] in L; try discriminate.
    2:{ apply collection_panics in C as (es & e & fs & f & T & I & F & J & P). exists f. split; [exists es, e, fs; auto|exact P]. }
    destruct (crates_io_lints lock index (map fst cs)) as [u| |] eqn:K; cbn [obind] in L; try discriminate.
    2:{ unfold crates_io_lints in K. destruct lock; [destruct (forallb _ _); discriminate|discriminate]. }
    destruct (lint_collection x toml (dt_rust t)) as [rs| |] eqn:C2; cbn [obind] in L; try discriminate.
    apply collection_panics in C2 as (es & e & fs & f & T & I & F & J & P). exists f. split; [exists es, e, fs; auto|exact P].
  Qed.

  (** The export ends with success, with an error for one of the stated reasons, or with a crash of one of the stated kinds. *)
  Context (cal : Z -> Z * N * N) (mt : mod_times) (head : option tree) (dest : string).
  Notation place dir f := ("crates/" ++ dir ++ "/" ++ df_name f).
  Definition export_crashes (dir : string) (f : dfile) : Prop :=
    loading_crashes f \/
    exists a, load_advisory x toml f = Ok a /\ known_kind a /\ git_path head (place dir f) = Ok (place dir f) /\ ~ exportable x cal mt (place dir f) a.
  Definition export_refuses (dir : string) (f : dfile) : Prop :=
    df_text f = None \/ (exists s, df_text f = Some s /\ full_from_str x toml s = Err) \/
    exists a, load_advisory x toml f = Ok a /\ known_kind a /\ forall q, git_path head (place dir f) <> Ok q.
  Lemma loaded_versions f a : load_advisory x toml f = Ok a -> exists p u, versions_new (x_checks x) p u = Ok (f_versions a).
  Proof.
    unfold load_advisory. destruct (df_text f) as [s|]; [|discriminate]. unfold full_from_str. intros H.
    destruct (parts_parse s) as [p| |]; cbn [obind] in H; try discriminate. destruct (toml (front_document (pt_front p))) as [t|]; [|discriminate].
    destruct (decode_advisory x t) as [b| |] eqn:D; cbn [obind] in H; try discriminate.
    destruct (negb (String.eqb (m_title (f_meta b)) "")); [discriminate|]. destruct (negb (String.eqb (m_description (f_meta b)) "")); [discriminate|].
    injection H as <-. cbn [with_title f_versions]. unfold decode_advisory in D.
    destruct (field_req _ "advisory" t) as [m| |]; cbn [obind] in D; try discriminate. destruct (field_opt _ "affected" t) as [af| |]; cbn [obind] in D; try discriminate.
    destruct (field_req (decode_versions x) "versions" t) as [vs| |] eqn:E; cbn [obind] in D; try discriminate. injection D as <-. cbn [f_versions].
    unfold field_req in E. destruct (tget "versions" t) as [v|]; [|discriminate]. destruct v as [| | | |vt]; try discriminate E. cbn [decode_versions] in E.
    destruct (field_req _ "patched" vt) as [p0| |]; cbn [obind] in E; try discriminate. destruct (field_def _ _ "unaffected" vt) as [u0| |]; cbn [obind] in E; try discriminate. eauto.
  Qed.
  Lemma file_cases dir f : match export_file x toml cal mt head dest dir f with Ok _ => True | Err => export_refuses dir f | Panic => export_crashes dir f end.
  Proof.
    unfold export_file. pose proof (load_cases f) as C. destruct (load_advisory x toml f) as [a| |] eqn:L; cbn [obind].
    - destruct (publishable a) eqn:P; [|exact Logic.I]. apply publishable_iff in P. destruct (git_path head (place dir f)) as [q| |] eqn:G; cbn [obind].
      + pose proof (git_path_same head _ _ G) as ->. destruct (loaded_versions f a L) as (p & u & V).
        destruct (from_rustsec x cal mt (place dir f) a) as [o| |] eqn:E; cbn [obind]; [exact Logic.I| |].
        * exfalso. destruct (C67_exported_exactly x cal mt (place dir f) a p u V) as [[_ A] [_ B]].
          assert (NE : ~ exportable x cal mt (place dir f) a) by (intros X; destruct (C67_exported_exactly x cal mt (place dir f) a p u V) as [[K _] _]; destruct (K X) as [o Eo]; congruence).
          destruct (C67_exported_exactly x cal mt (place dir f) a p u V) as [_ [K _]]. rewrite (K NE) in E. discriminate.
        * right. exists a. split; [exact L|]. split; [exact P|]. split; [exact G|]. apply (proj2 (C67_exported_exactly x cal mt (place dir f) a p u V)). exact E.
      + right. right. exists a. split; [exact L|]. split; [exact P|]. intros q X. congruence.
      + exfalso. unfold git_path in G. destruct (starts_with "/" _); [discriminate|]. destruct (has_relative_path head _); discriminate.
    - destruct (df_text f) as [s|] eqn:T; [|left; exact T]. right. left. exists s. split; [exact T|congruence].
    - left. unfold loading_crashes. destruct (df_text f) as [s|]; [|congruence]. exists s. split; [reflexivity|congruence].
  Qed.
  Lemma files_cases dir fs : match snd (export_files x toml cal mt head dest dir fs) with
    | Ok _ => True | Err => exists f, In f fs /\ export_refuses dir f | Panic => exists f, In f fs /\ export_crashes dir f end.
  Proof.
    induction fs as [|f fs IH]; cbn [export_files]; [exact Logic.I|]. pose proof (file_cases dir f) as C.
    destruct (export_file x toml cal mt head dest dir f) as [w| |]; [|exists f; split; [left; reflexivity|exact C]|exists f; split; [left; reflexivity|exact C]].
    destruct (export_files x toml cal mt head dest dir fs) as [ws e]. cbn [snd] in *.
    destruct e; [exact Logic.I| |]; destruct IH as (g & J & G); exists g; (split; [right; exact J|exact G]).
  Qed.
  Lemma dirs_cases es : match snd (export_dirs x toml cal mt head dest es) with
    | Ok _ => True
    | Err => exists e, In e es /\ (de_files e = None \/ exists fs f, de_files e = Some fs /\ In f fs /\ export_refuses (de_name e) f)
    | Panic => exists e fs f, In e es /\ de_files e = Some fs /\ In f fs /\ export_crashes (de_name e) f
    end.
  Proof.
    induction es as [|e es IH]; cbn [export_dirs]; [exact Logic.I|]. destruct (de_files e) as [fs|] eqn:F; [|exists e; split; [left; reflexivity|left; exact F]].
    pose proof (files_cases (de_name e) fs) as C. destruct (export_files x toml cal mt head dest (de_name e) fs) as [w r]. cbn [snd] in C. destruct r as [[]| |].
    - destruct (export_dirs x toml cal mt head dest es) as [ws o]. cbn [snd] in *. destruct o; [exact Logic.I| |].
      + destruct IH as (g & J & G). exists g. split; [right; exact J|exact G].
      + destruct IH as (g & fs' & f & J & G). exists g, fs', f. split; [right; exact J|exact G].
    - cbn [snd]. destruct C as (f & J & R). exists e. split; [left; reflexivity|]. right. exists fs, f. auto.
    - cbn [snd]. destruct C as (f & J & R). exists e, fs, f. split; [left; reflexivity|]. auto.
  Qed.
  Theorem C83_export : forall t,
    match snd (export_all x toml cal mt head dest t) with
    | Ok _ => True
    | Err => dt_crates t = None \/
             exists es, dt_crates t = Some es /\
               ((exists e, In e es /\ de_files e = None) \/ (exists dir f, repo_file t dir f /\ export_refuses dir f) \/ ~ exists dir f, repo_file t dir f)
    | Panic => exists dir f, repo_file t dir f /\ export_crashes dir f
    end.
  Proof.
    intros t. unfold export_all. destruct (dt_crates t) as [es|] eqn:T; [|left; reflexivity].
    pose proof (dirs_cases es) as C. destruct (export_dirs x toml cal mt head dest es) as [w r]. cbn [snd] in C. destruct r as [[]| |]; cbn [snd].
    - destruct (existsb _ es) eqn:X; cbn [snd]; [exact Logic.I|]. right. exists es. split; [reflexivity|]. right. right.
      intros (dir & f & es' & e & fs & T' & I & _ & F & J). rewrite T in T'. injection T' as <-.
      assert (Y : existsb (fun e => match de_files e with Some (_ :: _) => true | _ => false end) es = true).
      { apply existsb_exists. exists e. split; [exact I|]. rewrite F. destruct fs; [destruct J|reflexivity]. }
      congruence.
    - right. exists es. split; [reflexivity|]. destruct C as (e & I & [F|(fs & f & F & J & R)]); [left; eauto|]. right. left.
      exists (de_name e), f. split; [exists es, e, fs; auto|exact R].
    - destruct C as (e & fs & f & I & F & J & R). exists (de_name e), f. split; [exists es, e, fs; auto|exact R].
  Qed.
End Walk.
Print Assumptions C83_database.
Print Assumptions C83_lint.
Print Assumptions C83_export.

(** `list-affected-versions` has no error exit: it lists everything or crashes, and it crashes exactly for an advisory
    against a crate that the index does not have (or cannot give), or one of whose versions is not a version. *)
Theorem C83_list_versions : forall checks index advs,
  (forall a, In a advs -> a_collection a <> None /\
     let reqs := (patched (a_versions a) ++ unaffected (a_versions a))%list in
     reqs_wf reqs /\ no_silent_overflow checks reqs /\ exists p u, versions_new checks p u = Ok (a_versions a)) ->
  process_all checks index advs <> Err /\
  (process_all checks index advs = Panic <->
   exists a, In a advs /\ a_collection a = Some Crates /\
     (index (a_package a) = None \/ exists texts s, index (a_package a) = Some texts /\ In s texts /\ parse_version s = None)).
Proof.
  intros checks index. induction advs as [|a advs IH]; intros W; cbn [process_all].
  - split; [discriminate|]. split; [discriminate|intros (a & [] & _)].
  - destruct (IH (fun b J => W b (or_intror J))) as [I1 I2]. destruct (W a (or_introl eq_refl)) as (Cn & WF & NO & p & u & N).
    assert (SK : (exists b, In b advs /\ a_collection b = Some Crates /\ (index (a_package b) = None \/ exists texts s, index (a_package b) = Some texts /\ In s texts /\ parse_version s = None)) ->
                 exists b, In b (a :: advs) /\ a_collection b = Some Crates /\ (index (a_package b) = None \/ exists texts s, index (a_package b) = Some texts /\ In s texts /\ parse_version s = None)).
    { intros (b & J & Q). exists b. split; [right; exact J|exact Q]. }
    destruct (a_collection a) as [[]|] eqn:C; [| |congruence].
    + assert (EV : a_versions a = mkVersions p u).
      { unfold versions_new in N. destruct (unaffected_to_osv_ranges checks u p); cbn [obind] in N; try discriminate. congruence. }
      assert (ONE : (exists ls, process_one checks index a = Ok ls) /\ (forall texts s, index (a_package a) = Some texts -> In s texts -> parse_version s <> None) /\ index (a_package a) <> None \/
                    process_one checks index a = Panic /\ (index (a_package a) = None \/ exists texts s, index (a_package a) = Some texts /\ In s texts /\ parse_version s = None)).
      { unfold process_one. destruct (index (a_package a)) as [texts|]; [|right; split; [reflexivity|left; reflexivity]].
        assert (V : (exists ls, version_lines checks (a_versions a) texts = Ok ls) /\ (forall s, In s texts -> parse_version s <> None) \/
                    version_lines checks (a_versions a) texts = Panic /\ exists s, In s texts /\ parse_version s = None).
        { unfold version_lines. induction texts as [|s texts IHt]; cbn [omap]; [left; split; [eexists; reflexivity|intros s []]|].
          destruct (parse_version s) as [v|] eqn:P; cbn [obind]; [|right; split; [reflexivity|exists s; split; [left; reflexivity|exact P]]].
          rewrite EV in *. cbn [patched unaffected] in *.
          destruct (is_vulnerable_correct _ _ _ _ _ WF NO (proj1 (parse_version_inv _ _ P)) N) as (c & B & _). rewrite B. cbn [obind].
          destruct IHt as [[[ls E] K]|[E (s' & J & Q)]]; rewrite E; cbn [obind].
          - left. split; [eexists; reflexivity|]. intros s' [<-|J]; [congruence|exact (K s' J)].
          - right. split; [reflexivity|]. exists s'. split; [right; exact J|exact Q]. }
        destruct V as [[E K]|[E (s & J & Q)]]; [left; split; [exact E|]; split; [intros texts' s [= <-]; apply K|discriminate]|].
        right. split; [exact E|]. right. exists texts, s. auto. }
      destruct ONE as [[[ls E] [K Nn]]|[E Q]]; rewrite E; cbn [obind].
      * destruct (process_all checks index advs) as [rest| |]; cbn [obind]; [|congruence|].
        -- split; [discriminate|]. split; [discriminate|]. intros (b & [<-|J] & Cb & Q).
           ++ destruct Q as [Q|(texts & s & T & Is & Ps)]; [congruence|]. destruct (K texts s T Is Ps).
           ++ assert (X : (Ok rest : outcome (list (adv_id * list (string * bool)))) = Panic) by (apply I2; exists b; auto). discriminate.
        -- split; [discriminate|]. split; [intros _; apply SK, I2; reflexivity|reflexivity].
      * split; [discriminate|]. split; [intros _; exists a; split; [left; reflexivity|split; [exact C|exact Q]]|reflexivity].
    + split; [exact I1|]. rewrite I2. split; [exact SK|]. intros (b & [<-|J] & Cb & Q); [congruence|exists b; auto].
Qed.
Print Assumptions C83_list_versions.

(** ** Instances *)
Definition req_clash (s : string) : option version_req :=
  if String.eqb s "= 1.2.3" then Some [cmpr OpExact 1 2 3 []] else if String.eqb s "> 1.2.3" then Some [cmpr OpGreater 1 2 3 []] else None.
Definition ext_clash : externals := mkExt civil_of visible_norm req_clash false.
Definition clash_doc (patched : list string) : ttable :=
  [("advisory", TTab [("id", TStr "RUSTSEC-2024-0001"); ("package", TStr "my-crate"); ("date", TStr "2024-03-09")]); ("versions", TTab [("patched", TArr (map TStr patched))])].
Definition toml_clash (s : string) : option ttable := Some (clash_doc ["= 1.2.3"; "> 1.2.3"]).
Definition cut_text : string := "aaaaaaaaaaaaaaaaaaa" ++ String (ascii_of_N 195) (String (ascii_of_N 169) "a").
Definition clash_tree (text : string) : dtree := mkDTree (Some [mkDEntry "my-crate" (Some [mkDFile "RUSTSEC-2024-0001.md" (Some text)])]) None.
(** One such file makes the database, and with it every command, crash; `= 1.2.3` and `> 1.2.3` may each be listed alone. *)
Example C83_nonvacuous :
  (forall s t, toml_clash s = Some t -> one_each (TTab t)) /\ cut_character cut_text /\
  file_with toml_clash (data_of "x") (clash_doc ["= 1.2.3"; "> 1.2.3"]) /\ clashing_versions ext_clash (clash_doc ["= 1.2.3"; "> 1.2.3"]) /\
  (exists a, says ext_clash (clash_doc ["= 1.2.3"]) a) /\
  (forall k v, k <> "versions" -> In (k, v) (clash_doc ["= 1.2.3"]) <-> In (k, v) (clash_doc ["= 1.2.3"; "> 1.2.3"])) /\
  full_from_str ext_clash toml_clash (data_of "x") = Panic /\ full_from_str ext_clash toml_clash cut_text = Panic /\
  (forall text, In text [data_of "x"; cut_text] -> db_open (fs_tree_of ext_clash toml_clash (to_db (fun _ => SevNone) (fun _ => "")) (clash_tree text)) = Panic) /\
  (forall text lock index, In text [data_of "x"; cut_text] -> lint_status ext_clash toml_clash (to_db (fun _ => SevNone) (fun _ => "")) true lock index (clash_tree text) = Panic) /\
  (forall text, In text [data_of "x"; cut_text] -> snd (export_all ext_clash toml_clash gregorian some_times (Some []) "out" (clash_tree text)) = Panic).
Proof.
  assert (W : forall ps, one_each (TTab (clash_doc ps))).
  { intros ps. unfold clash_doc. apply oe_tab; [cbn; repeat (constructor; [cbn; intuition discriminate|]); constructor|].
    intros k v [E|[E|[]]]; apply (f_equal snd) in E; cbn [snd] in E; subst v; [one_each_tac|].
    apply oe_tab; [cbn; repeat (constructor; [cbn; intuition discriminate|]); constructor|]. intros k' v [E|[]]. apply (f_equal snd) in E. cbn [snd] in E. subst v.
    apply oe_arr. intros w I. apply in_map_iff in I as (s & <- & _). constructor. }
  split; [intros s t [= <-]; apply W|]. split.
  { split; [intros [r E]; discriminate|]. eexists. split; [reflexivity|]. vm_compute. split; [discriminate|reflexivity]. }
  split.
  { destruct (C16_split_sound (data_of "x") (mkParts "x" ("# Reads too far" ++ NL ++ NL ++ "By one byte." ++ NL) "Reads too far" "By one byte.")) as (rf & gap & rt & rd & A1 & A2 & A3 & _); [vm_compute; reflexivity|].
    exists rf, gap, rt, rd, "x", (front_document "x"). repeat (split; [assumption|]). split; [apply document_iff; reflexivity|reflexivity]. }
  split.
  { exists [("patched", TArr (map TStr ["= 1.2.3"; "> 1.2.3"]))], [[cmpr OpExact 1 2 3 []]; [cmpr OpGreater 1 2 3 []]], []. split; [right; left; reflexivity|].
    split; [exists (TArr (map TStr ["= 1.2.3"; "> 1.2.3"])); split; [left; reflexivity|]; exists ["= 1.2.3"; "> 1.2.3"]; split; [reflexivity|repeat constructor; reflexivity]|].
    split; [right; split; [|reflexivity]|vm_compute; reflexivity]. intros v [E|[]]; discriminate. }
  split. { eexists. apply (C78_document ext_clash _ _ (W ["= 1.2.3"])). vm_compute. reflexivity. }
  split. { intros k v N. split; intros [E|[E|[]]]; try (left; exact E); injection E as <- _; destruct (N eq_refl). }
  split; [vm_compute; reflexivity|]. split; [vm_compute; reflexivity|].
  split; [intros text [<-|[<-|[]]]; vm_compute; reflexivity|]. split; [intros text lock index [<-|[<-|[]]]; vm_compute; reflexivity|intros text [<-|[<-|[]]]; vm_compute; reflexivity].
Qed.
