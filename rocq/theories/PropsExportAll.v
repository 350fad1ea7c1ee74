(** Property theorems C70: the export of the whole database. *)
From Coq Require Import List NArith ZArith Ascii String Bool Lia.
From Verif Require Import Base StrLib SemverModel OsvModel OsvSpec IdModel IdSpec IdProofs VerText PkgModel DbModel DbSpec DbProofs PropsDb
  UrlModel CvssText ScanModel AdvModel LintModel MtimeModel PropsMtime OsvAdvModel OsvAdvSpec PropsOsvAdv PropsOsvAdv2 AdminModel.
From Verif Require PropsId.
Import ListNotations.
Local Open Scope string_scope.

(** The file lies at crates/dir/name. *)
Definition repo_file (t : dtree) (dir : string) (f : dfile) : Prop :=
  exists es e fs, dt_crates t = Some es /\ In e es /\ de_name e = dir /\ de_files e = Some fs /\ In f fs.
(** Kinds of informational advisories the export knows; vulnerabilities have none. *)
Definition known_kind (a : full_advisory) : Prop := forall s, m_informational (f_meta a) <> Some (IOther s).

Lemma publishable_iff a : publishable a = true <-> known_kind a.
Proof.
  unfold publishable, known_kind. destruct (m_informational (f_meta a)) as [[]|]; split; intros H; try reflexivity; try discriminate; try congruence.
  exfalso. apply (H s). reflexivity.
Qed.

Section Export.
  Context (x : externals) (toml : string -> option ttable) (cal : Z -> Z * N * N) (mt : mod_times) (head : option tree) (dest : string).
  Notation one := (export_file x toml cal mt head dest).
  Notation all := (export_all x toml cal mt head dest).

  (** How one file is exported. *)
  Definition exports (dir : string) (f : dfile) (p : string) (doc : json) : Prop :=
    exists a o, load_advisory x toml f = Ok a /\ known_kind a /\
      git_path head ("crates/" ++ dir ++ "/" ++ df_name f) = Ok ("crates/" ++ dir ++ "/" ++ df_name f) /\
      from_rustsec x cal mt ("crates/" ++ dir ++ "/" ++ df_name f) a = Ok o /\
      p = output_path dest (id_string (m_id (f_meta a))) /\ doc = osv_to_json o.
  Definition skipped (f : dfile) : Prop := exists a, load_advisory x toml f = Ok a /\ ~ known_kind a.

  Lemma git_path_same p q : git_path head p = Ok q -> q = p.
  Proof. unfold git_path. destruct (starts_with "/" p); [discriminate|]. destruct (has_relative_path head p); congruence. Qed.
  Lemma one_in dir f w p doc : one dir f = Ok w -> In (p, doc) w -> exports dir f p doc.
  Proof.
    unfold export_file. intros H I. destruct (load_advisory x toml f) as [a| |] eqn:L; cbn [obind] in H; try discriminate.
    destruct (publishable a) eqn:P; [|injection H as <-; destruct I]. destruct (git_path head _) as [q| |] eqn:G; cbn [obind] in H; try discriminate.
    pose proof (git_path_same _ _ G) as ->. destruct (from_rustsec x cal mt _ a) as [o| |] eqn:E; cbn [obind] in H; try discriminate.
    injection H as <-. destruct I as [[= <- <-]|[]]. exists a, o. repeat split; auto. apply publishable_iff, P.
  Qed.
  Lemma one_ok_iff dir f : (exists w, one dir f = Ok w) <-> (exists p doc, exports dir f p doc) \/ skipped f.
  Proof.
    unfold export_file, exports, skipped. split.
    - intros (w & H). destruct (load_advisory x toml f) as [a| |] eqn:L; cbn [obind] in H; try discriminate.
      destruct (publishable a) eqn:P.
      + destruct (git_path head _) as [q| |] eqn:G; cbn [obind] in H; try discriminate. pose proof (git_path_same _ _ G) as ->.
        destruct (from_rustsec x cal mt _ a) as [o| |] eqn:E; cbn [obind] in H; try discriminate. left. do 2 eexists. exists a, o.
        repeat split; auto. apply publishable_iff, P.
      + right. exists a. split; [reflexivity|]. rewrite <- publishable_iff. congruence.
    - intros [(p & doc & a & o & L & K & G & E & _)|(a & L & K)]; rewrite L; cbn [obind].
      + apply publishable_iff in K. rewrite K, G. cbn [obind]. rewrite E. eexists. reflexivity.
      + destruct (publishable a) eqn:P; [exfalso; apply K, publishable_iff, P|]. eexists. reflexivity.
  Qed.
  Lemma one_write dir f w p doc : one dir f = Ok w -> exports dir f p doc -> In (p, doc) w.
  Proof.
    unfold export_file. intros H (a & o & L & K & G & E & -> & ->). rewrite L in H. cbn [obind] in H. apply publishable_iff in K.
    rewrite K, G in H. cbn [obind] in H. rewrite E in H. injection H as <-. left. reflexivity.
  Qed.

  Lemma files_run dir fs : forall ws r, export_files x toml cal mt head dest dir fs = (ws, r) ->
    (forall p doc, In (p, doc) ws -> exists f, In f fs /\ exports dir f p doc) /\
    (r = Ok tt -> (forall f, In f fs -> exists w, one dir f = Ok w) /\ forall f p doc, In f fs -> exports dir f p doc -> In (p, doc) ws) /\
    ((forall f, In f fs -> exists w, one dir f = Ok w) -> r = Ok tt).
  Proof.
    induction fs as [|f fs IH]; intros ws r H; cbn [export_files] in H.
    - injection H as <- <-. repeat split; try tauto; intros; contradiction.
    - destruct (one dir f) as [w| |] eqn:E.
      + destruct (export_files x toml cal mt head dest dir fs) as [ws' r'] eqn:R. injection H as <- <-. destruct (IH _ _ eq_refl) as (A & B & C).
        split; [|split].
        * intros p doc I. apply in_app_or in I as [I|I]; [exists f; split; [left; reflexivity|exact (one_in _ _ _ _ _ E I)]|].
          destruct (A p doc I) as (g & J & X). exists g. split; [right; exact J|exact X].
        * intros ->. destruct (B eq_refl) as [B1 B2]. split.
          -- intros g [<-|J]; [eexists; exact E|exact (B1 g J)].
          -- intros g p doc [<-|J] X; apply in_or_app; [left; exact (one_write _ _ _ _ _ E X)|right; exact (B2 g p doc J X)].
        * intros K. apply C. intros g J. apply K. right. exact J.
      + injection H as <- <-. split; [intros p doc []|]. split; [discriminate|]. intros K. destruct (K f (or_introl eq_refl)) as [w W]. congruence.
      + injection H as <- <-. split; [intros p doc []|]. split; [discriminate|]. intros K. destruct (K f (or_introl eq_refl)) as [w W]. congruence.
  Qed.
  Lemma dirs_run es : forall ws r, export_dirs x toml cal mt head dest es = (ws, r) ->
    (forall p doc, In (p, doc) ws -> exists e fs f, In e es /\ de_files e = Some fs /\ In f fs /\ exports (de_name e) f p doc) /\
    (r = Ok tt -> (forall e, In e es -> exists fs, de_files e = Some fs /\ forall f, In f fs -> exists w, one (de_name e) f = Ok w) /\
       forall e fs f p doc, In e es -> de_files e = Some fs -> In f fs -> exports (de_name e) f p doc -> In (p, doc) ws) /\
    ((forall e, In e es -> exists fs, de_files e = Some fs /\ forall f, In f fs -> exists w, one (de_name e) f = Ok w) -> r = Ok tt).
  Proof.
    induction es as [|e es IH]; intros ws r H; cbn [export_dirs] in H.
    - injection H as <- <-. repeat split; try tauto; intros; contradiction.
    - destruct (de_files e) as [fs|] eqn:D.
      2:{ injection H as <- <-. split; [intros p doc []|]. split; [discriminate|]. intros K. destruct (K e (or_introl eq_refl)) as (fs & F & _). congruence. }
      destruct (export_files x toml cal mt head dest (de_name e) fs) as [w r1] eqn:R1. destruct (files_run _ _ _ _ R1) as (A1 & B1 & C1).
      assert (F1 : forall p doc, In (p, doc) w -> exists e0 fs0 f, In e0 (e :: es) /\ de_files e0 = Some fs0 /\ In f fs0 /\ exports (de_name e0) f p doc).
      { intros p doc I. destruct (A1 p doc I) as (f & J & X). exists e, fs, f. split; [left; reflexivity|]. auto. }
      destruct r1 as [[]| |].
      + destruct (export_dirs x toml cal mt head dest es) as [ws' r'] eqn:R. injection H as <- <-. destruct (IH _ _ eq_refl) as (A & B & C).
        split; [|split].
        * intros p doc I. apply in_app_or in I as [I|I]; [exact (F1 p doc I)|].
          destruct (A p doc I) as (e' & fs' & f & J & D' & J' & X). exists e', fs', f. split; [right; exact J|]. auto.
        * intros ->. destruct (B eq_refl) as [Ba Bb]. destruct (B1 eq_refl) as [Bc Bd]. split.
          -- intros e' [<-|J]; [exists fs; split; [exact D|exact Bc]|exact (Ba e' J)].
          -- intros e' fs' f p doc [<-|J] D' J' X; apply in_or_app; [left|right; eauto]. rewrite D in D'. injection D' as <-. eauto.
        * intros K. apply C. intros e' J. apply K. right. exact J.
      + injection H as <- <-. split; [exact F1|]. split; [discriminate|]. intros K. exfalso. destruct (K e (or_introl eq_refl)) as (fs' & F & O).
        rewrite D in F. injection F as <-. discriminate (C1 O).
      + injection H as <- <-. split; [exact F1|]. split; [discriminate|]. intros K. exfalso. destruct (K e (or_introl eq_refl)) as (fs' & F & O).
        rewrite D in F. injection F as <-. discriminate (C1 O).
  Qed.

  (** Whatever happens, only documents of advisories in the repository are written, complete and under their path. *)
  Theorem C70_written_documents : forall t ws r, all t = (ws, r) ->
    forall p doc, In (p, doc) ws -> exists dir f, repo_file t dir f /\ exports dir f p doc.
  Proof.
    intros t ws r H p doc I. unfold export_all in H. destruct (dt_crates t) as [es|] eqn:T; [|injection H as <- <-; destruct I].
    destruct (export_dirs x toml cal mt head dest es) as [w r1] eqn:R. destruct (dirs_run _ _ _ R) as (A & _ & _).
    assert (E : ws = w).
    { destruct r1 as [[]| |]; [destruct (existsb _ es)| |]; congruence. }
    subst ws. destruct (A p doc I) as (e & fs & f & J & D & J' & X). exists (de_name e), f. split; [|exact X].
    exists es, e, fs. auto.
  Qed.
  (** If it succeeds, every advisory of a known kind is written, and all the others could be read. *)
  Theorem C70_everything_is_written : forall t ws, all t = (ws, Ok tt) ->
    forall dir f, repo_file t dir f -> (exists p doc, exports dir f p doc /\ In (p, doc) ws) \/ skipped f.
  Proof.
    intros t ws H dir f (es & e & fs & T & J & <- & D & J'). unfold export_all in H. rewrite T in H.
    destruct (export_dirs x toml cal mt head dest es) as [w r1] eqn:R. destruct (dirs_run _ _ _ R) as (_ & B & _).
    destruct r1 as [[]| |]; try discriminate. destruct (B eq_refl) as [Ba Bb]. destruct (Ba e J) as (fs' & D' & O). rewrite D in D'. injection D' as <-.
    pose proof (proj1 (one_ok_iff _ _) (O f J')) as [(p & doc & X)|S]; [left|right; exact S]. exists p, doc. split; [exact X|].
    assert (E : ws = w) by (destruct (existsb _ es); congruence). subst ws. exact (Bb e fs f p doc J D J' X).
  Qed.
  (** Exactly when it succeeds. *)
  Theorem C70_succeeds_iff : forall t, (exists ws, all t = (ws, Ok tt)) <->
    exists es, dt_crates t = Some es /\ (forall e, In e es -> de_files e <> None) /\ (exists dir f, repo_file t dir f) /\
      forall dir f, repo_file t dir f -> (exists p doc, exports dir f p doc) \/ skipped f.
  Proof.
    intros t. split.
    - intros (ws & H). pose proof (C70_everything_is_written t ws H) as W. unfold export_all in H. destruct (dt_crates t) as [es|] eqn:T; [|discriminate]. exists es.
      destruct (export_dirs x toml cal mt head dest es) as [w r1] eqn:R. destruct (dirs_run _ _ _ R) as (_ & B & _).
      destruct r1 as [[]| |]; try discriminate. destruct (existsb _ es) eqn:X; [|discriminate]. destruct (B eq_refl) as [Ba _].
      split; [reflexivity|]. split; [intros e J; destruct (Ba e J) as (fs & -> & _); discriminate|]. split.
      + apply existsb_exists in X as (e & J & N). destruct (de_files e) as [[|f fs]|] eqn:D; try discriminate.
        exists (de_name e), f, es, e, (f :: fs). repeat split; auto. left. reflexivity.
      + intros dir f F. destruct (W dir f F) as [(p & doc & X' & _)|S]; [left; exists p, doc; exact X'|right; exact S].
    - intros (es & T & D & (dir0 & f0 & es0 & e0 & fs0 & T0 & J0 & _ & D0 & F0) & O). unfold export_all. rewrite T.
      destruct (export_dirs x toml cal mt head dest es) as [w r1] eqn:R. destruct (dirs_run _ _ _ R) as (_ & _ & C).
      rewrite C. 2:{ intros e J. destruct (de_files e) as [fs|] eqn:E; [|exfalso; exact (D e J E)]. exists fs. split; [reflexivity|]. intros f J'.
        apply one_ok_iff, O. exists es, e, fs. auto. }
      replace (existsb _ es) with true; [eexists; reflexivity|]. symmetry. apply existsb_exists. rewrite T in T0. injection T0 as <-. exists e0. split; [exact J0|].
      rewrite D0. destruct fs0; [destruct F0|reflexivity].
  Qed.
End Export.
Print Assumptions C70_written_documents.
Print Assumptions C70_everything_is_written.
Print Assumptions C70_succeeds_iff.

(** ** Paths *)
Definition plain (s : string) : Prop := has_char "." s = false /\ has_char "/" s = false.
Lemma has_char_srev' c s : has_char c (srev s) = has_char c s.
Proof. apply PropsId.has_char_srev. Qed.
Lemma last_component_join dest id : has_char "/" id = false -> last_component (dest ++ "/" ++ id) = (dest ++ "/", id).
Proof.
  intros P. unfold last_component. assert (E : split_once "/" (srev (dest ++ "/" ++ id)) = Some (srev id, srev dest)).
  { apply split_once_spec. split; [|rewrite has_char_srev'; exact P]. change ("/" ++ id) with (String "/" id). rewrite srev_sapp, srev_cons, sapp_assoc. reflexivity. }
  rewrite E, !srev_involutive. reflexivity.
Qed.
(** Plain ids are written to the destination under their own name. *)
Theorem C70_paths : forall dest id, plain id -> output_path dest id = dest ++ "/" ++ id ++ ".json".
Proof.
  intros dest id [D S]. unfold output_path.
  assert (E : starts_with "/" id = false).
  { apply starts_with_false. intros (t & ->). cbn in S. discriminate. }
  rewrite E, last_component_join by exact S. unfold json_name.
  rewrite (proj2 (split_once_none _ _)) by (rewrite has_char_srev'; exact D). rewrite sapp_assoc. reflexivity.
Qed.
Lemma paths_inj dest i j : plain i -> plain j -> output_path dest i = output_path dest j -> i = j.
Proof.
  intros P Q. rewrite !C70_paths by assumption. intros E. apply sapp_inj_l in E. apply sapp_inj_l in E.
  apply (f_equal srev) in E. rewrite !srev_sapp in E. apply sapp_inj_l in E. apply (f_equal srev) in E. rewrite !srev_involutive in E. exact E.
Qed.
Lemma written_in p ws doc : written p ws = Some doc -> In (p, doc) ws.
Proof.
  unfold written. intros H. apply in_rev. induction (rev ws) as [|[q d] l IH]; [discriminate|]. cbn [lookup] in H.
  destruct (String.eqb_spec q p) as [->|]; [injection H as ->; left; reflexivity|right; auto].
Qed.
Lemma written_some p ws doc : In (p, doc) ws -> exists doc', written p ws = Some doc'.
Proof.
  unfold written. intros H. apply in_rev in H. induction (rev ws) as [|[q d] l IH]; [destruct H|]. cbn [lookup].
  destruct (String.eqb_spec q p) as [->|N]; [eexists; reflexivity|]. apply IH. destruct H as [[= E _]|H]; [congruence|exact H].
Qed.

(** ** Consumers of the exported files see exactly what the database says. *)
Section Database.
  Context (x : externals) (toml : string -> option ttable) (cal : Z -> Z * N * N) (mt : mod_times) (head : option tree) (dest : string).
  Context (sev : cvss -> severity) (text : metadata -> string).
  Notation tree_of := (fs_tree_of x toml (to_db sev text)).

  Lemma repo_tree_file t dir f : repo_file t dir f -> ~ has_prefix "." (df_name f) ->
    tree_file (tree_of t) (mkPlaced "crates" dir (fs_file_of x toml (to_db sev text) f)).
  Proof.
    intros (es & e & fs & T & J & <- & D & J') N. exists (map (fs_entry_of x toml (to_db sev text)) es), (fs_entry_of x toml (to_db sev text) e), (map (fs_file_of x toml (to_db sev text)) fs).
    cbn [pl_coll pl_dir pl_file fs_tree_of t_crates]. rewrite T. split; [left; split; reflexivity|]. split; [apply in_map, J|]. split; [reflexivity|].
    unfold fs_entry_of. cbn [e_files]. rewrite D. split; [reflexivity|]. split; [apply in_map, J'|exact N].
  Qed.
  Lemma tree_repo_file t p : tree_file (tree_of t) p -> pl_coll p = "crates" -> exists f, repo_file t (pl_dir p) f /\ pl_file p = fs_file_of x toml (to_db sev text) f.
  Proof.
    intros (es & e & fs & C & J & N & D & J' & _) P. destruct C as [[_ T]|[Q _]]; [|congruence]. cbn [fs_tree_of t_crates] in T.
    destruct (dt_crates t) as [es0|] eqn:T0; [|discriminate]. injection T as <-. apply in_map_iff in J as (e0 & <- & J). unfold fs_entry_of in D. cbn [e_files] in D.
    destruct (de_files e0) as [fs0|] eqn:D0; [|discriminate]. injection D as <-. apply in_map_iff in J' as (f & E & J'). exists f. split; [|symmetry; exact E].
    exists es0, e0, fs0. cbn [e_name fs_entry_of] in N. auto.
  Qed.
  Lemma placed_advisory t db dir f a : db_open (tree_of t) = Ok db -> repo_file t dir f -> ~ has_prefix "." (df_name f) ->
    load_advisory x toml f = Ok a -> id_string (m_id (f_meta a)) <> "RUSTSEC-0000-0000" ->
    In (with_collection (to_db sev text a) Crates) (db_iter db).
  Proof.
    intros O F N L NP. destruct (C17_open_loads_exactly_the_files _ _ O) as (ps & advs & P & FG & E & _).
    set (q := mkPlaced "crates" dir (fs_file_of x toml (to_db sev text) f)).
    assert (I : In q ps) by (apply (C17_files_considered _ _ q P), repo_tree_file; assumption).
    assert (G : exists b, In b advs /\ file_gives q b).
    { clear - FG I. induction FG as [|p b ps advs G FG IH]; [destruct I|]. destruct I as [->|I]; [exists b; split; [left; reflexivity|exact G]|].
      destruct (IH I) as (b' & J & G'). exists b'. split; [right; exact J|exact G']. }
    destruct G as (b & J & (raw & c & stem & Pa & _ & _ & _ & _ & C & _ & ->)). cbn [pl_file q fs_file_of f_parsed] in Pa. rewrite L in Pa. cbn [obind] in Pa. injection Pa as <-.
    cbn [pl_coll q] in C. destruct c; [|discriminate]. rewrite E. apply filter_In. split; [exact J|]. unfold is_placeholder_adv. cbn [with_collection a_id to_db].
    apply negb_true_iff, String.eqb_neq. exact NP.
  Qed.
  Lemma advisory_placed t db b : db_open (tree_of t) = Ok db -> In b (db_iter db) -> a_collection b = Some Crates ->
    exists dir f a, repo_file t dir f /\ load_advisory x toml f = Ok a /\ b = with_collection (to_db sev text a) Crates.
  Proof.
    intros O I C. destruct (C17_open_loads_exactly_the_files _ _ O) as (ps & advs & P & FG & E & _). rewrite E in I. apply filter_In in I as [I _].
    assert (G : exists q, In q ps /\ file_gives q b).
    { clear - FG I. induction FG as [|p b' ps advs G FG IH]; [destruct I|]. destruct I as [->|I]; [exists p; split; [left; reflexivity|exact G]|].
      destruct (IH I) as (q & J & G'). exists q. split; [right; exact J|exact G']. }
    destruct G as (q & J & (raw & c & stem & Pa & _ & _ & _ & _ & Cq & _ & ->)). apply (C17_files_considered _ _ q P) in J.
    cbn [with_collection a_collection] in C. injection C as ->. destruct (tree_repo_file t q J Cq) as (f & F & Ef). rewrite Ef in Pa. cbn [fs_file_of f_parsed] in Pa.
    destruct (load_advisory x toml f) as [a| |] eqn:L; cbn [obind] in Pa; try discriminate. injection Pa as <-. exists (pl_dir q), f, a. auto.
  Qed.
  Lemma same_id db b b' : NoDup (map a_id (db_iter db)) -> In b (db_iter db) -> In b' (db_iter db) -> a_id b = a_id b' -> b = b'.
  Proof.
    induction (db_iter db) as [|c l IH]; intros N I I' E; [destruct I|]. inversion N as [|? ? NI N']; subst. destruct I as [->|I], I' as [->|I']; auto.
    - exfalso. apply NI. rewrite E. apply in_map, I'.
    - exfalso. apply NI. rewrite <- E. apply in_map, I.
  Qed.

  Theorem C70_consumers_see_the_database : forall t db ws name v,
    db_open (tree_of t) = Ok db -> export_all x toml cal mt head dest t = (ws, Ok tt) ->
    (forall dir f, repo_file t dir f -> ~ has_prefix "." (df_name f)) ->
    (forall a, In a (db_iter db) -> plain (id_string (a_id a)) /\ id_from_str (id_string (a_id a)) = Ok (a_id a)) ->
    (forall a, In a (db_iter db) -> reqs_wf (patched (a_versions a) ++ unaffected (a_versions a)) /\
       no_silent_overflow (x_checks x) (patched (a_versions a) ++ unaffected (a_versions a))) ->
    version_wf v = true ->
    forall i, i <> "RUSTSEC-0000-0000" ->
    (exists p doc, written p ws = Some doc /\ member "id" doc = Some (JStr i) /\ osv_verdict doc "crates.io" name v = Some true) <->
    (exists a, In a (db_iter db) /\ a_collection a = Some Crates /\ id_string (a_id a) = i /\ a_package a = name /\
       (forall s, a_informational a <> Some (IOther s)) /\ ~ declared_safe (patched (a_versions a) ++ unaffected (a_versions a)) v).
  Proof.
    intros t db ws name v O X ND PL WF V i NP. destruct (C17_open_loads_exactly_the_files _ _ O) as (_ & _ & _ & _ & _ & NDI).
    assert (DOC : forall p doc, In (p, doc) ws -> exists dir f a o, repo_file t dir f /\ load_advisory x toml f = Ok a /\ known_kind a /\
      p = output_path dest (id_string (m_id (f_meta a))) /\ doc = osv_to_json o /\ from_rustsec x cal mt ("crates/" ++ dir ++ "/" ++ df_name f) a = Ok o /\
      member "id" doc = Some (JStr (id_string (m_id (f_meta a))))).
    { intros p doc I. destruct (C70_written_documents _ _ _ _ _ _ _ _ _ X p doc I) as (dir & f & F & (a & o & L & K & _ & E & -> & ->)).
      exists dir, f, a, o. repeat split; auto. unfold from_rustsec in E. obinv E. injection E as <-. cbn. destruct (match m_withdrawn (f_meta a) with Some d => _ | None => _ end); reflexivity. }
    assert (VER : forall dir f a o, repo_file t dir f -> load_advisory x toml f = Ok a -> id_string (m_id (f_meta a)) <> "RUSTSEC-0000-0000" ->
      from_rustsec x cal mt ("crates/" ++ dir ++ "/" ++ df_name f) a = Ok o ->
      (osv_verdict (osv_to_json o) "crates.io" name v = Some true <-> name = m_package (f_meta a) /\ ~ declared_safe (patched (f_versions a) ++ unaffected (f_versions a)) v)).
    { intros dir f a o F L N E. pose proof (placed_advisory t db dir f a O F (ND dir f F) L N) as I. destruct (WF _ I) as [W NO]. cbn [with_collection a_versions to_db] in W, NO.
      destruct (C67_same_verdict x cal mt _ a o "crates.io" name v W NO V E) as (b & B & BI). rewrite B. split.
      - intros [= ->]. apply BI. reflexivity.
      - intros [-> S]. f_equal. apply BI. auto. }
    split.
    - intros (p & doc & W & M & B). apply written_in in W. destruct (DOC p doc W) as (dir & f & a & o & F & L & K & -> & -> & E & M'). rewrite M in M'. injection M' as ->.
      apply (VER dir f a o F L NP E) in B as [-> S]. exists (with_collection (to_db sev text a) Crates). split; [exact (placed_advisory t db dir f a O F (ND dir f F) L NP)|].
      cbn. repeat split; auto.
    - intros (b & I & C & <- & <- & K & S). destruct (advisory_placed t db b O I C) as (dir & f & a & F & L & ->). cbn in *.
      destruct (C70_everything_is_written _ _ _ _ _ _ _ _ X dir f F) as [(p & doc & (a' & o & L' & K' & _ & E & P & D) & J)|(a' & L' & K')]; rewrite L in L'; injection L' as <-.
      2:{ exfalso. apply K'. exact K. }
      destruct (written_some p ws doc J) as (doc' & W). exists p, doc'. split; [exact W|]. apply written_in in W.
      destruct (DOC p doc' W) as (dir' & f' & a' & o' & F' & L' & _ & P' & -> & E' & M'). rewrite M'.
      assert (PA : plain (id_string (m_id (f_meta a)))) by (apply (PL _ I)).
      assert (PH : plain "RUSTSEC-0000-0000") by (split; reflexivity).
      assert (SAME : id_string (m_id (f_meta a')) = id_string (m_id (f_meta a))).
      { destruct (string_dec (id_string (m_id (f_meta a'))) "RUSTSEC-0000-0000") as [Q|Q].
        - rewrite Q in *. symmetry. apply (paths_inj dest); auto. congruence.
        - assert (I' : In (with_collection (to_db sev text a') Crates) (db_iter db)) by (exact (placed_advisory t db dir' f' a' O F' (ND dir' f' F') L' Q)).
          apply (paths_inj dest); auto; [exact (proj1 (PL _ I'))|congruence]. }
      rewrite SAME. split; [reflexivity|]. assert (N' : id_string (m_id (f_meta a')) <> "RUSTSEC-0000-0000") by (rewrite SAME; exact NP).
      assert (I' : In (with_collection (to_db sev text a') Crates) (db_iter db)) by (exact (placed_advisory t db dir' f' a' O F' (ND dir' f' F') L' N')).
      assert (EQ : with_collection (to_db sev text a') Crates = with_collection (to_db sev text a) Crates).
      { apply (same_id db); auto. cbn. destruct (PL _ I) as [_ G]. destruct (PL _ I') as [_ G']. cbn in G, G'. rewrite SAME, G in G'. congruence. }
      apply (VER dir' f' a' o' F' L' N' E'). pose proof (f_equal a_package EQ) as E1. pose proof (f_equal a_versions EQ) as E2. cbn in E1, E2. rewrite E1, E2. auto.
  Qed.
End Database.
Print Assumptions C70_consumers_see_the_database.

(** ** Refuted *)
(** The texts of the examples: the front matter is the id and the package, separated by a space. *)
Definition small_doc (id package : string) : ttable :=
  [("advisory", TTab [("id", TStr id); ("package", TStr package); ("date", TStr "2024-03-09")]);
   ("versions", TTab [("patched", TArr [TStr "> 2.1.0"])])].
Definition toml2 (s : string) : option ttable :=
  match split_once PartsModel.nl s with
  | Some (_, l) => match split_once " " l with Some (i, p) => Some (small_doc i p) | None => None end
  | None => None
  end.
Definition file_text (id package : string) : string := data_of ("[advisory]" ++ NL ++ id ++ " " ++ package).
Definition small_file (name id package : string) : dfile := mkDFile name (Some (file_text id package)).
Definition small_tree (l : list (string * list dfile)) : dtree :=
  mkDTree (Some (map (fun p => mkDEntry (fst p) (Some (snd p))) l)) None.
Definition all_times (l : list string) : mod_times := mkTimes (map (fun p => (p, mkTime 1704107200 0)) l) [].
Definition some_times : mod_times := all_times ["crates/a/RUSTSEC-2024-0001.md"; "crates/b/RUSTSEC-2023-0007.md"; "crates/a/RUSTSEC-0000-0000.md";
  "crates/b/RUSTSEC-0000-0000.md"; "crates/a/A.1.md"; "crates/a/A.2.md"; "crates/a/x.md"].
Definition export_of (t : dtree) : list (string * json) * outcome unit := export_all extn toml2 gregorian some_times (Some []) "out" t.
Definition db_of (t : dtree) : outcome database := db_open (fs_tree_of extn toml2 (to_db (fun _ => SevNone) (fun _ => "")) t).
Definition opens (t : dtree) : bool := is_ok (db_of t).

(** The export does not stay in the destination, advisories the database accepts replace one another, drafts do, and a
    hidden file the database skips makes it fail. *)
Theorem C70_stays_in_destination_refuted : exists t ws p doc, export_of t = (ws, Ok tt) /\ In (p, doc) ws /\ p = "/etc/x.json".
Proof. exists (small_tree [("a", [small_file "x.md" "/etc/x" "a"])]). do 3 eexists. split; [vm_compute; reflexivity|]. split; [left; reflexivity|]. reflexivity. Qed.
Theorem C70_one_file_each_refuted : exists t ws db, db_of t = Ok db /\ export_of t = (ws, Ok tt) /\ List.length (db_iter db) = 2 /\
  (forall p, In p (map fst ws) -> p = "out/A.json").
Proof.
  exists (small_tree [("a", [small_file "A.1.md" "A.1" "a"; small_file "A.2.md" "A.2" "a"])]). do 2 eexists.
  split; [vm_compute; reflexivity|]. split; [vm_compute; reflexivity|]. split; [reflexivity|]. intros p [<-|[<-|[]]]; reflexivity.
Qed.
Theorem C70_drafts_refuted : exists t ws db, db_of t = Ok db /\ db_iter db = [] /\ export_of t = (ws, Ok tt) /\
  map fst ws = ["out/RUSTSEC-0000-0000.json"; "out/RUSTSEC-0000-0000.json"].
Proof.
  exists (small_tree [("a", [small_file "RUSTSEC-0000-0000.md" "RUSTSEC-0000-0000" "a"]); ("b", [small_file "RUSTSEC-0000-0000.md" "RUSTSEC-0000-0000" "b"])]). do 2 eexists.
  split; [vm_compute; reflexivity|]. split; [reflexivity|]. split; vm_compute; reflexivity.
Qed.
Theorem C70_database_opens_refuted : exists t, opens t = true /\ export_of t = ([], Err).
Proof.
  exists (small_tree [("a", [mkDFile ".DS_Store" (Some "x"); small_file "RUSTSEC-2024-0001.md" "RUSTSEC-2024-0001" "a"])]).
  split; vm_compute; reflexivity.
Qed.
Example C70_nonvacuous : exists t ws db, db_of t = Ok db /\ export_of t = (ws, Ok tt) /\
  map fst ws = ["out/RUSTSEC-2024-0001.json"; "out/RUSTSEC-2023-0007.json"] /\
  (forall dir f, repo_file t dir f -> ~ has_prefix "." (df_name f)) /\
  (forall a, In a (db_iter db) -> plain (id_string (a_id a)) /\ id_from_str (id_string (a_id a)) = Ok (a_id a)) /\
  (forall a, In a (db_iter db) -> reqs_wf (patched (a_versions a) ++ unaffected (a_versions a)) /\
       no_silent_overflow (x_checks extn) (patched (a_versions a) ++ unaffected (a_versions a))) /\
  (exists doc, written "out/RUSTSEC-2023-0007.json" ws = Some doc /\ osv_verdict doc "crates.io" "b" (mkVersion 2 0 0 [] []) = Some true).
Proof.
  exists (small_tree [("a", [small_file "RUSTSEC-2024-0001.md" "RUSTSEC-2024-0001" "a"]); ("b", [small_file "RUSTSEC-2023-0007.md" "RUSTSEC-2023-0007" "b"])]). do 2 eexists.
  split; [vm_compute; reflexivity|]. split; [vm_compute; reflexivity|]. split; [reflexivity|]. split; [|split; [|split]].
  - intros dir f (es & e & fs & [= <-] & J & <- & D & J'). destruct J as [<-|[<-|[]]]; injection D as <-; destruct J' as [<-|[]]; intros (s & E); discriminate E.
  - intros a J. destruct J as [<-|[<-|[]]]; repeat split; vm_compute; reflexivity.
  - intros a J. destruct J as [<-|[<-|[]]]; (split; [intros r Hr; repeat (destruct Hr as [<-|Hr]; [reflexivity|]); destruct Hr|]);
      right; intros r c Hr Hc;
      repeat (destruct Hr as [<-|Hr]; [repeat (destruct Hc as [<-|Hc]; [repeat split; intros ? E; inversion E; reflexivity|]); destruct Hc|]); destruct Hr.
  - eexists. split; [vm_compute; reflexivity|]. vm_compute. reflexivity.
Qed.
