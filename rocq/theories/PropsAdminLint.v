(** Property theorems C71 (linting a whole repository) and C72 (listing affected versions). *)
From Coq Require Import List NArith ZArith Ascii String Bool Lia Permutation Arith.
From Verif Require Import Base StrLib SemverModel OsvModel OsvSpec OsvProofs IdModel IdSpec VerText PkgModel DbModel DbSpec
  UrlModel CvssText ScanModel AdvModel LintModel MtimeModel OsvAdvModel SortProofs AdminModel PropsAudit2 CvssTextProofs PropsOsvAdv PropsOsvAdv2 PropsExportAll.
Import ListNotations.
Local Open Scope string_scope.

(** ** C71 *)
(** The files of the repository, all of them. *)
Definition files_of (es : list dentry) : list dfile := flat_map (fun e => match de_files e with Some fs => fs | None => [] end) es.
Definition readable (c : option (list dentry)) (fs : list dfile) : Prop :=
  exists es, c = Some es /\ (forall e, In e es -> de_files e <> None) /\ fs = files_of es.

Section Lint.
  Context (x : externals) (toml : string -> option ttable).
  (** The lint errors of a file, [None] if it cannot be linted. *)
  Definition file_errors (f : dfile) : option (list lint_error) :=
    match lint_file x toml (df_name f) (df_text f) with Ok l => Some (l_errors l) | _ => None end.
  Definition has_errors (f : dfile) : bool := match file_errors f with Some [] => false | _ => true end.
  (** The crate is in the index under this name, or is known to be deleted. *)
  Definition published_crate (index : index_answers) (a : full_advisory) : Prop :=
    m_expect_deleted (f_meta a) = true \/ index (m_package (f_meta a)) = Some (Ok (Some (m_package (f_meta a)))).

  Lemma lint_loads n s l : lint_file x toml n (Some s) = Ok l -> full_from_str x toml s = Ok (l_advisory l).
  Proof.
    unfold lint_file, lint_string. destruct (has_md_extension n); [|discriminate]. destruct (full_from_str x toml s) as [a| |]; cbn [obind]; try discriminate.
    destruct (PartsModel.parts_parse s) as [p| |]; cbn [obind]; try discriminate. destruct (toml (PartsModel.pt_front p)); [|discriminate].
    destruct (lint_advisory a (Some (is_draft_name n)) t) as [es| |]; cbn [obind]; try discriminate. intros [= <-]. reflexivity.
  Qed.
  Lemma one_lint f a n : admin_lint_advisory x toml f = Ok (a, n) <->
    (exists es, file_errors f = Some es /\ n = (if has_errors f then 1 else 0)) /\ load_advisory x toml f = Ok a.
  Proof.
    unfold admin_lint_advisory, has_errors, file_errors, load_advisory. destruct (df_text f) as [s|]; [|split; [discriminate|intros (_ & H); discriminate]].
    destruct (lint_file x toml (df_name f) (Some s)) as [l| |] eqn:L.
    - rewrite (lint_loads _ _ _ L). cbn [obind]. split.
      + intros [= <- <-]. split; [|reflexivity]. exists (l_errors l). split; [reflexivity|]. destruct (l_errors l); reflexivity.
      + intros ((es & [= <-] & ->) & [= <-]). destruct (l_errors l); reflexivity.
    - split; [|intros ((es & H & _) & _); discriminate]. destruct (full_from_str x toml s); discriminate.
    - split; [|intros ((es & H & _) & _); discriminate]. destruct (full_from_str x toml s); discriminate.
  Qed.
  (** The result of a collection: a rearrangement of the results of its files. *)
  Definition results (fs : list dfile) (l : list (full_advisory * nat)) : Prop :=
    Forall2 (fun f r => admin_lint_advisory x toml f = Ok r) fs l.
  Lemma collection_ok c l : lint_collection x toml c = Ok l -> exists fs fs', readable c fs /\ Permutation fs fs' /\ results fs' l.
  Proof.
    unfold lint_collection. destruct c as [es|]; [|discriminate]. destruct (omap (lint_dir x toml) (sort_names de_name es)) as [ls| |] eqn:O; cbn [obind]; try discriminate.
    intros [= <-]. apply omap_iff in O. pose proof (sort_perm (fun a b => str_cmp (de_name a) (de_name b)) es) as P. fold (sort_names de_name es) in P.
    assert (K : (forall e, In e (sort_names de_name es) -> de_files e <> None) /\ exists fs', Permutation (files_of (sort_names de_name es)) fs' /\ results fs' (List.concat ls)).
    { clear P. induction O as [|e l es' ls D O [IHa (fs' & IHb & IHc)]].
      - split; [intros e []|]. exists []. split; [reflexivity|constructor].
      - unfold lint_dir in D. destruct (de_files e) as [fs|] eqn:E; [|discriminate]. apply omap_iff in D. split.
        + intros e' [<-|J]; [congruence|exact (IHa e' J)].
        + exists (sort_names df_name fs ++ fs')%list. split.
          * unfold files_of. cbn [flat_map]. rewrite E. apply Permutation_app; [apply sort_perm|exact IHb].
          * cbn [List.concat]. apply Forall2_app; assumption. }
    destruct K as [Ka (fs' & Kb & Kc)]. exists (files_of es), fs'. split; [|split; [|exact Kc]].
    - exists es. split; [reflexivity|]. split; [|reflexivity]. intros e J. apply Ka. eapply Permutation_in; [exact P|exact J].
    - etransitivity; [|exact Kb]. apply Permutation_flat_map. exact P.
  Qed.
  Lemma collection_total c fs : readable c fs -> (forall f, In f fs -> exists r, admin_lint_advisory x toml f = Ok r) -> exists l, lint_collection x toml c = Ok l.
  Proof.
    intros (es & -> & D & ->) H. unfold lint_collection.
    destruct (proj2 (omap_ok_iff (lint_dir x toml) (sort_names de_name es))) as [ls ->]; [|cbn [obind]; eexists; reflexivity].
    intros e J. apply (Permutation_in e (Permutation_sym (sort_perm _ es))) in J. unfold lint_dir. destruct (de_files e) as [fs|] eqn:E; [|exfalso; exact (D e J E)].
    apply omap_ok_iff. intros f J'. apply H. apply in_flat_map. exists e. split; [exact J|]. rewrite E. apply (Permutation_in f (Permutation_sym (sort_perm _ fs)) J').
  Qed.
  Lemma results_in fs l : results fs l -> forall f, In f fs -> exists r, In r l /\ admin_lint_advisory x toml f = Ok r.
  Proof.
    induction 1 as [|f r fs l E F IH]; intros g [].
    - subst g. exists r. split; [left; reflexivity|exact E].
    - destruct (IH g) as (r' & J & E'); [assumption|]. exists r'. split; [right; exact J|exact E'].
  Qed.
  Lemma results_in' fs l : results fs l -> forall r, In r l -> exists f, In f fs /\ admin_lint_advisory x toml f = Ok r.
  Proof.
    induction 1 as [|f r fs l E F IH]; intros g [].
    - subst g. exists f. split; [left; reflexivity|exact E].
    - destruct (IH g) as (r' & J & E'); [assumption|]. exists r'. split; [right; exact J|exact E'].
  Qed.
  Lemma results_count fs l : results fs l -> count l = List.length (filter has_errors fs).
  Proof.
    induction 1 as [|f [a n] fs l E F IH]; [reflexivity|]. cbn [count fold_right snd filter]. fold (count l). rewrite IH. apply one_lint in E as [(es & _ & ->) _].
    destruct (has_errors f); reflexivity.
  Qed.
  Lemma filter_perm {A} (p : A -> bool) l l' : Permutation l l' -> List.length (filter p l) = List.length (filter p l').
  Proof.
    induction 1 as [|a l l' P IH|a b l|l1 l2 l3 P1 IH1 P2 IH2]; cbn [filter]; [reflexivity|destruct (p a); cbn; congruence| |congruence].
    destruct (p a), (p b); reflexivity.
  Qed.
  Lemma crates_io_iff index a : crates_io_ok index a = true <-> published_crate index a.
  Proof.
    unfold crates_io_ok, published_crate. destruct (m_expect_deleted (f_meta a)); [tauto|]. destruct (index (m_package (f_meta a))) as [[[n|]| |]|];
      try (split; [discriminate|intros [D|D]; discriminate D]). rewrite String.eqb_eq. split; [intros ->; right; reflexivity|intros [D|[= ->]]; [discriminate|reflexivity]].
  Qed.
  Lemma crates_io_all index fs fs' l : Permutation fs fs' -> results fs' l ->
    (forallb (crates_io_ok index) (map fst l) = true <-> forall f a, In f fs -> load_advisory x toml f = Ok a -> published_crate index a).
  Proof.
    intros P R. rewrite forallb_forall. split.
    - intros H f a J L. apply (Permutation_in f P) in J. destruct (results_in _ _ R f J) as ([a' n] & I & E). apply one_lint in E as [_ E]. rewrite L in E. injection E as <-.
      apply crates_io_iff, H. apply in_map_iff. exists (a, n). auto.
    - intros H a I. apply in_map_iff in I as ([a' n] & <- & I). destruct (results_in' _ _ R _ I) as (f & J & E). apply one_lint in E as [_ E].
      apply crates_io_iff. apply (H f); [|exact E]. exact (Permutation_in f (Permutation_sym P) J).
  Qed.

  (** The number of invalid advisories is the number of files with errors; it is only computed when every entry can be
      linted and, if the index can be used, every crate is published. *)
  Theorem C71_count : forall lock index t n, admin_lint x toml lock index t = Ok n <->
    exists cs rs, readable (dt_crates t) cs /\ readable (dt_rust t) rs /\
      (forall f, In f cs \/ In f rs -> exists es, file_errors f = Some es) /\
      (lock = true -> forall f a, In f cs -> load_advisory x toml f = Ok a -> published_crate index a) /\
      n = List.length (filter has_errors (cs ++ rs)).
  Proof.
    intros lock index t n. unfold admin_lint. split.
    - destruct (lint_collection x toml (dt_crates t)) as [lc| |] eqn:C; cbn [obind]; try discriminate.
      destruct (crates_io_lints lock index (map fst lc)) as [[]| |] eqn:I; cbn [obind]; try discriminate.
      destruct (lint_collection x toml (dt_rust t)) as [lr| |] eqn:R; cbn [obind]; try discriminate. intros [= <-].
      apply collection_ok in C as (cs & cs' & RC & PC & FC), R as (rs & rs' & RR & PR & FR). exists cs, rs. split; [exact RC|]. split; [exact RR|].
      split; [|split].
      + intros f [J|J].
        * destruct (results_in _ _ FC f (Permutation_in f PC J)) as ([a m] & _ & E). apply one_lint in E as [(es & E & _) _]. eauto.
        * destruct (results_in _ _ FR f (Permutation_in f PR J)) as ([a m] & _ & E). apply one_lint in E as [(es & E & _) _]. eauto.
      + intros ->. unfold crates_io_lints in I. apply (crates_io_all index cs cs' lc PC FC). destruct (forallb _ _); [reflexivity|discriminate].
      + rewrite (results_count _ _ FC), (results_count _ _ FR), filter_app, app_length, (filter_perm _ _ _ PC), (filter_perm _ _ _ PR). reflexivity.
    - intros (cs & rs & RC & RR & E & K & ->).
      assert (T : forall f, In f cs \/ In f rs -> exists r, admin_lint_advisory x toml f = Ok r).
      { intros f J. destruct (E f J) as [es F]. pose proof F as F0. unfold file_errors in F0. destruct (df_text f) as [s|] eqn:S.
        - destruct (lint_file x toml (df_name f) (Some s)) as [l| |] eqn:L; try discriminate. exists (l_advisory l, if has_errors f then 1 else 0). apply one_lint.
          split; [exists es; auto|]. unfold load_advisory. rewrite S. exact (lint_loads _ _ _ L).
        - unfold lint_file in F0. destruct (has_md_extension (df_name f)); discriminate. }
      destruct (collection_total _ _ RC (fun f J => T f (or_introl J))) as [lc C]. destruct (collection_total _ _ RR (fun f J => T f (or_intror J))) as [lr R].
      rewrite C, R. cbn [obind]. apply collection_ok in C as (cs2 & cs' & RC2 & PC & FC), R as (rs2 & rs' & RR2 & PR & FR).
      assert (cs2 = cs) as -> by (destruct RC as (e1 & A1 & _ & ->), RC2 as (e2 & A2 & _ & ->); congruence).
      assert (rs2 = rs) as -> by (destruct RR as (e1 & A1 & _ & ->), RR2 as (e2 & A2 & _ & ->); congruence).
      unfold crates_io_lints. destruct lock.
      + rewrite (proj2 (crates_io_all index cs cs' lc PC FC) (K eq_refl)). cbn [obind].
        rewrite (results_count _ _ FC), (results_count _ _ FR), filter_app, app_length, (filter_perm _ _ _ PC), (filter_perm _ _ _ PR). reflexivity.
      + cbn [obind]. rewrite (results_count _ _ FC), (results_count _ _ FR), filter_app, app_length, (filter_perm _ _ _ PC), (filter_perm _ _ _ PR). reflexivity.
  Qed.

  (** The command succeeds exactly for a repository which the database accepts, with at least one published advisory, and
      whose entries are all well-formed advisories without lint errors of published crates. *)
  Theorem C71_exit_zero : forall todb index_ok lock index t, lint_status x toml todb index_ok lock index t = Ok 0 <->
    index_ok = true /\ (exists db, db_open (fs_tree_of x toml todb t) = Ok db /\ db_iter db <> []) /\
    exists cs rs, readable (dt_crates t) cs /\ readable (dt_rust t) rs /\
      (forall f, In f cs \/ In f rs -> file_errors f = Some []) /\
      (lock = true -> forall f a, In f cs -> load_advisory x toml f = Ok a -> published_crate index a).
  Proof.
    intros todb index_ok lock index t. unfold lint_status. split.
    - destruct (db_open (fs_tree_of x toml todb t)) as [db| |] eqn:O; try discriminate. destruct index_ok; [|discriminate]. cbn [negb].
      destruct (db_iter db) as [|a0 r0] eqn:I; [discriminate|]. destruct (admin_lint x toml lock index t) as [n| |] eqn:L; try discriminate. destruct n; [|discriminate]. intros _.
      split; [reflexivity|]. split; [exists db; split; [reflexivity|congruence]|]. apply C71_count in L as (cs & rs & RC & RR & E & K & N). exists cs, rs.
      split; [exact RC|]. split; [exact RR|]. split; [|exact K]. intros f J. destruct (E f J) as [es F]. rewrite F. f_equal.
      destruct (has_errors f) eqn:H.
      + exfalso. assert (J' : In f (filter has_errors (cs ++ rs))) by (apply filter_In; split; [apply in_or_app; exact J|exact H]).
        destruct (filter has_errors (cs ++ rs)); [destruct J'|discriminate N].
      + unfold has_errors in H. rewrite F in H. destruct es; [reflexivity|discriminate].
    - intros (-> & (db & -> & N) & cs & rs & RC & RR & E & K). cbn [negb]. destruct (db_iter db) as [|a0 r0]; [exfalso; apply N; reflexivity|].
      replace (admin_lint x toml lock index t) with (Ok 0); [reflexivity|]. symmetry. apply C71_count. exists cs, rs. split; [exact RC|]. split; [exact RR|].
      split; [intros f J; exists []; exact (E f J)|]. split; [exact K|].
      assert (F : filter has_errors (cs ++ rs) = []).
      { assert (A : forall f, In f (cs ++ rs) -> has_errors f = false) by (intros f J; apply in_app_or in J; unfold has_errors; rewrite (E f J); reflexivity).
        clear - A. induction (cs ++ rs)%list as [|f l IH]; [reflexivity|]. cbn [filter]. rewrite (A f) by (left; reflexivity). apply IH. intros g J. apply A. right. exact J. }
      rewrite F. reflexivity.
  Qed.
End Lint.
Print Assumptions C71_count.
Print Assumptions C71_exit_zero.

(** The database opens repositories which the linter refuses: without the directory of the Rust collection, or with a hidden
    file.  Conversely, without the package lock the linter accepts crates nobody ever published. *)
Definition status_of (lock : bool) (index : index_answers) (t : dtree) : outcome nat :=
  lint_status extn toml2 (to_db (fun _ => SevNone) (fun _ => "")) true lock index t.
Definition knows (l : list string) : index_answers := fun n => Some (Ok (if existsb (String.eqb n) l then Some n else None)).
Definition good_file : dfile := small_file "RUSTSEC-2024-0001.md" "RUSTSEC-2024-0001" "a".
Definition full_tree (fs : list dfile) : dtree := mkDTree (Some [mkDEntry "a" (Some fs)]) (Some []).
Theorem C71_database_opens_refuted :
  opens (small_tree [("a", [good_file])]) = true /\ status_of true (knows ["a"]) (small_tree [("a", [good_file])]) = Ok 1 /\
  opens (full_tree [mkDFile ".DS_Store" (Some "x"); good_file]) = true /\ status_of true (knows ["a"]) (full_tree [mkDFile ".DS_Store" (Some "x"); good_file]) = Ok 1.
Proof. repeat split; vm_compute; reflexivity. Qed.
Theorem C71_unpublished_refuted :
  status_of true (knows []) (full_tree [good_file]) = Ok 1 /\ status_of false (knows []) (full_tree [good_file]) = Ok 0.
Proof. split; vm_compute; reflexivity. Qed.
Example C71_nonvacuous : status_of true (knows ["a"]) (full_tree [good_file]) = Ok 0 /\
  status_of true (knows ["a"]) (full_tree [small_file "RUSTSEC-2023-0001.md" "RUSTSEC-2023-0001" "a"; good_file]) = Ok 1 /\
  admin_lint extn toml2 true (knows ["a"]) (full_tree [small_file "RUSTSEC-2023-0001.md" "RUSTSEC-2023-0001" "a"; good_file]) = Ok 1.
Proof. repeat split; vm_compute; reflexivity. Qed.

(** ** C72 *)
Lemma process_all_in checks index advs : forall out, process_all checks index advs = Ok out ->
  map fst out = map a_id (filter (fun a => match a_collection a with Some Crates => true | _ => false end) advs) /\
  forall i ls, In (i, ls) out -> exists a, In a advs /\ a_collection a = Some Crates /\ a_id a = i /\ process_one checks index a = Ok ls.
Proof.
  induction advs as [|a advs IH]; intros out H; cbn [process_all] in H; [injection H as <-; split; [reflexivity|intros i ls []]|].
  destruct (a_collection a) as [[]|] eqn:C; try discriminate.
  - destruct (process_one checks index a) as [ls| |] eqn:P; cbn [obind] in H; try discriminate. destruct (process_all checks index advs) as [rest| |]; cbn [obind] in H; try discriminate.
    injection H as <-. destruct (IH rest eq_refl) as [A B]. cbn [filter]. rewrite C. cbn [map fst]. split; [f_equal; exact A|].
    intros i l [[= <- <-]|J]; [exists a; repeat split; auto; left; reflexivity|]. destruct (B i l J) as (b & I & R). exists b. split; [right; exact I|exact R].
  - destruct (IH out H) as [A B]. cbn [filter]. rewrite C. split; [exact A|]. intros i l J. destruct (B i l J) as (b & I & R). exists b. split; [right; exact I|exact R].
Qed.
(** Every advisory for a crate is listed, in the order of the database, with every version of the crate in the index in its
    order; a version is called vulnerable exactly if no requirement declares it safe. *)
Theorem C72_listed_versions : forall checks index advs out,
  (forall a, In a advs -> let reqs := (patched (a_versions a) ++ unaffected (a_versions a))%list in
     reqs_wf reqs /\ no_silent_overflow checks reqs /\ exists p u, versions_new checks p u = Ok (a_versions a)) ->
  process_all checks index advs = Ok out ->
  map fst out = map a_id (filter (fun a => match a_collection a with Some Crates => true | _ => false end) advs) /\
  forall i ls, In (i, ls) out -> exists a texts, In a advs /\ a_collection a = Some Crates /\ a_id a = i /\ index (a_package a) = Some texts /\
    Forall2 (fun s l => fst l = s /\ exists v, parse_version s = Some v /\
      (snd l = true <-> ~ declared_safe (patched (a_versions a) ++ unaffected (a_versions a))%list v)) texts ls.
Proof.
  intros checks index advs out W H. destruct (process_all_in _ _ _ _ H) as [A B]. split; [exact A|]. intros i ls J.
  destruct (B i ls J) as (a & I & C & E & P). unfold process_one in P. destruct (index (a_package a)) as [texts|] eqn:X; [|discriminate].
  exists a, texts. repeat split; auto. unfold version_lines in P. apply omap_iff in P. destruct (W a I) as (WF & NO & p & u & N).
  assert (EV : a_versions a = mkVersions p u).
  { unfold versions_new in N. destruct (unaffected_to_osv_ranges checks u p); cbn [obind] in N; try discriminate. congruence. }
  rewrite EV in *. cbn [patched unaffected] in *.
  clear - P WF NO N. induction P as [|s [s' b] texts ls K P IH]; constructor; [|exact IH]. destruct (parse_version s) as [v|] eqn:V; [|discriminate].
  destruct (is_vulnerable checks (mkVersions p u) v) as [b'| |] eqn:B; cbn [obind] in K; try discriminate. injection K as <- <-. cbn [fst snd].
  split; [reflexivity|]. exists v. split; [reflexivity|]. destruct (is_vulnerable_correct _ _ _ _ _ WF NO (proj1 (parse_version_inv _ _ V)) N) as (c & B' & BI).
  rewrite B in B'. injection B' as <-. exact BI.
Qed.
Print Assumptions C72_listed_versions.
(** It panics for an advisory whose crate is not in the index, even if that is expected. *)
Theorem C72_deleted_crates_refuted : exists a, a_collection a = Some Crates /\ process_all false (fun _ => None) [a] = Panic.
Proof. exists (with_collection PropsDb.adv1 Crates). split; reflexivity. Qed.
Example C72_nonvacuous : exists t db, db_of t = Ok db /\
  process_all false (fun _ => Some ["1.0.0"; "2.1.0"; "2.1.1"]) (db_iter db) =
    Ok [(mkId KRustSec (Some 2024%N) "RUSTSEC-2024-0001", [("1.0.0", true); ("2.1.0", true); ("2.1.1", false)])].
Proof. exists (small_tree [("a", [good_file])]). eexists. split; [vm_compute; reflexivity|]. vm_compute. reflexivity. Qed.
