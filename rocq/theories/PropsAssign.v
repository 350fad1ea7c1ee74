(** C48: the id assigner. *)
From Coq Require Import List NArith Ascii String Bool Arith Lia Permutation.
From Verif Require Import Base StrLib IdModel IdSpec PkgModel DbModel DbSpec DbProofs DbProofs2 PropsDb PartsModel AssignModel AssignSpec AssignProofs.
Import ListNotations.
Local Open Scope string_scope.
Local Open Scope N_scope.
Local Infix "++" := String.append (right associativity, at level 60).

Lemma print_fuel_length k : forall f n, n < 10 ^ N.of_nat (S k) -> (String.length (print_fuel f n "") <= S k)%nat.
Proof.
  induction k as [|k IH]; intros [|f] n H.
  1,3: cbn [print_fuel String.length]; apply Nat.le_0_l.
  - rewrite print_fuel_S. replace (n / 10 =? 0) with true; [apply Nat.le_refl|].
    symmetry. apply N.eqb_eq, N.div_small. exact H.
  - rewrite print_fuel_S. destruct (n / 10 =? 0); [cbn [String.length]; apply le_n_S, Nat.le_0_l|]. rewrite print_fuel_acc, slength_app.
    assert (L : n / 10 < 10 ^ N.of_nat (S k)).
    { apply N.div_lt_upper_bound; [discriminate|]. rewrite <- N.pow_succ_r'. rewrite <- Nat2N.inj_succ. exact H. }
    specialize (IH f _ L). cbn [String.length]. rewrite Nat.add_1_r. apply le_n_S. exact IH.
Qed.
(** The form of a new id: ["RUSTSEC-" year "-" number], the number with at least four digits; it reads back as an id
    of that year and number. *)
Theorem C48_new_id_reads_back : forall y n, 2000 <= y <= 2100 -> n <= u32_max ->
  exists i, id_from_str (new_id y n) = Ok i /\ id_string i = new_id y n /\ id_kind_of i = KRustSec /\ id_year i = Some y /\
    numerical_part i = Some n /\
    (exists digits, new_id y n = "RUSTSEC-" ++ print_dec y ++ "-" ++ digits /\ (4 <= String.length digits)%nat /\
       (n < 10000 -> String.length digits = 4%nat)).
Proof.
  intros y n Hy Hn. eexists. split; [apply new_id_parses; assumption|]. cbn [id_string id_kind_of id_year].
  split; [reflexivity|]. split; [reflexivity|]. split; [reflexivity|]. split; [apply number_new_id; [lia|exact Hn]|].
  exists (pad4 n). split; [reflexivity|].
  assert (Z : forall k, String.length (zeros k) = k) by (induction k as [|k IH]; [reflexivity|cbn; rewrite IH; reflexivity]).
  assert (L : String.length (pad4 n) = (4 - String.length (print_dec n) + String.length (print_dec n))%nat)
    by (unfold pad4; rewrite slength_app, Z; reflexivity).
  split; [lia|]. intros H. rewrite L.
  assert (String.length (print_dec n) <= 4)%nat; [|lia].
  exact (print_fuel_length 3 _ n H).
Qed.
Print Assumptions C48_new_id_reads_back.

Section Theorems.
  Context (toml : string -> option advisory) (title description : advisory -> string)
          (with_text : advisory -> string -> string -> advisory) (checks : bool).
  Notation fs_of := (fs_of toml title description with_text).
  Notation assign_ids := (assign_ids toml title description with_text checks).
  Notation draft_year := (draft_year toml).
  Notation drafts_dated := (drafts_dated toml).
  Notation load_text := (load_text toml title description with_text).

  (** How many of these drafts are dated in year [y]. *)
  Definition dated_in (y : N) (ds : list (path * string)) : N :=
    N.of_nat (List.length (filter (fun d => match draft_year (snd d) with Ok z => z =? y | _ => false end) ds)).
  (** The ids of the database come from [Id::from_str]. *)
  Definition ids_read (db : database) : Prop := forall a, In a (db_iter db) -> exists x, id_from_str x = Ok (a_id a).

  Lemma forall2_nth {A B} (R : A -> B -> Prop) l l' : Forall2 R l l' -> forall k x, nth_error l k = Some x ->
    exists y, nth_error l' k = Some y /\ R x y.
  Proof. induction 1 as [|a b l l' Hab F IH]; intros [|k] x E; try discriminate; [injection E as <-; exists b; auto|exact (IH k x E)]. Qed.
  Lemma forall2_nth_r {A B} (R : A -> B -> Prop) l l' : Forall2 R l l' -> forall k y, nth_error l' k = Some y ->
    exists x, nth_error l k = Some x /\ R x y.
  Proof. induction 1 as [|a b l l' Hab F IH]; intros [|k] x E; try discriminate; [injection E as <-; exists a; auto|exact (IH k x E)]. Qed.
  Lemma filter_done pl : all_done pl -> filter it_done pl = pl.
  Proof. induction 1 as [|i r H F IH]; [reflexivity|]. cbn [filter]. rewrite H, IH. reflexivity. Qed.
  Lemma same_year_dated ds pl y : Forall2 (item_of toml) ds pl -> forall k, same_year y (firstn k pl) = dated_in y (firstn k ds).
  Proof.
    induction 1 as [|d i ds pl (A1 & A2 & A3 & A4) F IH]; intros [|k]; try reflexivity.
    cbn [firstn same_year]. rewrite IH. unfold dated_in. cbn [firstn filter]. rewrite A3.
    destruct (it_year i =? y); cbn [List.length]; lia.
  Qed.

  (** Each draft gets an id of its year; its number is the highest number of a RUSTSEC advisory dated in that year, plus
      one, plus the number of drafts of that year handled before. *)
  Theorem C48_numbers_are_consecutive : forall g t s r db, db_open (fs_of t) = Ok db -> room t db -> drafts_dated t ->
    assign_ids g t = (s, Ok r) ->
    List.length (s_done s) = List.length (drafts t) /\
    forall k d, nth_error (drafts t) k = Some d ->
      exists y n top, draft_year (snd d) = Ok y /\ top_number (db_iter db) y top /\
        n = top + 1 + dated_in y (firstn k (drafts t)) /\
        nth_error (s_done s) k = Some (new_id y n, snd (fst (fst d))).
  Proof.
    intros g t s r db Eo Rm Dd H. destruct (run_drafts toml title description with_text checks g t s _ db Eo Rm Dd H)
      as (pl & ds & rest & h & Top & Ed & F & G & Nm & _ & Edone & _ & K).
    destruct (K r eq_refl) as [-> A]. rewrite app_nil_r in Ed. subst ds. rewrite (filter_done pl A) in Edone. split.
    - rewrite Edone, map_length. symmetry. clear - F. induction F as [|? ? ? ? ? ? IH]; [reflexivity|cbn; rewrite IH; reflexivity].
    - intros k d Hk. destruct (forall2_nth _ _ _ F k d Hk) as (i & Hi & A1 & A2 & A3 & A4).
      exists (it_year i), (it_num i), (h (it_year i)). split; [exact A3|]. split.
      { apply Top. intros ->. destruct k; discriminate Hi. }
      split; [rewrite <- (same_year_dated _ _ _ F k); exact (numbering_nth pl h k i Nm Hi)|].
      rewrite Edone, nth_error_map, Hi. cbn. rewrite A1. reflexivity.
  Qed.

  (** No new id is the id of another advisory, old or new. *)
  Lemma plan_fresh t db pl ds h : drafts_dated t -> ids_read db -> years_agree (db_iter db) ->
    (pl <> [] -> forall y, top_number (db_iter db) y (h y)) -> (forall d, In d ds -> In d (drafts t)) -> Forall2 (item_of toml) ds pl -> numbering h pl ->
    forall i a, In i pl -> In a (db_iter db) -> id_string (a_id a) <> it_id i.
  Proof.
    intros Dd Ir Ya Top Ed F Nm i a Hi Ha E. destruct (In_nth_error _ _ Hi) as (k & Hk).
    destruct (forall2_nth_r _ _ _ F k i Hk) as (d & Hd & A1 & A2 & A3 & A4).
    assert (Hy : 2000 <= it_year i <= 2100).
    { apply (Dd d); [|exact A3]. apply Ed. eapply nth_error_In. exact Hd. }
    destruct (Ir a Ha) as (x & Hx). unfold it_id in E.
    destruct (same_string_as_new_id _ _ _ _ Hx E) as (K1 & K2 & K3); try (unfold u32_max in *; lia).
    destruct (Top ltac:(intros ->; destruct Hi) (it_year i)) as [T _].
    specialize (T a (it_num i) Ha (Ya a (it_year i) Ha K1 K2) (conj K1 K3)).
    pose proof (numbering_above pl h Nm i Hi). lia.
  Qed.
  Theorem C48_ids_are_fresh : forall g t s r db, db_open (fs_of t) = Ok db -> room t db -> drafts_dated t ->
    ids_read db -> years_agree (db_iter db) -> assign_ids g t = (s, r) ->
    NoDup (map fst (s_done s)) /\ forall sid dir a, In (sid, dir) (s_done s) -> In a (db_iter db) -> id_string (a_id a) <> sid.
  Proof.
    intros g t s r db Eo Rm Dd Ir Ya H. destruct (run_drafts toml title description with_text checks g t s _ db Eo Rm Dd H)
      as (pl & ds & rest & h & Top & Ed & F & G & Nm & _ & Edone & _ & K). split.
    - rewrite Edone, map_map. cbn [fst]. pose proof (numbering_ids pl h Nm) as ND. clear - ND.
      induction pl as [|i r IH]; [constructor|]. cbn [map] in ND. inversion_clear ND as [|? ? N1 N2]. cbn [filter].
      destruct (it_done i); [|apply IH; exact N2]. cbn [map]. constructor; [|apply IH; exact N2].
      intros Hin. apply N1. apply in_map_iff in Hin as (j & <- & Hj). apply filter_In in Hj as [Hj _]. apply in_map. exact Hj.
    - intros sid dir a Hs Ha. rewrite Edone in Hs. apply in_map_iff in Hs as (i & Ei & Hi). apply filter_In in Hi as [Hi _].
      injection Ei as <- _. eapply plan_fresh; try eassumption. intros d Hd. rewrite Ed, in_app_iff. left. exact Hd.
  Qed.

  (** A file in the repository, seen by the database. *)
  Lemma collection_texts_in coll es p x : In (p, x) (collection_texts coll es) <->
    exists l e fs f, es = Some l /\ In e l /\ re_files e = Some fs /\ In f fs /\ p = (coll, re_name e, rf_name f) /\ x = rf_text f.
  Proof.
    unfold collection_texts. destruct es as [l|]; [|split; [intros []|intros (? & ? & ? & ? & ? & _); discriminate]].
    rewrite in_flat_map. split.
    - intros (e & He & Hx). unfold entry_texts in Hx. destruct (re_files e) as [fs|] eqn:Ef; [|destruct Hx].
      apply in_map_iff in Hx as (f & E & Hf). injection E as <- <-. exists l, e, fs, f. auto 10.
    - intros (l' & e & fs & f & E & He & Ef & Hf & -> & ->). injection E as <-. exists e. split; [exact He|].
      unfold entry_texts. rewrite Ef. apply in_map_iff. exists f. auto.
  Qed.
  Lemma tree_file_texts t p : tree_file (fs_of t) p <->
    exists x, In ((pl_coll p, pl_dir p, f_name (pl_file p)), x) (texts t) /\ f_parsed (pl_file p) = load_text x /\
      ~ has_prefix "." (f_name (pl_file p)).
  Proof.
    split.
    - intros (es & e & fs & Hc & He & En & Ef & Hf & Hd).
      assert (K : forall o, option_map (map (fs_of_entry toml title description with_text)) o = Some es ->
                exists x, In ((pl_coll p, pl_dir p, f_name (pl_file p)), x) (collection_texts (pl_coll p) o) /\ f_parsed (pl_file p) = load_text x).
      { intros o Ho. destruct o as [l|]; [|discriminate Ho]. injection Ho as <-. apply in_map_iff in He as (e0 & <- & He0).
        cbn [fs_of_entry e_files e_name] in *. destruct (re_files e0) as [fs0|] eqn:Ef0; [|discriminate Ef]. injection Ef as <-.
        apply in_map_iff in Hf as (f0 & E & Hf0). exists (rf_text f0). rewrite <- E. cbn [f_name f_parsed]. split; [|reflexivity].
        apply collection_texts_in. exists l, e0, fs0, f0. rewrite En. auto 10. }
      unfold texts. destruct Hc as [[Ec Ho]|[Ec Ho]]; destruct (K _ Ho) as (x & Hx & Px); exists x; rewrite in_app_iff; rewrite Ec in *; auto.
    - intros (x & Hx & Px & Hd). unfold texts in Hx. rewrite in_app_iff in Hx.
      assert (K : forall coll o, In (pl_coll p, pl_dir p, f_name (pl_file p), x) (collection_texts coll o) ->
         pl_coll p = coll /\ exists es e fs, option_map (map (fs_of_entry toml title description with_text)) o = Some es /\ In e es /\ e_name e = pl_dir p /\ e_files e = Some fs /\ In (pl_file p) fs).
      { intros coll o Ho. apply collection_texts_in in Ho as (l & e & fs & f & -> & He & Ef & Hf & E & ->). injection E as E1 E2 E3.
        split; [exact E1|]. exists (map (fs_of_entry toml title description with_text) l), (fs_of_entry toml title description with_text e),
          (map (fun f => mkFile (rf_name f) (load_text (rf_text f))) fs).
        split; [reflexivity|]. split; [apply in_map; exact He|]. split; [cbn; congruence|]. split; [cbn [fs_of_entry e_files]; rewrite Ef; reflexivity|].
        apply in_map_iff. exists f. split; [|exact Hf]. destruct (pl_file p) as [nm pr]. cbn in *. congruence. }
      destruct Hx as [Hx|Hx]; destruct (K _ _ Hx) as (Ec & es & e & fs & Ho & He & En & Ef & Hf); exists es, e, fs; rewrite Ec; auto 10.
  Qed.
  Lemma lookup_in l p x : NoDup (map fst l) -> (lookup l p = Some x <-> In (p, x) l).
  Proof.
    induction l as [|[k y] r IH]; intros ND; [split; [discriminate|intros []]|]. cbn [map fst] in ND. inversion_clear ND as [|? ? N1 N2].
    cbn [lookup]. destruct (path_eqb_spec k p) as [->|Ne].
    - split; [intros E; injection E as ->; left; reflexivity|]. intros [E|Hi]; [congruence|]. exfalso. apply N1.
      change p with (fst (p, x)). apply in_map. exact Hi.
    - rewrite (IH N2). split; [intros H; right; exact H|intros [E|H]; [congruence|exact H]].
  Qed.

  (** The place of a new file is free before the run. *)
  Lemma lookup_In l p x : lookup l p = Some x -> In (p, x) l.
  Proof.
    induction l as [|[k y] r IH]; cbn [lookup]; [discriminate|]. destruct (path_eqb_spec k p) as [->|_]; intros E;
      [injection E as <-; left; reflexivity|right; exact (IH E)].
  Qed.
  Lemma target_free t db p y n : db_open (fs_of t) = Ok db -> y <> 0 ->
    (forall a, In a (db_iter db) -> id_string (a_id a) <> new_id y n) ->
    contents t (beside p (new_id y n)) = None.
  Proof.
    intros Eo Hy Fr. destruct (contents t (beside p (new_id y n))) as [x|] eqn:E; [exfalso|reflexivity].
    apply lookup_In in E. destruct p as [[c dd] nm]. unfold beside in E. cbn [fst] in E.
    set (pp := mkPlaced c dd (mkFile (new_id y n ++ ".md") (load_text x))).
    assert (Tf : tree_file (fs_of t) pp).
    { apply tree_file_texts. exists x. cbn. split; [exact E|]. split; [reflexivity|]. intros (z & Hz). discriminate Hz. }
    destruct (C17_open_loads_exactly_the_files _ _ Eo) as (ps & advs & Ep & F & Ei & _).
    apply (C17_files_considered _ _ _ Ep) in Tf. destruct (In_nth_error _ _ Tf) as (k & Hk).
    destruct (forall2_nth _ _ _ F k pp Hk) as (a & Ha & (raw & cc & stem & P1 & P2 & P3 & P4 & P5 & P6 & P7 & P8)).
    cbn [pl_file f_name f_parsed pp] in *. destruct P4 as [P4|(z & P4)].
    - apply sapp_inj_r in P2. apply (Fr a); [|rewrite P8; cbn [a_id with_collection]; rewrite <- P4, <- P2; reflexivity].
      rewrite Ei. apply filter_In. split; [eapply nth_error_In; exact Ha|]. unfold is_placeholder_adv. rewrite P8. cbn [a_id with_collection].
      rewrite <- P4, <- P2. destruct (String.eqb_spec (new_id y n) "RUSTSEC-0000-0000") as [Ee|_]; [|reflexivity].
      exfalso. exact (new_id_not_placeholder y n Hy Ee).
    - pose proof (draft_not_new y n Hy) as D. apply starts_with_false in D. apply D. exists z. exact P4.
  Qed.
  Lemma drafts_paths t : well_formed t -> NoDup (map fst (drafts t)).
  Proof.
    unfold well_formed, drafts. induction (texts t) as [|x r IH]; intros W; [constructor|]. cbn [map] in W. inversion_clear W as [|? ? N1 N2].
    cbn [filter]. destruct (draft_path (fst x)); [|exact (IH N2)]. cbn [map]. constructor; [|exact (IH N2)].
    intros H. apply N1. apply in_map_iff in H as (z & Ez & Hz). apply filter_In in Hz as [Hz _]. rewrite <- Ez. apply in_map. exact Hz.
  Qed.
  Lemma items_paths ds pl : Forall2 (item_of toml) ds pl -> map it_path pl = map fst ds.
  Proof. induction 1 as [|d i ds pl (A & _) F IH]; [reflexivity|]. cbn [map]. rewrite A, IH. reflexivity. Qed.

  (** After a successful run the drafts are gone, each has become the file of its id, with the id filled in, at a place
      where there was no file, and nothing else has changed. *)
  Theorem C48_drafts_become_files : forall g t s r db, well_formed t -> db_open (fs_of t) = Ok db -> room t db -> drafts_dated t ->
    ids_read db -> years_agree (db_iter db) -> assign_ids g t = (s, Ok r) ->
    let after := apply_ops (contents t) (s_ops s) in
    (forall d, In d (drafts t) -> after (fst d) = None) /\
    (forall k d sid dir, nth_error (drafts t) k = Some d -> nth_error (s_done s) k = Some (sid, dir) ->
       contents t (beside (fst d) sid) = None /\ after (beside (fst d) sid) = Some (with_id sid (snd d))) /\
    (forall p, (forall d, In d (drafts t) -> p <> fst d) ->
       (forall k d sid dir, nth_error (drafts t) k = Some d -> nth_error (s_done s) k = Some (sid, dir) -> p <> beside (fst d) sid) ->
       after p = contents t p).
  Proof.
    intros g t s r db W Eo Rm Dd Ir Ya H after. destruct (run_drafts toml title description with_text checks g t s _ db Eo Rm Dd H)
      as (pl & ds & rest & h & Top & Ed & F & G & Nm & Eops & Edone & _ & K).
    destruct (K r eq_refl) as [-> A]. rewrite app_nil_r in Ed. subst ds. rewrite (filter_done pl A) in Edone.
    assert (NP : NoDup (map it_path pl)) by (rewrite (items_paths _ _ F); apply drafts_paths; exact W).
    pose proof (numbering_ids pl h Nm) as NI. unfold after. rewrite Eops. split; [|split].
    - intros d Hd. destruct (In_nth_error _ _ Hd) as (k & Hk). destruct (forall2_nth _ _ _ F k d Hk) as (i & Hi & A1 & _).
      rewrite <- A1. apply nth_error_In in Hi. apply plan_path; auto. unfold all_done in A. rewrite Forall_forall in A. exact (A i Hi).
    - intros k d sid dir Hk Hs. destruct (forall2_nth _ _ _ F k d Hk) as (i & Hi & A1 & A2 & A3 & A4).
      rewrite Edone, nth_error_map, Hi in Hs. cbn in Hs. injection Hs as <- _. apply nth_error_In in Hi. split.
      + apply (target_free t db); [exact Eo| |].
        * rewrite Forall_forall in G. apply (G i Hi).
        * intros a Ha. apply (plan_fresh t db pl (drafts t) h); auto.
      + rewrite <- A1, <- A2. exact (plan_target pl _ i G NI Hi).
    - intros p N1 N2. apply apply_untouched. intros Hp. apply plan_touches in Hp as (i & Hi & E). destruct (In_nth_error _ _ Hi) as (k & Hk).
      destruct (forall2_nth_r _ _ _ F k i Hk) as (d & Hd & A1 & _). destruct E as [E|[E _]].
      + apply (N2 k d (it_id i) (snd (fst (it_path i))) Hd); [rewrite Edone, nth_error_map, Hk; reflexivity|].
        rewrite E. unfold it_target. rewrite A1. reflexivity.
      + apply (N1 d); [eapply nth_error_In; exact Hd|congruence].
  Qed.

  (** However the run ends and wherever it is interrupted: no draft is lost (it is still there, or its new file is
      complete, with an id no advisory had), and no other file has changed. *)
  Theorem C48_interruption_loses_nothing : forall g t s r db pre post, well_formed t -> db_open (fs_of t) = Ok db -> room t db ->
    drafts_dated t -> ids_read db -> years_agree (db_iter db) -> assign_ids g t = (s, r) ->
    s_ops s = (pre ++ post)%list ->
    let now := apply_ops (contents t) pre in
    (forall d, In d (drafts t) -> now (fst d) = Some (snd d) \/
       exists sid, now (beside (fst d) sid) = Some (with_id sid (snd d)) /\
         forall a, In a (db_iter db) -> id_string (a_id a) <> sid) /\
    (forall p x, draft_path p = false -> contents t p = Some x -> now p = Some x).
  Proof.
    intros g t s r db pre post W Eo Rm Dd Ir Ya H Es now. destruct (run_drafts toml title description with_text checks g t s _ db Eo Rm Dd H)
      as (pl & ds & rest & h & Top & Ed & F & G & Nm & Eops & Edone & _ & K).
    assert (Sub : forall d, In d ds -> In d (drafts t)) by (intros d Hd; rewrite Ed, in_app_iff; left; exact Hd).
    assert (NP0 : NoDup (map fst (ds ++ rest))) by (rewrite <- Ed; apply drafts_paths; exact W).
    assert (NP : NoDup (map it_path pl)).
    { rewrite (items_paths _ _ F). rewrite map_app in NP0. clear - NP0. induction ds as [|d ds IH]; [constructor|]. cbn [map app] in *.
      inversion_clear NP0 as [|? ? N1 N2]. constructor; [intros Hi; apply N1; rewrite in_app_iff; left; exact Hi|exact (IH N2)]. }
    pose proof (numbering_ids pl h Nm) as NI. rewrite Eops in Es.
    assert (Fresh : forall i a, In i pl -> In a (db_iter db) -> id_string (a_id a) <> it_id i)
      by (intros i a Hi Ha; apply (plan_fresh t db pl ds h); auto).
    assert (Now : forall p, In p (map touches pre) -> exists i, In i pl /\ (p = it_target i \/ p = it_path i /\ it_done i = true)).
    { intros p Hp. apply plan_touches. rewrite Es, map_app, in_app_iff. left. exact Hp. }
    rewrite Forall_forall in G. split.
    - intros d Hd. assert (Cd : contents t (fst d) = Some (snd d)).
      { apply lookup_in; [exact W|]. unfold drafts in Hd. apply filter_In in Hd as [Hd _]. destruct d; exact Hd. }
      rewrite Ed in Hd. apply in_app_iff in Hd as [Hd|Hd].
      + destruct (In_nth_error _ _ Hd) as (k & Hk). destruct (forall2_nth _ _ _ F k d Hk) as (i & Hi & A1 & A2 & A3 & A4).
        apply nth_error_In in Hi. destruct (plan_prefix pl (contents t) pre post i Es) as [B|B]; auto; [apply Forall_forall; exact G| |].
        * left. rewrite <- A1. rewrite A1 in B. unfold now. rewrite <- Cd. rewrite A1. exact B.
        * right. exists (it_id i). split; [rewrite <- A1, <- A2; exact B|]. intros a Ha. apply Fresh; assumption.
      + left. rewrite <- Cd. apply apply_untouched. intros Hp. destruct (Now _ Hp) as (i & Hi & [E|[E _]]).
        * destruct (G i Hi) as [_ Gy]. assert (D : draft_path (fst d) = true).
          { assert (Hx : In d (drafts t)) by (rewrite Ed, in_app_iff; right; exact Hd). unfold drafts in Hx. apply filter_In in Hx as [_ Hx]. exact Hx. }
          unfold draft_path in D. rewrite E in D. cbn [it_target beside snd] in D. unfold it_id in D. rewrite draft_not_new in D by exact Gy. discriminate D.
        * assert (Hm : In (fst d) (map fst ds)) by (rewrite E, <- (items_paths _ _ F); apply in_map; exact Hi).
          rewrite map_app in NP0. clear - NP0 Hm Hd. induction ds as [|e ds IH]; [destruct Hm|]. cbn [map app] in *. inversion_clear NP0 as [|? ? N1 N2].
          destruct Hm as [Hm|Hm]; [|exact (IH N2 Hm)]. apply N1. rewrite in_app_iff. right. rewrite Hm. apply in_map. exact Hd.
    - intros p x Dp Cp. rewrite <- Cp. apply apply_untouched. intros Hp. destruct (Now _ Hp) as (i & Hi & [E|[E _]]).
      + rewrite E in Cp. unfold it_target, it_id in Cp. rewrite (target_free t db) in Cp; [discriminate Cp|exact Eo|apply (G i Hi)|].
        intros a Ha. apply Fresh; assumption.
      + destruct (G i Hi) as [Gd _]. congruence.
  Qed.

  (** A repository without drafts is left alone; in particular a second run does nothing. *)
  Theorem C48_nothing_to_do : forall g t s r, drafts t = [] -> assign_ids g t = (s, r) -> s_ops s = [] /\ s_done s = [].
  Proof.
    intros g t s r Ed H. destruct (run_all toml title description with_text checks g t s r H) as [[-> _]|(db & m & l1 & l2 & r1 & _ & _ & _ & Ef & R & _)]; [auto|].
    assert (D : filter is_draft_fl l1 = []).
    { unfold drafts in Ed. rewrite <- flat_all_texts, <- drafts_fl, Ef, filter_app, map_app in Ed. apply app_eq_nil in Ed as [Ed _].
      apply map_eq_nil in Ed. exact Ed. }
    clear - R D. assert (E : forall s0 : astate, run_list (step3 toml checks) s0 l1 = (s0, Ok tt)).
    { induction l1 as [|x l IH]; intros s0; [reflexivity|]. cbn [filter] in D. destruct (is_draft_fl x) eqn:Dx; [discriminate D|].
      cbn [run_list]. unfold step3, assign_file. unfold is_draft_fl in Dx. rewrite Dx. cbn [negb].
      apply IH; [|exact D]. cbn [run_list] in R. unfold step3 at 1, assign_file in R. rewrite Dx in R. exact R. }
    rewrite E in R. injection R as <- _. auto.
  Qed.

  (** ** The database afterwards *)
  Definition set_adv_id (a : advisory) (i : adv_id) : advisory :=
    mkAdvisory i (a_package a) (a_date a) (a_collection a) (a_severity a) (a_informational a) (a_source a) (a_withdrawn a)
      (a_text a) (a_affected a) (a_versions a).
  (** [a'] is the advisory of draft [d] with the id assigned. *)
  Definition published (d : path * string) (sid : string) (a' : advisory) : Prop :=
    exists a i c, load_text (snd d) = Ok a /\ id_from_str sid = Ok i /\ fst (fst (fst d)) = collection_str c /\
      a' = with_collection (set_adv_id a i) c.

  Definition place (x : path * string) : placed :=
    mkPlaced (fst (fst (fst x))) (snd (fst (fst x))) (mkFile (snd (fst x)) (load_text (snd x))).
  Definition visible (x : path * string) : bool := negb (starts_with "." (snd (fst x))).
  Lemma paths_texts t : rt_crates t <> None -> advisory_paths (fs_of t) = Ok (map place (filter visible (texts t))).
  Proof.
    assert (E : forall coll e, entry_files coll (fs_of_entry toml title description with_text e) = map place (filter visible (entry_texts coll e))).
    { intros coll e. unfold entry_files, entry_texts. cbn [fs_of_entry e_files e_name]. destruct (re_files e) as [fs|]; [|reflexivity].
      induction fs as [|f r IH]; [reflexivity|]. cbn [map filter f_name]. unfold visible at 1. cbn [fst snd].
      destruct (negb (starts_with "." (rf_name f))); cbn [map]; rewrite IH; reflexivity. }
    assert (C : forall coll l, flat_map (entry_files coll) (map (fs_of_entry toml title description with_text) l)
                = map place (filter visible (flat_map (entry_texts coll) l))).
    { intros coll l. induction l as [|e r IH]; [reflexivity|]. cbn [map flat_map]. rewrite filter_app, map_app, E, IH. reflexivity. }
    intros Hc. unfold advisory_paths, fs_of, AssignModel.fs_of. cbn [t_crates t_rust]. destruct (rt_crates t) as [l|] eqn:El; [|congruence]. cbn [option_map].
    f_equal. unfold texts. rewrite filter_app, map_app, El. cbn [collection_texts]. rewrite C. f_equal. destruct (rt_rust t) as [r|]; [apply C|reflexivity].
  Qed.
  Lemma crates_opened t db : db_open (fs_of t) = Ok db -> rt_crates t <> None.
  Proof. unfold db_open, advisory_paths, AssignModel.fs_of. cbn [t_crates]. destruct (rt_crates t); cbn [option_map]; [discriminate|discriminate]. Qed.

  Lemma gives_fun p a b : file_gives p a -> file_gives p b -> a = b.
  Proof.
    intros (r1 & c1 & s1 & P1 & _ & _ & _ & _ & C1 & _ & ->) (r2 & c2 & s2 & P2 & _ & _ & _ & _ & C2 & _ & ->).
    rewrite P1 in P2. injection P2 as <-. rewrite C1 in C2. destruct c1, c2; try discriminate C2; reflexivity.
  Qed.
  Lemma nodup_filter_nth {A B} (f : A -> B) (gg : A -> bool) l : NoDup (map f (filter gg l)) -> forall k1 k2 a1 a2,
    nth_error l k1 = Some a1 -> nth_error l k2 = Some a2 -> gg a1 = true -> gg a2 = true -> f a1 = f a2 -> k1 = k2.
  Proof.
    induction l as [|x l IH]; intros ND k1 k2 a1 a2 H1 H2 G1 G2 E; [destruct k1; discriminate|].
    assert (Hin : forall k a, nth_error l k = Some a -> gg a = true -> In (f a) (map f (filter gg l))).
    { intros k a Hk Ga. apply in_map, filter_In. split; [eapply nth_error_In; exact Hk|exact Ga]. }
    cbn [filter] in ND.
    destruct k1 as [|k1], k2 as [|k2]; cbn [nth_error] in H1, H2; [reflexivity| | |].
    - injection H1 as <-. rewrite G1 in ND. inversion_clear ND as [|? ? N1 _]. exfalso. apply N1. rewrite E. eapply Hin; eassumption.
    - injection H2 as <-. rewrite G2 in ND. inversion_clear ND as [|? ? N1 _]. exfalso. apply N1. rewrite <- E. eapply Hin; eassumption.
    - f_equal. apply (IH ltac:(destruct (gg x); [cbn [map] in ND; inversion_clear ND; assumption|exact ND]) k1 k2 a1 a2); assumption.
  Qed.
  Lemma choice {A B} (R : A -> B -> Prop) l : (forall x, In x l -> exists y, R x y) -> exists l', Forall2 R l l'.
  Proof.
    induction l as [|x r IH]; intros H; [exists []; constructor|]. destruct (H x (or_introl eq_refl)) as (y & Hy).
    destruct IH as (l' & F); [intros z Hz; apply H; right; exact Hz|]. exists (y :: l'). constructor; assumption.
  Qed.
  Lemma nodup_filter_ids ps advs : NoDup ps -> Forall2 file_gives ps advs ->
    (forall p1 p2 a1 a2, In p1 ps -> In p2 ps -> file_gives p1 a1 -> file_gives p2 a2 -> is_placeholder_adv a1 = false ->
       is_placeholder_adv a2 = false -> a_id a1 = a_id a2 -> p1 = p2) ->
    NoDup (map a_id (filter (fun a => negb (is_placeholder_adv a)) advs)).
  Proof.
    intros ND F Inj. induction F as [|p a ps advs Hg F IH]; [constructor|]. inversion_clear ND as [|? ? N1 N2].
    cbn [filter]. destruct (is_placeholder_adv a) eqn:Pa; cbn [negb].
    - apply IH; [exact N2|]. intros; eapply Inj; try eassumption; right; assumption.
    - cbn [map]. constructor; [|apply IH; [exact N2|]; intros; eapply Inj; try eassumption; right; assumption].
      intros Hin. apply in_map_iff in Hin as (b & Eb & Hb). apply filter_In in Hb as [Hb Pb]. apply negb_true_iff in Pb.
      destruct (In_nth_error _ _ Hb) as (k & Hk). destruct (forall2_nth_r _ _ _ F k b Hk) as (p2 & Hp2 & G2).
      apply nth_error_In in Hp2. apply N1. rewrite (Inj p p2 a b); auto; [left; reflexivity|right; exact Hp2].
  Qed.

  (** If the TOML decoder sees in a draft's new text the same advisory with the new id, then after a successful run the
      database opens, holds the old advisories and the drafts under their new ids, and there are no drafts left. *)
  Theorem C48_database_afterwards : forall g t s r db t', well_formed t -> db_open (fs_of t) = Ok db -> room t db -> drafts_dated t ->
    ids_read db -> years_agree (db_iter db) ->
    (forall d, In d (drafts t) -> exists a, load_text (snd d) = Ok a /\ id_string (a_id a) = "RUSTSEC-0000-0000") ->
    (forall d a sid i, In d (drafts t) -> load_text (snd d) = Ok a -> id_from_str sid = Ok i ->
       load_text (with_id sid (snd d)) = Ok (set_adv_id a i)) ->
    assign_ids g t = (s, Ok r) ->
    well_formed t' -> rt_crates t' <> None -> (forall p, contents t' p = apply_ops (contents t) (s_ops s) p) ->
    drafts t' = [] /\
    exists db' new, db_open (fs_of t') = Ok db' /\ Permutation (db_iter db') (db_iter db ++ new)%list /\
      Forall2 (fun x a' => published (fst x) (fst (snd x)) a') (combine (drafts t) (s_done s)) new.
  Proof.
    intros g t s r db t' W Eo Rm Dd Ir Ya Ph Dec H W' Cr' After.
    destruct (C48_drafts_become_files g t s r db W Eo Rm Dd Ir Ya H) as (B1 & B2 & B3).
    destruct (C48_numbers_are_consecutive g t s r db Eo Rm Dd H) as (Len & Nums).
    destruct (C48_ids_are_fresh g t s _ db Eo Rm Dd Ir Ya H) as (NDs & Fresh).
    assert (Sid : forall k d sid dir, nth_error (drafts t) k = Some d -> nth_error (s_done s) k = Some (sid, dir) ->
      exists y n, sid = new_id y n /\ 2000 <= y <= 2100 /\ exists i, id_from_str sid = Ok i /\ id_string i = sid).
    { intros k d sid dir Hd Hs. destruct (Nums k d Hd) as (y & n & top & Dy & _ & _ & Hs'). rewrite Hs in Hs'. injection Hs' as -> _.
      exists y, n. split; [reflexivity|]. assert (Hy : 2000 <= y <= 2100) by (apply (Dd d); [eapply nth_error_In; exact Hd|exact Dy]).
      split; [exact Hy|].
      destruct (run_drafts toml title description with_text checks g t s _ db Eo Rm Dd H) as (pl & ds & rest & h & _ & Ed & F & _ & _ & _ & Edone & _ & K).
      destruct (K r eq_refl) as [-> A]. rewrite app_nil_r in Ed. subst ds. rewrite (filter_done pl A) in Edone.
      destruct (forall2_nth _ _ _ F k d Hd) as (it & Hi & A1 & A2 & A3 & A4). rewrite Edone, nth_error_map, Hi in Hs. cbn [option_map] in Hs.
      apply (f_equal (option_map fst)) in Hs. cbn [option_map fst] in Hs. apply (f_equal (fun o => match o with Some z => z | None => "" end)) in Hs.
      cbv beta iota in Hs. unfold it_id in Hs. apply new_id_inj in Hs as [<- <-]. eexists. split; [apply new_id_parses; [exact Hy|exact A4]|reflexivity]. }
    assert (Ctx : forall p x, In (p, x) (texts t) <-> contents t p = Some x) by (intros; symmetry; apply lookup_in; exact W).
    assert (Ctx' : forall p x, In (p, x) (texts t') <-> contents t' p = Some x) by (intros; symmetry; apply lookup_in; exact W').
    (* the files of the new tree *)
    assert (Files' : forall p x, In (p, x) (texts t') ->
       (draft_path p = false /\ In (p, x) (texts t)) \/
       exists k d sid dir, nth_error (drafts t) k = Some d /\ nth_error (s_done s) k = Some (sid, dir) /\ p = beside (fst d) sid /\ x = with_id sid (snd d)).
    { intros p x Hx. apply Ctx' in Hx. rewrite After in Hx.
      assert (Cases : (exists k d sid dir, nth_error (drafts t) k = Some d /\ nth_error (s_done s) k = Some (sid, dir) /\ p = beside (fst d) sid) \/
                      (forall k d sid dir, nth_error (drafts t) k = Some d -> nth_error (s_done s) k = Some (sid, dir) -> p <> beside (fst d) sid)).
      { clear - p. set (L := combine (drafts t) (s_done s)).
        destruct (existsb (fun e => path_eqb p (beside (fst (fst e)) (fst (snd e)))) L) eqn:Ex.
        - left. apply existsb_exists in Ex as (e & He & Ee). apply In_nth_error in He as (k & Hk). destruct (path_eqb_spec p (beside (fst (fst e)) (fst (snd e)))) as [E|]; [|discriminate].
          unfold L in Hk. exists k, (fst e), (fst (snd e)), (snd (snd e)). clear Ee. revert Hk E. generalize (drafts t) (s_done s). clear. induction k as [|k IH]; intros [|d ds] [|z zs]; cbn [combine nth_error]; try discriminate.
          + intros E1 E2. injection E1 as <-. cbn. destruct z; auto.
          + apply IH.
        - right. intros k d sid dir Hd Hs E. assert (Hin : In (d, (sid, dir)) L).
          { unfold L. clear - Hd Hs. revert Hd Hs. generalize (drafts t) (s_done s). induction k as [|k IH]; intros [|a l] [|b l']; cbn [nth_error combine]; try discriminate.
            - intros E1 E2. injection E1 as ->. injection E2 as ->. left; reflexivity.
            - intros E1 E2. right. apply IH; assumption. }
          assert (Tr : existsb (fun e => path_eqb p (beside (fst (fst e)) (fst (snd e)))) L = true).
          { apply existsb_exists. exists (d, (sid, dir)). split; [exact Hin|]. cbn [fst snd]. destruct (path_eqb_spec p (beside (fst d) sid)); congruence. }
          congruence. }
      destruct Cases as [(k & d & sid & dir & Hd & Hs & ->)|Nt].
      - right. destruct (B2 k d sid dir Hd Hs) as [_ B]. exists k, d, sid, dir. repeat apply conj; auto. congruence.
      - left. destruct (draft_path p) eqn:Dp.
        + exfalso. destruct (contents t p) as [z|] eqn:Cp.
          * assert (Hd : In (p, z) (drafts t)) by (unfold drafts; apply filter_In; split; [apply Ctx; exact Cp|exact Dp]).
            pose proof (B1 _ Hd) as N. cbn [fst] in N. congruence.
          * rewrite B3 in Hx; [congruence| |exact Nt]. intros d Hd ->. assert (Hc : contents t (fst d) = Some (snd d)); [|congruence].
            apply Ctx. unfold drafts in Hd. apply filter_In in Hd as [Hd _]. destruct d; exact Hd.
        + split; [reflexivity|]. apply Ctx. rewrite <- B3; [exact Hx| |exact Nt]. intros d Hd ->.
          unfold drafts in Hd. apply filter_In in Hd as [_ Hd]. congruence. }
    assert (Old' : forall p x, draft_path p = false -> In (p, x) (texts t) -> In (p, x) (texts t')).
    { intros p x Dp Hx. apply Ctx'. rewrite After, B3; [apply Ctx; exact Hx| |].
      - intros d Hd ->. unfold drafts in Hd. apply filter_In in Hd as [_ Hd]. congruence.
      - intros k d sid dir Hd Hs ->. destruct (B2 k d sid dir Hd Hs) as [B _]. apply Ctx in Hx. congruence. }
    split.
    { destruct (drafts t') as [|[p x] l] eqn:E; [reflexivity|exfalso]. assert (Hd : In (p, x) (drafts t')) by (rewrite E; left; reflexivity).
      unfold drafts in Hd. apply filter_In in Hd as [Hd Dp]. cbn [fst] in Dp. destruct (Files' p x Hd) as [[N _]|(k & d & sid & dir & Hk & Hs & -> & _)]; [congruence|].
      destruct (Sid k d sid dir Hk Hs) as (y & n & -> & Hy & _). unfold draft_path, beside in Dp. cbn [snd] in Dp. rewrite draft_not_new in Dp by lia. discriminate Dp. }
    (* old database *)
    destruct (C17_open_loads_exactly_the_files _ _ Eo) as (ps & advs & Ep & F & Ei & ND).
    pose proof (paths_texts t (crates_opened t db Eo)) as Ep0. rewrite Ep in Ep0. injection Ep0 as Eps.
    set (ps' := map place (filter visible (texts t'))).
    pose proof (paths_texts t' Cr') as Ep'. fold ps' in Ep'.
    assert (Gv : forall p, In p ps -> exists a, In a advs /\ file_gives p a).
    { intros p Hp. destruct (In_nth_error _ _ Hp) as (k & Hk). destruct (forall2_nth _ _ _ F k p Hk) as (a & Ha & G). exists a. split; [eapply nth_error_In; exact Ha|exact G]. }
    (* what each draft becomes *)
    assert (New : forall k d sid dir, nth_error (drafts t) k = Some d -> nth_error (s_done s) k = Some (sid, dir) ->
       exists a', published d sid a' /\ file_gives (place (beside (fst d) sid, with_id sid (snd d))) a' /\ is_placeholder_adv a' = false /\
         id_string (a_id a') = sid).
    { intros k d sid dir Hd Hs. pose proof (nth_error_In _ _ Hd) as Hdin. destruct (Ph d Hdin) as (a & La & Ia).
      destruct (Sid k d sid dir Hd Hs) as (y & n & Es & Hy & i & Hi & Hi'). pose proof (Dec d a sid i Hdin La Hi) as Ln.
      assert (Hp : In (place d) ps).
      { rewrite Eps. apply in_map, filter_In. unfold drafts in Hdin. apply filter_In in Hdin as [Ht Dp]. split; [exact Ht|].
        unfold visible. unfold draft_path in Dp. apply starts_with_spec in Dp as (z & ->). reflexivity. }
      destruct (Gv _ Hp) as (b & _ & (raw & c & stem & P1 & P2 & P3 & P4 & P5 & P6 & P7 & P8)).
      cbn [place pl_file pl_dir pl_coll f_parsed f_name] in *. rewrite La in P1. injection P1 as <-.
      exists (with_collection (set_adv_id a i) c). split; [exists a, i, c; auto|]. split; [|split].
      - exists (set_adv_id a i), c, sid. cbn [place pl_file pl_dir pl_coll f_parsed f_name beside fst snd set_adv_id a_id a_package a_collection].
        repeat apply conj; auto. rewrite Es. discriminate.
      - unfold is_placeholder_adv. cbn [a_id with_collection set_adv_id]. rewrite Hi', Es.
        destruct (String.eqb_spec (new_id y n) "RUSTSEC-0000-0000") as [Ee|_]; [|reflexivity]. exfalso. apply (new_id_not_placeholder y n) in Ee; [exact Ee|lia].
      - exact Hi'. }
    (* every file of the new tree *)
    assert (Gv' : forall p, In p ps' -> (In p ps /\ exists a, In a advs /\ file_gives p a) \/
       exists k d sid dir, nth_error (drafts t) k = Some d /\ nth_error (s_done s) k = Some (sid, dir) /\ p = place (beside (fst d) sid, with_id sid (snd d))).
    { intros p Hp. unfold ps' in Hp. apply in_map_iff in Hp as ([q x] & <- & Hq). apply filter_In in Hq as [Hq Vq].
      destruct (Files' q x Hq) as [[Dq Hx]|(k & d & sid & dir & Hd & Hs & -> & ->)]; [left|right; exists k, d, sid, dir; auto].
      assert (In (place (q, x)) ps) by (rewrite Eps; apply in_map, filter_In; auto). split; [assumption|]. apply Gv. assumption. }
    destruct (choice file_gives ps') as (advs' & F').
    { intros p Hp. destruct (Gv' p Hp) as [(_ & a & _ & G)|(k & d & sid & dir & Hd & Hs & ->)]; [exists a; exact G|].
      destruct (New k d sid dir Hd Hs) as (a' & _ & G & _). exists a'; exact G. }
    assert (NDp : NoDup ps').
    { unfold ps'. assert (N : NoDup (map fst (filter visible (texts t')))).
      { unfold well_formed in W'. clear - W'. induction (texts t') as [|x l IH]; [constructor|]. cbn [map] in W'. inversion_clear W' as [|? ? N1 N2]. cbn [filter].
        destruct (visible x); [|exact (IH N2)]. cbn [map]. constructor; [|exact (IH N2)]. intros Hi. apply N1. apply in_map_iff in Hi as (z & Ez & Hz).
        apply filter_In in Hz as [Hz _]. rewrite <- Ez. apply in_map. exact Hz. }
      clear - N. induction (filter visible (texts t')) as [|x l IH]; [constructor|]. cbn [map] in *. inversion_clear N as [|? ? N1 N2]. constructor; [|exact (IH N2)].
      intros Hi. apply N1. apply in_map_iff in Hi as (z & Ez & Hz). replace (fst x) with (fst z); [apply in_map; exact Hz|].
      unfold place in Ez. injection Ez as E1 E2 E3 _. destruct z as [[[? ?] ?] ?], x as [[[? ?] ?] ?]. cbn in *. congruence. }
    assert (OldInj : forall p1 p2 a1 a2, In p1 ps -> In p2 ps -> file_gives p1 a1 -> file_gives p2 a2 -> is_placeholder_adv a1 = false ->
       is_placeholder_adv a2 = false -> a_id a1 = a_id a2 -> p1 = p2).
    { intros p1 p2 a1 a2 H1 H2 G1 G2 P1 P2 E. destruct (In_nth_error _ _ H1) as (k1 & K1), (In_nth_error _ _ H2) as (k2 & K2).
      destruct (forall2_nth _ _ _ F k1 p1 K1) as (b1 & N1 & J1). destruct (forall2_nth _ _ _ F k2 p2 K2) as (b2 & N2 & J2).
      rewrite (gives_fun _ _ _ J1 G1) in N1. rewrite (gives_fun _ _ _ J2 G2) in N2.
      rewrite Ei in ND. assert (k1 = k2); [|subst; congruence].
      apply (nodup_filter_nth a_id (fun a => negb (is_placeholder_adv a)) advs ND k1 k2 a1 a2); auto; [rewrite P1|rewrite P2]; reflexivity. }
    assert (InDb : forall p a, In p ps -> file_gives p a -> is_placeholder_adv a = false -> In a (db_iter db)).
    { intros p a Hp G P. destruct (Gv p Hp) as (b & Hb & Gb). rewrite (gives_fun _ _ _ Gb G) in Hb. rewrite Ei. apply filter_In. rewrite P. auto. }
    assert (NewInj : forall k1 k2 d1 d2 sid1 sid2 dir1 dir2, nth_error (drafts t) k1 = Some d1 -> nth_error (s_done s) k1 = Some (sid1, dir1) ->
       nth_error (drafts t) k2 = Some d2 -> nth_error (s_done s) k2 = Some (sid2, dir2) -> sid1 = sid2 -> k1 = k2).
    { intros k1 k2 d1 d2 sid1 sid2 dir1 dir2 _ S1 _ S2 <-. assert (E1 : nth_error (map fst (s_done s)) k1 = Some sid1) by (rewrite nth_error_map, S1; reflexivity).
      assert (E2 : nth_error (map fst (s_done s)) k2 = Some sid1) by (rewrite nth_error_map, S2; reflexivity).
      apply (NoDup_nth_error (map fst (s_done s))); [exact NDs| |congruence]. apply nth_error_Some. congruence. }
    assert (ND' : NoDup (map a_id (filter (fun a => negb (is_placeholder_adv a)) advs'))).
    { apply (nodup_filter_ids ps' advs' NDp F'). intros p1 p2 a1 a2 H1 H2 G1 G2 P1 P2 E.
      destruct (Gv' p1 H1) as [(O1 & _)|(k1 & d1 & sid1 & dir1 & D1 & S1 & ->)]; destruct (Gv' p2 H2) as [(O2 & _)|(k2 & d2 & sid2 & dir2 & D2 & S2 & ->)].
      - exact (OldInj p1 p2 a1 a2 O1 O2 G1 G2 P1 P2 E).
      - exfalso. destruct (New k2 d2 sid2 dir2 D2 S2) as (a' & _ & G' & _ & Ia). rewrite (gives_fun _ _ _ G' G2) in Ia.
        apply (Fresh sid2 dir2 a1); [eapply nth_error_In; exact S2|exact (InDb p1 a1 O1 G1 P1)|]. rewrite E. exact Ia.
      - exfalso. destruct (New k1 d1 sid1 dir1 D1 S1) as (a' & _ & G' & _ & Ia). rewrite (gives_fun _ _ _ G' G1) in Ia.
        apply (Fresh sid1 dir1 a2); [eapply nth_error_In; exact S1|exact (InDb p2 a2 O2 G2 P2)|]. rewrite <- E. exact Ia.
      - destruct (New k1 d1 sid1 dir1 D1 S1) as (b1 & _ & J1 & _ & I1). destruct (New k2 d2 sid2 dir2 D2 S2) as (b2 & _ & J2 & _ & I2).
        rewrite (gives_fun _ _ _ J1 G1) in I1. rewrite (gives_fun _ _ _ J2 G2) in I2. rewrite E, I2 in I1.
        assert (k1 = k2) by (eapply NewInj; eauto). subst k2. congruence. }
    destruct (proj2 (C17_open_succeeds_iff (fs_of t') ps' Ep')) as (db' & Eo'); [exists advs'; auto|].
    destruct (C17_open_loads_exactly_the_files _ _ Eo') as (qs & advs2 & Eq & F2 & Ei' & ND2). rewrite Ep' in Eq. injection Eq as <-.
    assert (Ea : advs2 = advs').
    { clear - F2 F'. revert advs2 F2. induction F' as [|p a l l' G F IH]; intros advs2 F2; inversion F2 as [|? b ? m G2 F3]; subst; [reflexivity|].
      rewrite (gives_fun _ _ _ G G2). f_equal. apply IH. exact F3. }
    subst advs2. exists db'.
    destruct (choice (fun x a' => published (fst x) (fst (snd x)) a' /\ file_gives (place (beside (fst (fst x)) (fst (snd x)), with_id (fst (snd x)) (snd (fst x)))) a' /\
               is_placeholder_adv a' = false /\ id_string (a_id a') = fst (snd x)) (combine (drafts t) (s_done s))) as (new & Fn).
    { intros [d [sid dir]] Hx. apply In_nth_error in Hx as (k & Hk). cbn [fst snd].
      assert (Hds : nth_error (drafts t) k = Some d /\ nth_error (s_done s) k = Some (sid, dir)).
      { clear - Hk. revert Hk. generalize (drafts t) (s_done s). induction k as [|k IH]; intros [|a l] [|b l']; cbn [nth_error combine]; try discriminate.
        - intros E. injection E as -> ->. auto.
        - apply IH. }
      apply (New k d sid dir); apply Hds. }
    exists new. split; [exact Eo'|]. split.
    2:{ clear - Fn. induction Fn as [|x a l l' (P & _) F IH]; constructor; auto. }
    assert (Kx : forall k d sid dir, nth_error (drafts t) k = Some d -> nth_error (s_done s) k = Some (sid, dir) -> nth_error (combine (drafts t) (s_done s)) k = Some (d, (sid, dir))).
    { intros k. generalize (drafts t) (s_done s). induction k as [|k IH]; intros [|a l] [|b l']; cbn [nth_error combine]; try discriminate; intros d sid dir.
      - intros E1 E2. injection E1 as ->. injection E2 as ->. reflexivity.
      - apply IH. }
    assert (Kx' : forall k d e, nth_error (combine (drafts t) (s_done s)) k = Some (d, e) -> nth_error (drafts t) k = Some d /\ nth_error (s_done s) k = Some e).
    { intros k. generalize (drafts t) (s_done s). induction k as [|k IH]; intros [|a l] [|b l']; cbn [nth_error combine]; try discriminate; intros d e.
      - intros E. injection E as -> ->. auto.
      - apply IH. }
    assert (InNew : forall a', In a' new <-> exists k d sid dir, nth_error (drafts t) k = Some d /\ nth_error (s_done s) k = Some (sid, dir) /\ file_gives (place (beside (fst d) sid, with_id sid (snd d))) a').
    { intros a'. split.
      - intros Ha. apply In_nth_error in Ha as (k & Hk). destruct (forall2_nth_r _ _ _ Fn k a' Hk) as ([d [sid dir]] & Hx & _ & G & _).
        apply Kx' in Hx as [Hd Hs]. exists k, d, sid, dir. auto.
      - intros (k & d & sid & dir & Hd & Hs & G). destruct (forall2_nth _ _ _ Fn k _ (Kx k d sid dir Hd Hs)) as (b & Hb & _ & Gb & _). cbn [fst snd] in Gb.
        rewrite (gives_fun _ _ _ G Gb). eapply nth_error_In. exact Hb. }
    assert (NewFacts : forall a', In a' new -> is_placeholder_adv a' = false /\ exists sid dir, In (sid, dir) (s_done s) /\ id_string (a_id a') = sid).
    { intros a' Ha. apply In_nth_error in Ha as (k & Hk). destruct (forall2_nth_r _ _ _ Fn k a' Hk) as ([d [sid dir]] & Hx & _ & _ & P & I).
      apply Kx' in Hx as [Hd Hs]. split; [exact P|]. exists sid, dir. split; [eapply nth_error_In; exact Hs|exact I]. }
    apply NoDup_Permutation.
    - apply (NoDup_map_inv a_id). exact ND2.
    - assert (N1 : NoDup (db_iter db)) by (apply (NoDup_map_inv a_id); exact ND).
      assert (N2 : NoDup new).
      { apply (NoDup_map_inv (fun a => id_string (a_id a))). assert (Em : map (fun a => id_string (a_id a)) new = map fst (s_done s)).
        { clear - Fn Len. revert Fn Len. generalize (drafts t) (s_done s). intros l1 l2 Fn. remember (combine l1 l2) as L eqn:EL. revert l1 l2 EL.
          induction Fn as [|x a L new (_ & _ & _ & I) F IH]; intros l1 l2 EL Len.
          - destruct l1, l2; try discriminate; reflexivity.
          - destruct l1 as [|d l1], l2 as [|e l2]; try discriminate. injection EL as -> ->. cbn [map]. cbn [fst snd] in I. rewrite I. f_equal. apply (IH l1 l2); [reflexivity|]. cbn in Len. congruence. }
        rewrite Em. exact NDs. }
      clear - N1 N2 NewFacts Fresh. induction (db_iter db) as [|a l IH]; [exact N2|]. cbn [app]. inversion_clear N1 as [|? ? N3 N4]. constructor.
      + rewrite in_app_iff. intros [Hi|Hi]; [exact (N3 Hi)|]. destruct (NewFacts a Hi) as (_ & sid & dir & Hs & E). exact (Fresh sid dir a Hs (or_introl eq_refl) E).
      + apply IH; [|exact N4]. intros sid dir b Hs Hb. apply (Fresh sid dir b Hs). right. exact Hb.
    - intros a. rewrite Ei', filter_In, in_app_iff. split.
      + intros [Ha P]. apply negb_true_iff in P. apply In_nth_error in Ha as (k & Hk). destruct (forall2_nth_r _ _ _ F' k a Hk) as (p & Hp & G). apply nth_error_In in Hp.
        destruct (Gv' p Hp) as [(Op & _)|(j & d & sid & dir & Hd & Hs & ->)]; [left; exact (InDb p a Op G P)|]. right. apply InNew. exists j, d, sid, dir. auto.
      + assert (Mem : forall p, In p ps' -> file_gives p a -> In a advs').
        { intros p Hp G. destruct (In_nth_error _ _ Hp) as (k & Hk). destruct (forall2_nth _ _ _ F' k p Hk) as (b & Hb & Gb). rewrite (gives_fun _ _ _ G Gb). eapply nth_error_In. exact Hb. }
        intros [Ha|Ha].
        * assert (P : is_placeholder_adv a = false) by (rewrite Ei in Ha; apply filter_In in Ha as [_ P]; apply negb_true_iff; exact P). rewrite P. split; [|reflexivity].
          assert (Hp : exists p, In p ps /\ file_gives p a).
          { rewrite Ei in Ha. apply filter_In in Ha as [Ha _]. destruct (In_nth_error _ _ Ha) as (k & Hk). destruct (forall2_nth_r _ _ _ F k a Hk) as (p & Hp & G). exists p. split; [eapply nth_error_In; exact Hp|exact G]. }
          destruct Hp as (p & Hp & G). apply (Mem p); [|exact G]. rewrite Eps in Hp. apply in_map_iff in Hp as ([q x] & <- & Hq). apply filter_In in Hq as [Hq Vq].
          unfold ps'. apply in_map, filter_In. split; [|exact Vq]. apply Old'; [|exact Hq]. destruct (draft_path q) eqn:Dq; [exfalso|reflexivity].
          assert (Hd : In (q, x) (drafts t)) by (unfold drafts; apply filter_In; auto). destruct (Ph _ Hd) as (b & Lb & Ib). cbn [snd] in Lb.
          destruct G as (raw & c & stem & P1 & _ & _ & _ & _ & _ & _ & ->). cbn [place pl_file f_parsed snd] in P1. rewrite Lb in P1. injection P1 as <-.
          unfold is_placeholder_adv in P. cbn [a_id with_collection] in P. rewrite Ib in P. discriminate P.
        * destruct (NewFacts a Ha) as [P _]. rewrite P. split; [|reflexivity]. apply InNew in Ha as (k & d & sid & dir & Hd & Hs & G).
          apply (Mem _) with (2 := G). unfold ps'. apply in_map, filter_In. split.
          -- apply Ctx'. rewrite After. apply (B2 k d sid dir Hd Hs).
          -- unfold visible, beside. cbn [fst snd]. destruct (Sid k d sid dir Hd Hs) as (y & n & -> & _). reflexivity.
  Qed.
End Theorems.
Print Assumptions C48_database_afterwards.
Print Assumptions C48_numbers_are_consecutive.
Print Assumptions C48_ids_are_fresh.
Print Assumptions C48_drafts_become_files.
Print Assumptions C48_interruption_loses_nothing.
Print Assumptions C48_nothing_to_do.

(** ** The title *)
(** The title listing the first [k] of [L], and how many more there are. *)
Definition title_of (L : list string) (k : nat) : string :=
  "Assigned " ++ join_str ", " (firstn k L) ++
  (if Nat.eqb k (List.length L) then "" else " and " ++ print_dec (N.of_nat (List.length L - k)) ++ " more").

Lemma split_str_nocomma s1 : forall s2, has_char "," s1 = false -> split_str " ," (s1 ++ " ," ++ s2) = Some (s1, s2).
Proof.
  induction s1 as [|c s1 IH]; intros s2 H; [reflexivity|]. cbn [has_char] in H. apply orb_false_iff in H as [Hc H]. apply Ascii.eqb_neq in Hc.
  cbn [append]. cbn [split_str].
  assert (E : strip_prefix " ," (String c (s1 ++ String " " (String "," s2))) = None).
  { cbn [strip_prefix]. destruct (Ascii.eqb " " c); [|reflexivity]. destruct s1 as [|c' s1]; [reflexivity|].
    cbn [append]. cbn [has_char] in H. apply orb_false_iff in H as [H _]. rewrite Ascii.eqb_sym in H. rewrite H. reflexivity. }
  rewrite E. specialize (IH s2 H). cbn [append] in IH. rewrite IH. reflexivity.
Qed.
Lemma split_str_none s : has_char "," s = false -> split_str " ," s = None.
Proof.
  induction s as [|c s IH]; intros H; [reflexivity|]. cbn [has_char] in H. apply orb_false_iff in H as [Hc H]. cbn [split_str].
  assert (E : strip_prefix " ," (String c s) = None).
  { cbn [strip_prefix]. destruct (Ascii.eqb " " c); [|reflexivity]. destruct s as [|c' s]; [reflexivity|].
    cbn [has_char] in H. apply orb_false_iff in H as [H _]. rewrite Ascii.eqb_sym in H. rewrite H. reflexivity. }
  rewrite E, (IH H). reflexivity.
Qed.
Lemma has_char_srev c s : has_char c (srev s) = has_char c s.
Proof.
  induction s as [|a s IH]; [reflexivity|]. rewrite srev_cons, has_char_app, IH. cbn [has_char]. rewrite orb_false_r, orb_comm. reflexivity.
Qed.
Lemma rsplit_comma a b : has_char "," b = false -> rsplit_once_str ", " (a ++ ", " ++ b) = Some (a, b).
Proof.
  intros H. unfold rsplit_once_str. rewrite !srev_sapp. change (srev ", ") with " ,". rewrite sapp_assoc.
  rewrite split_str_nocomma by (rewrite has_char_srev; exact H). rewrite !srev_involutive. reflexivity.
Qed.
Lemma rsplit_none a : has_char "," a = false -> rsplit_once_str ", " a = None.
Proof. intros H. unfold rsplit_once_str. change (srev ", ") with " ,". rewrite split_str_none; [reflexivity|]. rewrite has_char_srev. exact H. Qed.
Lemma join_snoc l x : l <> [] -> join_str ", " (l ++ [x])%list = join_str ", " l ++ ", " ++ x.
Proof.
  induction l as [|y l IH]; intros H; [congruence|]. destruct l as [|z l]; [reflexivity|].
  assert (E : join_str ", " ((y :: z :: l) ++ [x])%list = y ++ ", " ++ join_str ", " ((z :: l) ++ [x])%list) by reflexivity.
  rewrite E, IH by discriminate. cbn [join_str]. rewrite !sapp_assoc. reflexivity.
Qed.
Lemma tail_nocomma n : has_char "," (" and " ++ print_dec n ++ " more") = false.
Proof.
  rewrite !has_char_app. assert (D : has_char "," (print_dec n) = false) by (eapply str_forall_has; [apply print_dec_digits|reflexivity]).
  rewrite D. reflexivity.
Qed.
Lemma firstn_snoc {A} (l : list A) k x : nth_error l k = Some x -> firstn (S k) l = (firstn k l ++ [x])%list.
Proof. revert k. induction l as [|a l IH]; intros [|k] H; try discriminate; [injection H as ->; reflexivity|]. cbn. f_equal. apply IH. exact H. Qed.

Section Title.
  Context (L : list string) (NC : Forall (fun x => has_char "," x = false) L).
  Notation n := (List.length L).
  Definition ending (k : nat) : string := if Nat.eqb k n then "" else " and " ++ print_dec (N.of_nat (n - k)) ++ " more".
  Lemma ending_nocomma k : has_char "," (ending k) = false.
  Proof. unfold ending. destruct (Nat.eqb k n); [reflexivity|apply tail_nocomma]. Qed.
  Lemma shorten_spec : forall k fuel, (k <= n)%nat -> (k <= fuel)%nat ->
    match shorten fuel (N.of_nat (n - k)) (title_of L k) with
    | Ok x => exists j, (j <= k)%nat /\ (j = O -> k = O) /\ x = title_of L j /\ (String.length x <= 255)%nat /\
                        forall i, (j < i <= k)%nat -> (255 < String.length (title_of L i))%nat
    | Err => k = O /\ fuel = O
    | Panic => forall i, (1 <= i <= k)%nat -> (255 < String.length (title_of L i))%nat
    end.
  Proof.
    induction k as [|k IH]; intros fuel Hk Hf.
    - destruct fuel as [|f]; cbn [shorten]; destruct (Nat.leb_spec (String.length (title_of L 0)) 255) as [Le|Gt].
      1,3: exists O; repeat apply conj; auto; intros i Hi; lia.
      + auto.
      + unfold title_of at 1. cbn [firstn join_str append]. rewrite rsplit_none; [intros i Hi; lia|].
        change (has_char "," ("Assigned " ++ ending 0) = false). rewrite has_char_app, ending_nocomma. reflexivity.
    - destruct fuel as [|f]; [lia|]. cbn [shorten]. destruct (Nat.leb_spec (String.length (title_of L (S k))) 255) as [Le|Gt].
      { exists (S k). repeat apply conj; auto; intros; lia. }
      destruct (nth_error L k) as [x|] eqn:Ek; [|apply nth_error_None in Ek; lia].
      assert (Nx : has_char "," x = false) by (rewrite Forall_forall in NC; apply NC; eapply nth_error_In; exact Ek).
      destruct k as [|k].
      + unfold title_of at 1. rewrite (firstn_snoc L 0 x Ek). cbn [firstn app join_str].
        rewrite rsplit_none; [intros i Hi; assert (i = 1%nat) by lia; subst; exact Gt|].
        rewrite !has_char_app, Nx. fold (ending 1). rewrite (ending_nocomma 1). reflexivity.
      + assert (Et : title_of L (S (S k)) = ("Assigned " ++ join_str ", " (firstn (S k) L)) ++ ", " ++ (x ++ ending (S (S k)))).
        { unfold title_of. rewrite (firstn_snoc L (S k) x Ek), join_snoc; [rewrite !sapp_assoc; reflexivity|]. destruct L; [discriminate Ek|discriminate]. }
        rewrite Et, rsplit_comma by (rewrite has_char_app, Nx, ending_nocomma; reflexivity).
        assert (E2 : ("Assigned " ++ join_str ", " (firstn (S k) L)) ++ " and " ++ print_dec (N.of_nat (n - S (S k)) + 1) ++ " more" = title_of L (S k)).
        { unfold title_of. destruct (Nat.eqb_spec (S k) n) as [E|_]; [lia|]. rewrite sapp_assoc. do 2 f_equal. f_equal. f_equal. f_equal. lia. }
        rewrite E2. replace (N.of_nat (n - S (S k)) + 1) with (N.of_nat (n - S k)) by lia.
        specialize (IH f ltac:(lia) ltac:(lia)). destruct (shorten f (N.of_nat (n - S k)) (title_of L (S k))) as [y| |].
        * destruct IH as (j & J1 & J2 & J3 & J4 & J5). exists j. repeat apply conj; auto; try lia.
          intros i Hi. destruct (Nat.eq_dec i (S (S k))) as [->|Ne]; [exact Gt|apply J5; lia].
        * lia.
        * intros i Hi. destruct (Nat.eq_dec i (S (S k))) as [->|Ne]; [exact Gt|apply IH; lia].
  Qed.
End Title.

(** The title names as many assignments, from the first on, as fit into 255 bytes, and counts the rest; if not even one
    fits the program panics. *)
Theorem C48_title : forall L, Forall (fun x => has_char "," x = false) L ->
  match make_title L with
  | Ok x => exists k, (k <= List.length L)%nat /\ (k = O -> L = []) /\ x = title_of L k /\ (String.length x <= 255)%nat /\
              forall i, (k < i <= List.length L)%nat -> (255 < String.length (title_of L i))%nat
  | Err => False
  | Panic => L <> [] /\ forall i, (1 <= i <= List.length L)%nat -> (255 < String.length (title_of L i))%nat
  end.
Proof.
  intros L NC. unfold make_title.
  assert (E : "Assigned " ++ join_str ", " L = title_of L (List.length L)).
  { unfold title_of. rewrite firstn_all, Nat.eqb_refl, sapp_nil_r. reflexivity. }
  rewrite E.
  assert (Len : forall l, (List.length l <= String.length (join_str ", " l) + 1)%nat).
  { induction l as [|x l IH]; [cbn; lia|]. destruct l as [|y l]; [cbn [join_str List.length]; lia|].
    change (join_str ", " (x :: y :: l)) with (x ++ ", " ++ join_str ", " (y :: l)). rewrite !slength_app. cbn [List.length String.length] in *. lia. }
  assert (F : (List.length L <= String.length (title_of L (List.length L)))%nat).
  { rewrite <- E, slength_app. cbn [String.length]. specialize (Len L). lia. }
  pose proof (shorten_spec L NC (List.length L) (String.length (title_of L (List.length L))) (le_n _) F) as S.
  rewrite Nat.sub_diag in S. cbn [N.of_nat] in S.
  destruct (shorten (String.length (title_of L (List.length L))) 0 (title_of L (List.length L))) as [x| |] eqn:Sh.
  - destruct S as (j & J1 & J2 & J3 & J4 & J5). exists j. repeat apply conj; auto.
    intros ->. specialize (J2 eq_refl). destruct L; [reflexivity|discriminate].
  - destruct S as [S1 S2]. rewrite <- E, slength_app in S2. cbn [String.length] in S2. lia.
  - split; [|exact S]. intros ->. discriminate Sh.
Qed.
Print Assumptions C48_title.

(** ** Examples and refuted parts.  A small TOML decoder that knows the keys [id], [package] and [date]. *)
Definition ex_field (k doc : string) : option string :=
  fold_right (fun l acc => match strip_prefix (k ++ " = " ++ String q "") l with
                           | Some v => match strip_suffix (String q "") v with Some x => Some x | None => acc end
                           | None => acc end) None (split_on nl doc).
Definition ex_toml (doc : string) : option advisory :=
  if starts_with "[advisory]" doc then
    match ex_field "id" doc, ex_field "package" doc, ex_field "date" doc with
    | Some i, Some p, Some d =>
        match id_from_str i with Ok i => Some (mkAdvisory i p d None None None None None "" None patched_2) | _ => None end
    | _, _, _ => None
    end
  else None.
Definition ex_load := load_text ex_toml (fun _ => "") (fun _ => "") (fun a _ _ => a).
Definition ex_fs := fs_of ex_toml (fun _ => "") (fun _ => "") (fun a _ _ => a).
Definition ex_assign := assign_ids ex_toml (fun _ => "") (fun _ => "") (fun a _ _ => a) true.
Definition line (s : string) : string := s ++ String nl "".
Definition field (k v : string) : string := line (k ++ " = " ++ String q v ++ String q "").
Definition ex_text (header i p d : string) : string :=
  line "```toml" ++ header ++ field "id" i ++ field "package" p ++ field "date" d ++ line "```" ++ line "# Title" ++ line "Text".
Definition HEAD : string := line "[advisory]".
Definition PH : string := "RUSTSEC-0000-0000".

(** Two drafts of 2021 and one of 2022; the highest number of 2021 is 7. *)
Definition ex_rtree : rtree :=
  mkRTree (Some [mkREntry "foo" (Some [mkRFile "RUSTSEC-2021-0007.md" (ex_text HEAD "RUSTSEC-2021-0007" "foo" "2021-01-01");
                                       mkRFile "RUSTSEC-0000-0000.md" (ex_text HEAD PH "foo" "2021-05-06")]);
                 mkREntry "bar" (Some [mkRFile "RUSTSEC-0000-0000.md" (ex_text HEAD PH "bar" "2022-01-01")])])
          (Some [mkREntry "std" (Some [mkRFile "RUSTSEC-0000-0000.std.md" (ex_text HEAD PH "std" "2021-07-08")])]).
Definition ex_after : rtree :=
  mkRTree (Some [mkREntry "foo" (Some [mkRFile "RUSTSEC-2021-0008.md" (ex_text HEAD "RUSTSEC-2021-0008" "foo" "2021-05-06");
                                       mkRFile "RUSTSEC-2021-0007.md" (ex_text HEAD "RUSTSEC-2021-0007" "foo" "2021-01-01")]);
                 mkREntry "bar" (Some [mkRFile "RUSTSEC-2022-0001.md" (ex_text HEAD "RUSTSEC-2022-0001" "bar" "2022-01-01")])])
          (Some [mkREntry "std" (Some [mkRFile "RUSTSEC-2021-0009.md" (ex_text HEAD "RUSTSEC-2021-0009" "std" "2021-07-08")])]).

(** For the hypotheses on concrete trees. *)
Lemma nodup_decide (l : list path) : (fix go l := match l with [] => true | p :: r => negb (existsb (path_eqb p) r) && go r end) l = true -> NoDup l.
Proof.
  induction l as [|p r IH]; intros H; [constructor|]. apply andb_true_iff in H as [A B]. constructor; [|exact (IH B)].
  intros Hi. apply negb_true_iff in A. assert (T : existsb (path_eqb p) r = true); [|congruence].
  apply existsb_exists. exists p. split; [exact Hi|]. destruct (path_eqb_spec p p); congruence.
Qed.
Lemma dated_decide t : forallb (fun d => match draft_year ex_toml (snd d) with Ok y => (2000 <=? y) && (y <=? 2100) | _ => true end) (drafts t) = true ->
  drafts_dated ex_toml t.
Proof.
  intros H d y Hd E. rewrite forallb_forall in H. specialize (H d Hd). rewrite E in H. apply andb_true_iff in H as [A B].
  apply N.leb_le in A, B. lia.
Qed.
Lemma room_decide t db : forallb (fun a => match numerical_part (a_id a) with Some n => n + N.of_nat (List.length (texts t)) <=? u32_max | None => true end) (db_iter db) = true ->
  N.of_nat (List.length (texts t)) <= u32_max -> room t db.
Proof.
  intros H H0 n [->|(a & Ha & _ & Na)]; [exact H0|]. rewrite forallb_forall in H. specialize (H a Ha). rewrite Na in H. apply N.leb_le. exact H.
Qed.
Lemma read_decide db : forallb (fun a => match id_from_str (id_string (a_id a)) with Ok i => id_eqb i (a_id a) | _ => false end) (db_iter db) = true -> ids_read db.
Proof.
  intros H a Ha. rewrite forallb_forall in H. specialize (H a Ha). exists (id_string (a_id a)).
  destruct (id_from_str (id_string (a_id a))) as [i| |]; [|discriminate H..]. f_equal.
  unfold id_eqb in H. apply andb_true_iff in H as [H H3]. apply andb_true_iff in H as [H1 H2]. apply String.eqb_eq in H3.
  destruct i as [k y z], (a_id a) as [k' y' z']. cbn in *. subst z'.
  assert (k = k') as -> by (destruct k, k'; try reflexivity; discriminate H1).
  destruct y as [y|], y' as [y'|]; cbn in H2; try discriminate H2; [apply N.eqb_eq in H2; subst|]; reflexivity.
Qed.
Lemma years_decide advs : forallb (fun a => match id_kind_of (a_id a), id_year (a_id a), date_year (a_date a) with
    | KRustSec, Some y, Ok z => y =? z | KRustSec, Some _, _ => false | _, _, _ => true end) advs = true -> years_agree advs.
Proof.
  intros H a y Ha K Y. rewrite forallb_forall in H. specialize (H a Ha). rewrite K, Y in H. unfold dated.
  destruct (date_year (a_date a)) as [z| |]; [|discriminate H..]. apply N.eqb_eq in H. subst. reflexivity.
Qed.

Lemma texts_decide m l : forallb (fun x => opt_eqb String.eqb (m (fst x)) (Some (snd x))) l = true ->
  forall x : path * string, In x l -> m (fst x) = Some (snd x).
Proof.
  intros H x Hx. rewrite forallb_forall in H. specialize (H x Hx). destruct (m (fst x)) as [y|]; [|discriminate H].
  cbn in H. apply String.eqb_eq in H. congruence.
Qed.
Lemma drafts_decide (l : list (path * string)) : forallb (fun d => match ex_load (snd d) with Ok a => String.eqb (id_string (a_id a)) "RUSTSEC-0000-0000" | _ => false end) l = true ->
  forall d, In d l -> exists a, ex_load (snd d) = Ok a /\ id_string (a_id a) = "RUSTSEC-0000-0000".
Proof.
  intros H d Hd. rewrite forallb_forall in H. specialize (H d Hd). destruct (ex_load (snd d)) as [a| |]; [|discriminate H..].
  exists a. split; [reflexivity|]. apply String.eqb_eq. exact H.
Qed.
Example C48_nonvacuous : exists db s, well_formed ex_rtree /\ db_open (ex_fs ex_rtree) = Ok db /\ room ex_rtree db /\
  drafts_dated ex_toml ex_rtree /\ ids_read db /\ years_agree (db_iter db) /\
  ex_assign true ex_rtree =
    (s, Ok (Some "Assigned RUSTSEC-2021-0008 to foo, RUSTSEC-2022-0001 to bar, RUSTSEC-2021-0009 to std")) /\
  s_done s = [("RUSTSEC-2021-0008", "foo"); ("RUSTSEC-2022-0001", "bar"); ("RUSTSEC-2021-0009", "std")] /\
  (forall d, In d (drafts ex_rtree) -> exists a, ex_load (snd d) = Ok a /\ id_string (a_id a) = "RUSTSEC-0000-0000") /\
  (forall x, In x (texts ex_after) -> apply_ops (contents ex_rtree) (s_ops s) (fst x) = Some (snd x)) /\ drafts ex_after = [] /\
  exists db', db_open (ex_fs ex_after) = Ok db' /\ List.length (db_iter db') = 4%nat.
Proof.
  eexists. eexists. split; [apply nodup_decide; vm_compute; reflexivity|]. split; [vm_compute; reflexivity|].
  split; [apply room_decide; [vm_compute; reflexivity|vm_compute; discriminate]|]. split; [apply dated_decide; vm_compute; reflexivity|].
  split; [apply read_decide; vm_compute; reflexivity|]. split; [apply years_decide; vm_compute; reflexivity|].
  split; [vm_compute; reflexivity|]. split; [vm_compute; reflexivity|]. split; [|split; [|split; [vm_compute; reflexivity|]]].
  - apply drafts_decide. vm_compute. reflexivity.
  - apply texts_decide. vm_compute. reflexivity.
  - eexists. split; vm_compute; reflexivity.
Qed.

(** The numbers go by the year of the date: if an id's year is another, which the database accepts, the new file can
    overwrite a published advisory. *)
Definition odd_tree : rtree :=
  mkRTree (Some [mkREntry "foo" (Some [mkRFile "RUSTSEC-2021-0001.md" (ex_text HEAD "RUSTSEC-2021-0001" "foo" "2020-12-31");
                                       mkRFile "RUSTSEC-0000-0000.md" (ex_text HEAD PH "foo" "2021-05-06")])]) None.
Theorem C48_no_overwriting_refuted : exists db s p x, well_formed odd_tree /\ db_open (ex_fs odd_tree) = Ok db /\ room odd_tree db /\
  drafts_dated ex_toml odd_tree /\ ids_read db /\ ex_assign false odd_tree = (s, Ok None) /\
  draft_path p = false /\ contents odd_tree p = Some x /\ apply_ops (contents odd_tree) (s_ops s) p <> Some x.
Proof.
  eexists. eexists. exists ("crates", "foo", "RUSTSEC-2021-0001.md"). eexists.
  split; [apply nodup_decide; vm_compute; reflexivity|]. split; [vm_compute; reflexivity|].
  split; [apply room_decide; [vm_compute; reflexivity|vm_compute; discriminate]|]. split; [apply dated_decide; vm_compute; reflexivity|].
  split; [apply read_decide; vm_compute; reflexivity|]. split; [vm_compute; reflexivity|]. split; [reflexivity|]. split; [vm_compute; reflexivity|].
  vm_compute. discriminate.
Qed.
Print Assumptions C48_no_overwriting_refuted.

(** Interrupted between writing the new file and deleting the draft, and run again, the program publishes the same
    draft under a second id. *)
Definition one_draft : rtree :=
  mkRTree (Some [mkREntry "foo" (Some [mkRFile "RUSTSEC-2021-0007.md" (ex_text HEAD "RUSTSEC-2021-0007" "foo" "2021-01-01");
                                       mkRFile "RUSTSEC-0000-0000.md" (ex_text HEAD PH "foo" "2021-05-06")])]) None.
Definition interrupted : rtree :=
  mkRTree (Some [mkREntry "foo" (Some [mkRFile "RUSTSEC-2021-0007.md" (ex_text HEAD "RUSTSEC-2021-0007" "foo" "2021-01-01");
                                       mkRFile "RUSTSEC-0000-0000.md" (ex_text HEAD PH "foo" "2021-05-06");
                                       mkRFile "RUSTSEC-2021-0008.md" (ex_text HEAD "RUSTSEC-2021-0008" "foo" "2021-05-06")])]) None.
Theorem C48_rerun_after_interruption_refuted : exists s pre post s2,
  ex_assign false one_draft = (s, Ok None) /\ s_ops s = (pre ++ post)%list /\
  (forall x, In x (texts interrupted) -> apply_ops (contents one_draft) pre (fst x) = Some (snd x)) /\
  ex_assign false interrupted = (s2, Ok None) /\
  s_done s = [("RUSTSEC-2021-0008", "foo")] /\ s_done s2 = [("RUSTSEC-2021-0009", "foo")].
Proof.
  exists (fst (ex_assign false one_draft)), (removelast (s_ops (fst (ex_assign false one_draft)))), [Delete ("crates", "foo", "RUSTSEC-0000-0000.md")],
    (fst (ex_assign false interrupted)).
  split; [vm_compute; reflexivity|]. split; [vm_compute; reflexivity|]. split; [|repeat apply conj; vm_compute; reflexivity].
  apply texts_decide. vm_compute. reflexivity.
Qed.
Print Assumptions C48_rerun_after_interruption_refuted.

(** A draft whose id line is written in another way is loaded by the database; the assigner fails on it and leaves
    behind a file the database then refuses. *)
Definition comment_toml (doc : string) : option advisory := ex_toml (join_on nl (map (fun l => match split_str " #" l with Some (x, _) => x | None => l end) (split_on nl doc))).
Definition commented : string :=
  line "```toml" ++ HEAD ++ line ("id = " ++ String q PH ++ String q " # to be assigned") ++ field "package" "foo" ++ field "date" "2021-05-06" ++ line "```" ++ line "# Title" ++ line "Text".
Definition comment_tree (extra : list rfile) : rtree :=
  mkRTree (Some [mkREntry "foo" (Some ([mkRFile "RUSTSEC-2021-0007.md" (ex_text HEAD "RUSTSEC-2021-0007" "foo" "2021-01-01");
                                       mkRFile "RUSTSEC-0000-0000.md" commented] ++ extra)%list)]) None.
Theorem C48_failed_run_refuted : exists db s,
  db_open (fs_of comment_toml (fun _ => "") (fun _ => "") (fun a _ _ => a) (comment_tree [])) = Ok db /\
  assign_ids comment_toml (fun _ => "") (fun _ => "") (fun a _ _ => a) true false (comment_tree []) = (s, Err) /\
  apply_ops (contents (comment_tree [])) (s_ops s) ("crates", "foo", "RUSTSEC-2021-0008.md") = Some commented /\
  db_open (fs_of comment_toml (fun _ => "") (fun _ => "") (fun a _ _ => a) (comment_tree [mkRFile "RUSTSEC-2021-0008.md" commented])) = Err.
Proof. eexists. eexists. repeat apply conj; vm_compute; reflexivity. Qed.
Print Assumptions C48_failed_run_refuted.

(** [Advisory::from_str] supplies a missing ["[advisory]"] line, the assigner does not: such a draft is loaded but makes
    the assigner fail. *)
Definition headless : rtree :=
  mkRTree (Some [mkREntry "foo" (Some [mkRFile "RUSTSEC-2021-0007.md" (ex_text "" "RUSTSEC-2021-0007" "foo" "2021-01-01");
                                       mkRFile "RUSTSEC-0000-0000.md" (ex_text "" PH "foo" "2021-05-06")])]) None.
Theorem C48_every_loadable_draft_refuted : exists db s, db_open (ex_fs headless) = Ok db /\ ex_assign false headless = (s, Err) /\ s_ops s = [].
Proof. eexists. eexists. repeat apply conj; vm_compute; reflexivity. Qed.
Print Assumptions C48_every_loadable_draft_refuted.
