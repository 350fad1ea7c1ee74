From Coq Require Import List NArith Ascii String Bool Arith Lia.
From Verif Require Import Base SemverModel OsvModel StrLib IdModel IdSpec PkgModel DbModel DbSpec.
Import ListNotations.
Local Open Scope string_scope.

(** ** Decidable equalities *)
Lemma collection_eqb_spec a b : reflect (a = b) (collection_eqb a b).
Proof. destruct a, b; constructor; congruence. Qed.
Lemma id_kind_eqb_spec a b : reflect (a = b) (id_kind_eqb a b).
Proof. destruct a, b; constructor; congruence. Qed.
Lemma id_eqb_spec a b : reflect (a = b) (id_eqb a b).
Proof.
  destruct a as [k1 y1 s1], b as [k2 y2 s2]. unfold id_eqb. cbn [id_kind_of id_year id_string].
  destruct (id_kind_eqb_spec k1 k2) as [->|n]; [|constructor; congruence].
  destruct y1 as [y1|], y2 as [y2|]; cbn [opt_eqb]; try (constructor; congruence).
  - destruct (N.eqb_spec y1 y2) as [->|n]; [|constructor; congruence].
    cbn [andb]. destruct (String.eqb_spec s1 s2) as [->|n]; constructor; congruence.
  - cbn [andb]. destruct (String.eqb_spec s1 s2) as [->|n]; constructor; congruence.
Qed.
Lemma informational_eqb_spec a b : reflect (a = b) (informational_eqb a b).
Proof.
  destruct a, b; simpl; try (constructor; congruence).
  destruct (String.eqb_spec s s0); constructor; congruence.
Qed.
Lemma warning_kind_eqb_spec a b : reflect (a = b) (warning_kind_eqb a b).
Proof. destruct a, b; constructor; congruence. Qed.

Lemma str_mem_iff s l : str_mem s l = true <-> In s l.
Proof.
  unfold str_mem. rewrite existsb_exists. split.
  - intros (x & H & E). apply String.eqb_eq in E. subst. exact H.
  - intros H. exists s. rewrite String.eqb_refl. auto.
Qed.

(** ** Slots *)
Definition slots_of (P : advisory -> bool) (advs : list advisory) : list nat :=
  filter (fun s => match nth_error advs s with Some a => P a | None => false end) (seq 0 (List.length advs)).

Lemma slots_of_snoc P advs a :
  slots_of P (advs ++ [a])%list = (slots_of P advs ++ if P a then [List.length advs] else [])%list.
Proof.
  unfold slots_of. rewrite app_length. cbn [List.length]. rewrite Nat.add_1_r, seq_S, filter_app. cbn [plus].
  f_equal.
  - apply filter_ext_in. intros s Hs. apply in_seq in Hs. rewrite nth_error_app1 by lia. reflexivity.
  - cbn [filter]. rewrite nth_error_app2, Nat.sub_diag by lia. cbn [nth_error]. destruct (P a); reflexivity.
Qed.

Lemma slots_of_lt P advs s : In s (slots_of P advs) -> s < List.length advs.
Proof. unfold slots_of. rewrite filter_In, in_seq. lia. Qed.

Lemma set_insert_max n l : (forall s, In s l -> s < n) -> set_insert n l = (l ++ [n])%list.
Proof.
  induction l as [|y l IH]; intros H; [reflexivity|]. cbn [set_insert app].
  assert (y < n) by (apply H; left; reflexivity).
  destruct (Nat.ltb_spec n y); [lia|]. destruct (Nat.eqb_spec n y); [lia|].
  rewrite IH by (intros s Hs; apply H; right; exact Hs). reflexivity.
Qed.

Lemma slots_advisories_app advs x l : (forall s, In s l -> s < List.length advs) ->
  slots_advisories (advs ++ x)%list l = slots_advisories advs l.
Proof.
  induction l as [|s l IH]; intros H; [reflexivity|]. cbn [slots_advisories].
  rewrite nth_error_app1 by (apply H; left; reflexivity).
  destruct (nth_error advs s); [|reflexivity]. rewrite IH by (intros; apply H; right; assumption). reflexivity.
Qed.

Lemma slots_advisories_snoc advs l s a : nth_error advs s = Some a ->
  forall r, slots_advisories advs l = Ok r -> slots_advisories advs (l ++ [s])%list = Ok (r ++ [a])%list.
Proof.
  intros Ha. induction l as [|t l IH]; intros r H; cbn [slots_advisories app] in *.
  - injection H as <-. rewrite Ha. reflexivity.
  - destruct (nth_error advs t) as [b|]; [|discriminate].
    destruct (slots_advisories advs l) as [r'| |]; cbn [obind] in H; try discriminate. injection H as <-.
    rewrite (IH r' eq_refl). reflexivity.
Qed.

Lemma slots_of_get P advs : slots_advisories advs (slots_of P advs) = Ok (filter P advs).
Proof.
  induction advs as [|a advs IH] using rev_ind; [reflexivity|].
  rewrite slots_of_snoc, filter_app. cbn [filter].
  assert (B : slots_advisories (advs ++ [a]) (slots_of P advs) = Ok (filter P advs)).
  { rewrite slots_advisories_app; [exact IH|]. apply slots_of_lt. }
  destruct (P a).
  - apply slots_advisories_snoc; [|exact B]. rewrite nth_error_app2, Nat.sub_diag by lia. reflexivity.
  - rewrite !app_nil_r. exact B.
Qed.

(** ** Package index *)
Definition slots_or_nil (o : option (list nat)) : list nat := match o with Some l => l | None => [] end.
Lemma pidx_get_insert k k' s ix :
  slots_or_nil (pidx_get k' (pidx_insert k s ix)) =
  if String.eqb k k' then set_insert s (slots_or_nil (pidx_get k' ix)) else slots_or_nil (pidx_get k' ix).
Proof.
  induction ix as [|[k0 ss] ix IH]; cbn [pidx_insert pidx_get].
  - destruct (String.eqb k k'); reflexivity.
  - destruct (String.eqb_spec k0 k) as [->|n]; cbn [pidx_get].
    + destruct (String.eqb_spec k k') as [->|n']; reflexivity.
    + destruct (String.eqb_spec k0 k') as [->|n'].
      * destruct (String.eqb_spec k k'); [congruence|reflexivity].
      * exact IH.
Qed.

Definition in_coll (c : collection) (n : string) (a : advisory) : bool :=
  (match a_collection a with Some c' => collection_eqb c' c | None => false end && String.eqb (a_package a) n)%bool.

(** ** Database invariant *)
Definition db_index (db : database) (c : collection) : pkg_index :=
  match c with Crates => db_crates db | RustColl => db_rust db end.
Record db_inv (db : database) : Prop := {
  inv_idx : forall i, index_get i (en_index (db_entries db)) = None <-> ~ In i (map a_id (db_iter db));
  inv_slot : forall i s, index_get i (en_index (db_entries db)) = Some s ->
    exists a, nth_error (db_iter db) s = Some a /\ a_id a = i;
  inv_nodup : NoDup (map a_id (db_iter db));
  inv_pkg : forall c n, slots_or_nil (pidx_get n (db_index db c)) = slots_of (in_coll c n) (db_iter db);
  inv_nonph : forall a, In a (db_iter db) -> is_placeholder (a_id a) = false
}.

Lemma db_inv_new : db_inv (mkDb entries_new [] []).
Proof.
  constructor; cbn.
  - intros i. split; [intros _ []|reflexivity].
  - discriminate.
  - constructor.
  - intros [] n; reflexivity.
  - intros a [].
Qed.

Lemma load_file_ok en p en' r : load_file en p = Ok (en', r) ->
  exists a, file_gives p a /\
    (is_placeholder (a_id a) = true /\ en' = en /\ r = None \/
     is_placeholder (a_id a) = false /\ r = Some (List.length (en_advisories en)) /\
     en_advisories en' = (en_advisories en ++ [a])%list /\
     en_index en' = (a_id a, List.length (en_advisories en)) :: en_index en /\
     index_get (a_id a) (en_index en) = None).
Proof.
  unfold load_file. destruct (f_parsed (pl_file p)) as [raw| |] eqn:Ep; cbn [obind]; try discriminate.
  unfold has_md_extension. pose proof (strip_suffix_spec ".md" (f_name (pl_file p))) as Hs.
  destruct (strip_suffix ".md" (f_name (pl_file p))) as [stem|] eqn:Es; [|discriminate].
  destruct (String.eqb_spec stem "") as [|Hne]; [discriminate|]. cbn [negb].
  match goal with |- context [if ?c then Err else _] => destruct c eqn:En; [discriminate|] end.
  destruct (String.eqb_spec (pl_dir p) (a_package raw)) as [Hd|]; [|discriminate]. cbn [negb].
  assert (Ef : f_name (pl_file p) = (stem ++ ".md")%string) by (apply Hs; reflexivity).
  assert (Hname : stem = id_string (a_id raw) \/ has_prefix "RUSTSEC-0000-0000." (f_name (pl_file p))).
  { apply andb_false_iff in En as [En|En].
    - left. apply negb_false_iff, String.eqb_eq in En. rewrite Ef in En. eapply sapp_inj_r; exact En.
    - right. apply negb_false_iff in En. unfold is_draft_name in En. apply starts_with_spec in En. exact En. }
  set (coll := if String.eqb (pl_coll p) (collection_str Crates) then Ok Crates else _).
  intros H. assert (Hc : exists c, coll = Ok c /\ pl_coll p = collection_str c).
  { unfold coll in *. destruct (String.eqb_spec (pl_coll p) (collection_str Crates)); [exists Crates; auto|].
    destruct (String.eqb_spec (pl_coll p) (collection_str RustColl)); [exists RustColl; auto|discriminate]. }
  destruct Hc as (c & Ec & Hpc). rewrite Ec in H. cbn [obind] in H.
  assert (Hcoll : exists a, a = with_collection raw c /\ (a_collection raw = None \/ a_collection raw = Some c) /\
     (if is_placeholder (a_id a) then Ok (en, None)
      else match index_get (a_id a) (en_index en) with
           | Some _ => Err
           | None => Ok (mkEntries ((a_id a, List.length (en_advisories en)) :: en_index en) (en_advisories en ++ [a]),
                         Some (List.length (en_advisories en)))
           end) = Ok (en', r)).
  { destruct (a_collection raw) as [c'|] eqn:Ea.
    - destruct (collection_eqb_spec c' c) as [->|]; [|discriminate]. cbn [obind] in H.
      exists raw. split; [|split; [right; reflexivity|exact H]].
      destruct raw; cbn in Ea; subst; reflexivity.
    - cbn [obind] in H. exists (with_collection raw c). auto. }
  clear H. destruct Hcoll as (a & Ea & Hraw & H). exists a. split.
  { exists raw, c, stem. repeat split; assumption. }
  destruct (is_placeholder (a_id a)) eqn:Eph; [left; injection H as <- <-; auto|].
  destruct (index_get (a_id a) (en_index en)) eqn:Ei; [discriminate|].
  injection H as <- <-. right. repeat split; reflexivity.
Qed.

Lemma file_gives_coll p a : file_gives p a -> exists c, a_collection a = Some c.
Proof. intros (raw & c & stem & _ & _ & _ & _ & _ & _ & _ & ->). exists c. reflexivity. Qed.

Lemma nth_error_snoc {A} (l : list A) x : nth_error (l ++ [x])%list (List.length l) = Some x.
Proof. rewrite nth_error_app2, Nat.sub_diag by lia. reflexivity. Qed.

Lemma open_step_inv db p db' : db_inv db -> open_step db p = Ok db' ->
  exists a, file_gives p a /\ db_inv db' /\
    db_iter db' = (db_iter db ++ if is_placeholder (a_id a) then [] else [a])%list.
Proof.
  intros I. unfold open_step. destruct (load_file (db_entries db) p) as [[en r]| |] eqn:El; cbn [obind]; try discriminate.
  apply load_file_ok in El as (a & Hg & [(Hp & -> & ->)|(Hp & -> & Ea & Ei & Ein)]).
  - intros H. injection H as <-. exists a. split; [exact Hg|]. rewrite Hp, app_nil_r.
    split; [|reflexivity]. destruct I. constructor; assumption.
  - rewrite Ea, nth_error_snoc. destruct (file_gives_coll p a Hg) as (c & Ec). rewrite Ec. intros H.
    exists a. split; [exact Hg|]. rewrite Hp.
    assert (E' : db_entries db' = en /\ forall c0 n,
       slots_or_nil (pidx_get n (db_index db' c0)) =
       if (collection_eqb c c0 && String.eqb (a_package a) n)%bool
       then set_insert (List.length (en_advisories (db_entries db))) (slots_or_nil (pidx_get n (db_index db c0)))
       else slots_or_nil (pidx_get n (db_index db c0))).
    { destruct c; injection H as <-; (split; [reflexivity|]); intros [] n; cbn [db_index db_crates db_rust collection_eqb andb];
        try reflexivity; apply pidx_get_insert. }
    destruct E' as [E' Eix]. destruct I as [I1 I2 I3 I4 I5]. unfold db_iter in *. rewrite E', Ea.
    split; [|reflexivity].
    assert (Hfresh : ~ In (a_id a) (map a_id (en_advisories (db_entries db)))) by (apply I1; exact Ein).
    constructor; unfold db_iter; rewrite ?E', ?Ea, ?Ei.
    + intros i. cbn [index_get]. rewrite map_app, in_app_iff. cbn [map In].
      destruct (id_eqb_spec (a_id a) i) as [E|n].
      * split; [discriminate|]. intros C. exfalso. apply C. right. left. exact E.
      * rewrite I1. split; [intros C [C'|[C'|[]]]; auto|]. intros C C'. apply C. left; exact C'.
    + intros i s. cbn [index_get]. destruct (id_eqb_spec (a_id a) i) as [E|n].
      * intros Hs; injection Hs as <-. exists a. split; [apply nth_error_snoc|exact E].
      * intros Hs. apply I2 in Hs as (b & Hb & Eb). exists b. split; [|exact Eb].
        rewrite nth_error_app1; [exact Hb|]. apply nth_error_Some. congruence.
    + rewrite map_app. apply NoDup_Add with (a := a_id a) (l := map a_id (en_advisories (db_entries db))).
      * cbn [map]. rewrite <- (app_nil_r (map a_id (en_advisories (db_entries db)))) at 1. apply Add_app.
      * split; assumption.
    + intros c0 n. rewrite Eix, I4, slots_of_snoc.
      replace (in_coll c0 n a) with (collection_eqb c c0 && String.eqb (a_package a) n)%bool
        by (unfold in_coll; rewrite Ec; reflexivity).
      destruct (collection_eqb c c0 && String.eqb (a_package a) n)%bool; [|rewrite app_nil_r; reflexivity].
      apply set_insert_max. apply slots_of_lt.
    + intros b. rewrite in_app_iff. intros [Hb|[<-|[]]]; auto.
Qed.

Lemma open_loop_inv ps : forall db db', db_inv db -> open_loop db ps = Ok db' ->
  exists advs, Forall2 file_gives ps advs /\ db_inv db' /\
    db_iter db' = (db_iter db ++ filter (fun a => negb (is_placeholder (a_id a))) advs)%list.
Proof.
  induction ps as [|p ps IH]; intros db db' I H; cbn [open_loop] in H.
  - injection H as <-. exists []. rewrite app_nil_r. repeat split; auto; apply I.
  - destruct (open_step db p) as [db1| |] eqn:E1; cbn [obind] in H; try discriminate.
    destruct (open_step_inv db p db1 I E1) as (a & Hg & I1 & Ei).
    destruct (IH db1 db' I1 H) as (advs & F & I2 & Ei2).
    exists (a :: advs). split; [constructor; assumption|]. split; [exact I2|].
    rewrite Ei2, Ei, <- app_assoc. f_equal. cbn [filter]. destruct (is_placeholder (a_id a)); reflexivity.
Qed.

(** ** Paths *)
Lemma starts_with_dot s : starts_with "." s = true <-> has_prefix "." s.
Proof. apply starts_with_spec. Qed.

Lemma entry_files_in coll e p : In p (entry_files coll e) <->
  exists fs, pl_coll p = coll /\ e_name e = pl_dir p /\ e_files e = Some fs /\ In (pl_file p) fs /\
    ~ has_prefix "." (f_name (pl_file p)).
Proof.
  unfold entry_files. destruct (e_files e) as [fs|].
  - rewrite in_map_iff. split.
    + intros (f & <- & Hf). apply filter_In in Hf as [Hf Hd]. exists fs. cbn.
      repeat split; auto. rewrite <- starts_with_dot. destruct (starts_with "." (f_name f)); [discriminate|congruence].
    + intros (fs' & E1 & E2 & E3 & Hf & Hd). injection E3 as <-. exists (pl_file p). split.
      * destruct p; cbn in *; subst; reflexivity.
      * apply filter_In. split; [exact Hf|]. rewrite <- starts_with_dot in Hd.
        destruct (starts_with "." (f_name (pl_file p))); [exfalso; auto|reflexivity].
  - split; [intros []|intros (fs & _ & _ & E & _); discriminate].
Qed.

Lemma advisory_paths_in t ps p : advisory_paths t = Ok ps -> (In p ps <-> tree_file t p).
Proof.
  unfold advisory_paths, tree_file. destruct (t_crates t) as [es|] eqn:Ec; [|discriminate].
  intros H. injection H as <-. rewrite in_app_iff, in_flat_map.
  assert (R : In p (match t_rust t with None => [] | Some rs => flat_map (entry_files "rust") rs end) <->
     exists rs e, t_rust t = Some rs /\ In e rs /\ In p (entry_files "rust" e)).
  { destruct (t_rust t) as [rs|]; [rewrite in_flat_map|].
    - split; [intros (e & He); exists rs, e; tauto|intros (rs' & e & E & He); injection E as <-; exists e; exact He].
    - split; [intros []|intros (rs & e & E & _); discriminate]. }
  rewrite R. split.
  - intros [(e & He & Hp)|(rs & e & Er & He & Hp)]; apply entry_files_in in Hp as (fs & E1 & E2 & E3 & E4 & E5).
    + exists es, e, fs. repeat split; auto.
    + exists rs, e, fs. repeat split; auto.
  - intros (es' & e & fs & [[E1 Et]|[E1 Et]] & He & E2 & E3 & E4 & E5).
    + left. injection Et as <-. exists e. split; [exact He|]. apply entry_files_in. exists fs. auto.
    + right. exists es', e. split; [exact Et|]. split; [exact He|]. apply entry_files_in. exists fs. auto.
Qed.

(** ** Converse: well placed, distinct files load. *)
Lemma load_file_complete en p a : file_gives p a ->
  (is_placeholder (a_id a) = true -> load_file en p = Ok (en, None)) /\
  (is_placeholder (a_id a) = false -> index_get (a_id a) (en_index en) = None ->
     load_file en p = Ok (mkEntries ((a_id a, List.length (en_advisories en)) :: en_index en)
                                    (en_advisories en ++ [a])%list, Some (List.length (en_advisories en)))) /\
  (is_placeholder (a_id a) = false -> index_get (a_id a) (en_index en) <> None -> load_file en p = Err).
Proof.
  intros (raw & c & stem & Ep & Ef & Hne & Hn & Hd & Hc & Hraw & ->).
  unfold load_file. rewrite Ep. cbn [obind]. unfold has_md_extension.
  rewrite (proj2 (strip_suffix_spec ".md" (f_name (pl_file p)) stem) Ef).
  destruct (String.eqb_spec stem ""); [contradiction|]. cbn [negb].
  assert (En : (negb (String.eqb (f_name (pl_file p)) (id_string (a_id raw) ++ ".md")) && negb (is_draft_name (f_name (pl_file p))))%bool = false).
  { destruct Hn as [->|Hn]; [rewrite Ef, String.eqb_refl; reflexivity|].
    unfold is_draft_name. rewrite (proj2 (starts_with_spec _ _) Hn), andb_false_r. reflexivity. }
  rewrite En, Hd, String.eqb_refl. cbn [negb].
  assert (Ec : (if String.eqb (pl_coll p) (collection_str Crates) then Ok Crates
                  else if String.eqb (pl_coll p) (collection_str RustColl) then Ok RustColl
                  else Err) = Ok c) by (rewrite Hc; destruct c; reflexivity).
  rewrite Ec. cbn [obind].
  assert (Ea : match a_collection raw with
                | Some c0 => if collection_eqb c0 c then Ok raw else Err
                | None => Ok (with_collection raw c)
                end = Ok (with_collection raw c)).
  { destruct Hraw as [->| Hr]; [reflexivity|]. rewrite Hr. destruct (collection_eqb_spec c c); [|congruence].
    destruct raw; cbn in Hr; subst; reflexivity. }
  rewrite Ea. cbn [obind].
  repeat split; intros H; rewrite H; try reflexivity.
  - intros H2. rewrite H2. reflexivity.
  - intros H2. destruct (index_get _ _); [reflexivity|congruence].
Qed.

Lemma open_step_complete db p a : db_inv db -> file_gives p a ->
  (is_placeholder (a_id a) = false -> ~ In (a_id a) (map a_id (db_iter db))) -> exists db', open_step db p = Ok db'.
Proof.
  intros I Hg Hn. destruct (load_file_complete (db_entries db) p a Hg) as (L1 & L2 & _).
  unfold open_step. destruct (is_placeholder (a_id a)).
  - rewrite L1 by reflexivity. cbn [obind]. eexists; reflexivity.
  - rewrite L2; [|reflexivity|apply (inv_idx db I); auto]. cbn [obind en_advisories]. rewrite nth_error_snoc.
    destruct (file_gives_coll p a Hg) as (c & ->). destruct c; eexists; reflexivity.
Qed.

Lemma open_loop_complete ps : forall db advs, db_inv db -> Forall2 file_gives ps advs ->
  NoDup (map a_id (db_iter db ++ filter (fun a => negb (is_placeholder (a_id a))) advs)) ->
  exists db', open_loop db ps = Ok db'.
Proof.
  induction ps as [|p ps IH]; intros db advs I F ND; inversion F as [|? a ? advs' Hg F']; subst; cbn [open_loop].
  - eexists; reflexivity.
  - cbn [filter] in ND. destruct (open_step_complete db p a I Hg) as (db1 & E1).
    { intros Hp C. rewrite Hp in ND. cbn [negb] in ND. rewrite map_app in ND. cbn [map] in ND.
      apply NoDup_remove_2 in ND. apply ND. apply in_app_iff. left; exact C. }
    rewrite E1. cbn [obind]. destruct (open_step_inv db p db1 I E1) as (a' & Hg' & I1 & Ei).
    assert (a' = a) as ->.
    { destruct Hg as (r1 & c1 & t1 & P1 & _ & _ & _ & _ & C1 & _ & ->).
      destruct Hg' as (r2 & c2 & t2 & P2 & _ & _ & _ & _ & C2 & _ & ->).
      rewrite P1 in P2. injection P2 as ->. rewrite C1 in C2. destruct c1, c2; try discriminate; reflexivity. }
    apply IH with (advs := advs'); [exact I1|exact F'|]. rewrite Ei.
    destruct (is_placeholder (a_id a)); cbn [negb] in ND; [rewrite app_nil_r; exact ND|].
    rewrite <- app_assoc. exact ND.
Qed.

Lemma open_step_nopanic db p : f_parsed (pl_file p) <> Panic -> open_step db p <> Panic.
Proof.
  intros Hp. unfold open_step. destruct (load_file (db_entries db) p) as [[en r]| |] eqn:El; cbn [obind].
  - apply load_file_ok in El as (a & Hg & [(_ & -> & ->)|(_ & -> & Ea & _ & _)]); [discriminate|].
    rewrite Ea, nth_error_snoc. destruct (file_gives_coll p a Hg) as (c & ->). destruct c; discriminate.
  - discriminate.
  - exfalso. unfold load_file in El. destruct (f_parsed (pl_file p)) as [raw| |]; cbn [obind] in El; try congruence.
    destruct (negb _); [discriminate|]. destruct (_ && _)%bool; [discriminate|]. destruct (negb _); [discriminate|].
    destruct (String.eqb (pl_coll p) (collection_str Crates)); [|destruct (String.eqb (pl_coll p) (collection_str RustColl)); [|discriminate]];
      cbn [obind] in El;
      (destruct (a_collection raw) as [c'|]; [destruct (collection_eqb c' _); [|discriminate]|]); cbn [obind] in El;
      (destruct (is_placeholder _); [discriminate|]); destruct (index_get _ _); discriminate.
Qed.
Lemma open_loop_nopanic ps : forall db, (forall p, In p ps -> f_parsed (pl_file p) <> Panic) -> open_loop db ps <> Panic.
Proof.
  induction ps as [|p ps IH]; intros db H; cbn [open_loop]; [discriminate|].
  pose proof (open_step_nopanic db p (H p (or_introl eq_refl))) as N.
  destruct (open_step db p); cbn [obind]; [|discriminate|congruence].
  apply IH. intros q Hq. apply H. right; exact Hq.
Qed.

(** ** Top-level statements about [Database::open]. *)
Lemma placeholder_adv a : is_placeholder (a_id a) = is_placeholder_adv a.
Proof. reflexivity. Qed.

Theorem db_open_spec t db : db_open t = Ok db ->
  exists ps advs, (forall p, In p ps <-> tree_file t p) /\ Forall2 file_gives ps advs /\
    db_iter db = filter (fun a => negb (is_placeholder_adv a)) advs /\
    NoDup (map a_id (db_iter db)) /\ db_inv db.
Proof.
  unfold db_open. destruct (advisory_paths t) as [ps| |] eqn:Ep; cbn [obind]; try discriminate. intros H.
  destruct (open_loop_inv ps _ db db_inv_new H) as (advs & F & I & E).
  exists ps, advs. split; [intros p; apply advisory_paths_in; exact Ep|].
  split; [exact F|]. split; [exact E|]. split; [apply I|exact I].
Qed.

Theorem db_get_spec t db i a : db_open t = Ok db -> (db_get db i = Some a <-> In a (db_iter db) /\ a_id a = i).
Proof.
  intros H. destruct (db_open_spec t db H) as (_ & _ & _ & _ & _ & ND & I).
  unfold db_get. destruct (index_get i (en_index (db_entries db))) as [s|] eqn:E.
  - destruct (inv_slot db I i s E) as (b & Hb & Eb). fold (db_iter db). rewrite Hb. split.
    + intros K; injection K as <-. split; [eapply nth_error_In; exact Hb|exact Eb].
    + intros [Ha Ei]. f_equal. apply nth_error_In in Hb. assert (Eab : a_id a = a_id b) by congruence. clear - ND Ha Hb Eab. induction (db_iter db) as [|x l IH]; [destruct Ha|].
      cbn [map] in ND. inversion ND as [|? ? N1 N2]; subst.
      destruct Ha as [->|Ha], Hb as [->|Hb]; auto.
      * exfalso. apply N1. rewrite Eab. apply in_map. exact Hb.
      * exfalso. apply N1. rewrite <- Eab. apply in_map. exact Ha.
  - split; [discriminate|]. intros [Ha Ei]. exfalso. apply (inv_idx db I i) in E. apply E. rewrite <- Ei. apply in_map. exact Ha.
Qed.

(** ** Queries *)
Lemma matches_in_coll checks q a n c : q_name q = Some n -> q_collection q = Some c ->
  matches checks q a = true -> in_coll c n a = true.
Proof.
  intros E1 E2. unfold matches, in_coll. rewrite E1, E2. rewrite !andb_true_iff. intros H.
  decompose [and] H. split.
  - destruct (a_collection a) as [c'|]; [|discriminate]. destruct (collection_eqb_spec c c'); [subst|discriminate].
    destruct (collection_eqb_spec c' c'); congruence.
  - destruct (String.eqb_spec n (a_package a)); [subst; apply String.eqb_refl|discriminate].
Qed.
Lemma filter_filter_sub {A} (f g : A -> bool) l : (forall x, f x = true -> g x = true) -> filter f (filter g l) = filter f l.
Proof.
  intros H. induction l as [|x l IH]; [reflexivity|]. cbn [filter].
  destruct (g x) eqn:G; cbn [filter]; rewrite IH; [reflexivity|].
  destruct (f x) eqn:F; [apply H in F; congruence|reflexivity].
Qed.
Theorem db_query_spec checks t db q : db_open t = Ok db ->
  db_query checks db q = Ok (filter (matches checks q) (db_iter db)).
Proof.
  intros H. destruct (db_open_spec t db H) as (_ & _ & _ & _ & _ & _ & I).
  unfold db_query. destruct (q_name q) as [n|] eqn:E1; [|reflexivity].
  destruct (q_collection q) as [c|] eqn:E2; [|reflexivity].
  pose proof (inv_pkg db I c n) as P. unfold db_index in P.
  pose proof (slots_of_get (in_coll c n) (db_iter db)) as S. rewrite <- P in S.
  assert (F : filter (matches checks q) (filter (in_coll c n) (db_iter db)) = filter (matches checks q) (db_iter db)).
  { apply filter_filter_sub. intros a. apply matches_in_coll; assumption. }
  destruct (pidx_get n _) as [ss|]; cbn [slots_or_nil] in S.
  - rewrite S. cbn [obind]. rewrite F. reflexivity.
  - cbn [slots_advisories] in S. injection S as S. rewrite <- F, <- S. reflexivity.
Qed.

Lemma if_set_none {A} (P : A -> Prop) : if_set None P <-> True.
Proof. unfold if_set. split; [tauto|discriminate]. Qed.
Lemma if_set_some {A} (x : A) (P : A -> Prop) : if_set (Some x) P <-> P x.
Proof. unfold if_set. split; [intros H; apply H; reflexivity|intros H y E; injection E as <-; exact H]. Qed.

Lemma overlap_iff targets listed :
  negb (negb (match listed with [] => true | _ => false end)
        && negb (match targets with [] => true | _ => false end)
        && negb (existsb (fun t => str_mem t listed) targets)) = true <-> overlap targets listed.
Proof.
  unfold overlap. destruct listed as [|l ls]; [cbn; tauto|]. destruct targets as [|t ts]; [cbn; tauto|].
  cbn [negb andb]. rewrite negb_involutive, existsb_exists.
  split.
  - intros (x & Hx & Hm). apply str_mem_iff in Hm. right; right. exists x. auto.
  - intros [E|[E|(x & Hx & Hm)]]; try discriminate. exists x. split; [exact Hx|]. apply str_mem_iff. exact Hm.
Qed.

Theorem matches_iff checks q a : matches checks q a = true <-> selects checks q a.
Proof.
  unfold matches, selects. rewrite !andb_true_iff.
  assert (K1 : match q_collection q with Some c => match a_collection a with Some c' => collection_eqb c c' | None => false end | None => true end = true
     <-> if_set (q_collection q) (fun c => a_collection a = Some c)).
  { destruct (q_collection q) as [c|]; [rewrite if_set_some|rewrite if_set_none; tauto].
    destruct (a_collection a) as [c'|]; [|split; discriminate]. destruct (collection_eqb_spec c c'); split; congruence. }
  assert (K2 : match q_name q with Some n => String.eqb n (a_package a) | None => true end = true
     <-> if_set (q_name q) (fun n => a_package a = n)).
  { destruct (q_name q) as [n|]; [rewrite if_set_some|rewrite if_set_none; tauto].
    destruct (String.eqb_spec n (a_package a)); split; congruence. }
  assert (K3 : match q_version q with Some v => vulnerable_at checks a v | None => true end = true
     <-> if_set (q_version q) (fun v => is_vulnerable checks (a_versions a) v = Ok true)).
  { destruct (q_version q) as [v|]; [rewrite if_set_some|rewrite if_set_none; tauto].
    unfold vulnerable_at. destruct (is_vulnerable checks (a_versions a) v); split; congruence. }
  assert (K4 : match q_source q with
     | Some s => negb (negb (source_kind_eqb (s_kind match a_source a with Some x => x | None => default_source end) (s_kind s))
         || negb (String.eqb (s_url match a_source a with Some x => x | None => default_source end) (s_url s)))
     | None => true end = true <-> if_set (q_source q) (fun s => advisory_location a = (s_kind s, s_url s))).
  { destruct (q_source q) as [s|]; [rewrite if_set_some|rewrite if_set_none; tauto].
    set (asrc := match a_source a with Some x => x | None => default_source end).
    assert (advisory_location a = (s_kind asrc, s_url asrc)) as ->.
    { unfold advisory_location, asrc. destruct (a_source a); reflexivity. }
    destruct (source_kind_eqb_spec (s_kind asrc) (s_kind s)) as [E|E], (String.eqb_spec (s_url asrc) (s_url s)) as [E'|E']; cbn;
      split; congruence. }
  assert (K5 : match q_severity q with Some t => match a_severity a with Some s => negb (severity_ltb s t) | None => true end | None => true end = true
     <-> if_set (q_severity q) (fun t => if_set (a_severity a) (fun s => severity_rank t <= severity_rank s))).
  { destruct (q_severity q) as [t|]; [rewrite if_set_some|rewrite if_set_none; tauto].
    destruct (a_severity a) as [s|]; [rewrite if_set_some|rewrite if_set_none; tauto].
    unfold severity_ltb. destruct (Nat.ltb_spec (severity_rank s) (severity_rank t)); cbn; split; intros; try lia; congruence. }
  assert (K6 : match a_affected a with
     | Some af => (negb (negb (match af_arch af with [] => true | _ => false end)
            && negb (match q_arch q with [] => true | _ => false end)
            && negb (existsb (fun t => str_mem t (af_arch af)) (q_arch q))) &&
      negb (negb (match af_os af with [] => true | _ => false end)
            && negb (match q_os q with [] => true | _ => false end)
            && negb (existsb (fun t => str_mem t (af_os af)) (q_os q))))%bool
     | None => true end = true
     <-> if_set (a_affected a) (fun af => overlap (q_arch q) (af_arch af) /\ overlap (q_os q) (af_os af))).
  { destruct (a_affected a) as [af|]; [rewrite if_set_some|rewrite if_set_none; tauto].
    rewrite andb_true_iff, !overlap_iff. tauto. }
  assert (K7 : match q_year q with Some y => match id_year (a_id a) with Some y' => N.eqb y y' | None => true end | None => true end = true
     <-> if_set (q_year q) (fun y => if_set (id_year (a_id a)) (fun y' => y' = y))).
  { destruct (q_year q) as [y|]; [rewrite if_set_some|rewrite if_set_none; tauto].
    destruct (id_year (a_id a)) as [y'|]; [rewrite if_set_some|rewrite if_set_none; tauto].
    destruct (N.eqb_spec y y'); split; congruence. }
  assert (K8 : match q_withdrawn q with Some w => Bool.eqb w (match a_withdrawn a with Some _ => true | None => false end) | None => true end = true
     <-> if_set (q_withdrawn q) (fun w => w = true <-> a_withdrawn a <> None)).
  { destruct (q_withdrawn q) as [w|]; [rewrite if_set_some|rewrite if_set_none; tauto].
    destruct w, (a_withdrawn a); cbn; intuition congruence. }
  assert (K9 : match q_informational q with Some i => Bool.eqb i (match a_informational a with Some _ => true | None => false end) | None => true end = true
     <-> if_set (q_informational q) (fun w => w = true <-> a_informational a <> None)).
  { destruct (q_informational q) as [w|]; [rewrite if_set_some|rewrite if_set_none; tauto].
    destruct w, (a_informational a); cbn; intuition congruence. }
  rewrite K1, K2, K3, K4, K5, K6, K7, K8, K9. tauto.
Qed.
