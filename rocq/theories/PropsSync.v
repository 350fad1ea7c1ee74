(** Property theorems C73: synchronising the aliases with another database. *)
From Coq Require Import List NArith ZArith Ascii String Bool Lia Sorting.Sorted.
From Verif Require Import Base StrLib SemverModel OsvModel IdModel IdSpec IdProofs VerText PkgModel DbModel DbProofs UrlModel CvssText CvssTextProofs
  ScanModel PartsModel PartsSpec PropsParts AdvModel LintModel LintProofs2 MtimeModel OsvAdvModel SortProofs PropsOsvAdv PropsOsvAdv2 PropsOsvImport SyncModel.
Import ListNotations.
Local Open Scope string_scope.

(** ** Specification *)
Definition aid (a : full_advisory) : adv_id := m_id (f_meta a).
(** The same advisory with other aliases and related ids. *)
Definition with_ids (a : full_advisory) (aliases related : list adv_id) : full_advisory :=
  let m := f_meta a in
  mkFull (mkMeta (m_id m) (m_package m) (m_title m) (m_description m) (m_date m) aliases related (m_collection m)
            (m_categories m) (m_keywords m) (m_cvss m) (m_informational m) (m_references m) (m_source m) (m_url m)
            (m_withdrawn m) (m_license m) (m_expect_deleted m)) (f_affected a) (f_versions a).
(** The document is about the advisory: it refers to its page, or the advisory has its id as an alias. *)
Definition linked (o : osv_advisory) (a : full_advisory) : Prop :=
  (exists r, In r (o_references o) /\ names_advisory r (aid a)) \/ In (o_id o) (m_aliases (f_meta a)).
(** It is in force and is about the crate. *)
Definition about_crate (o : osv_advisory) (c : string) : Prop :=
  exists f, In f (o_affected o) /\ op_ecosystem (oa_package f) = "crates.io" /\ op_name (oa_package f) = c.
(** The CVE and GHSA ids a document goes by. *)
Definition goes_by (o : osv_advisory) (j : adv_id) : Prop :=
  (j = o_id o \/ In j (o_aliases o)) /\ (id_kind_of j = KCve \/ id_kind_of j = KGhsa).
Definition gains (os : list osv_advisory) (a : full_advisory) (j : adv_id) : Prop :=
  exists o, In o os /\ o_withdrawn o = None /\ linked o a /\ about_crate o (m_package (f_meta a)) /\
    goes_by o j /\ j <> aid a /\ ~ In j (m_aliases (f_meta a)).
(** The repository's file of the advisory holds it. *)
Definition holds (x : externals) (r : repo) (a : full_advisory) : Prop :=
  exists t md a0, rget (file_place a) r = Some (Doc t md) /\ decode_advisory x t = Ok a0 /\
    a = with_title a0 (m_title (f_meta a)) (m_description (f_meta a)).
(** The tables are the same but for the strings listed under two keys. *)
Definition same_but (ks : list string) (t t' : ttable) : Prop := forall k, ~ In k ks -> tget k t' = tget k t.

(** ** Tables and files *)
Lemma tget_tset_same k v t : tget k (tset k v t) = Some v.
Proof. induction t as [|[k' v'] t IH]; cbn; [rewrite String.eqb_refl; reflexivity|]. destruct (String.eqb k' k) eqn:E; cbn; rewrite E; [reflexivity|exact IH]. Qed.
Lemma tget_tset_other k k' v t : k <> k' -> tget k' (tset k v t) = tget k' t.
Proof.
  intros N. induction t as [|[k2 v2] t IH]; cbn.
  - destruct (String.eqb_spec k k'); congruence.
  - destruct (String.eqb_spec k2 k) as [->|D]; cbn; [destruct (String.eqb_spec k k'); congruence|]. destruct (String.eqb k2 k'); [reflexivity|exact IH].
Qed.
Lemma place_eqb_spec a b : reflect (a = b) (place_eqb a b).
Proof.
  unfold place_eqb. destruct a as [a1 a2], b as [b1 b2]. cbn. destruct (String.eqb_spec a1 b1), (String.eqb_spec a2 b2); cbn; constructor; congruence.
Qed.
Lemma rget_rput_same p d r : rget p (rput p d r) = Some d.
Proof.
  induction r as [|[k e] r IH]; cbn; [destruct (place_eqb_spec p p); congruence|].
  destruct (place_eqb k p) eqn:E; cbn; rewrite E; [reflexivity|exact IH].
Qed.
Lemma rget_rput_other p q d r : p <> q -> rget q (rput p d r) = rget q r.
Proof.
  intros N. induction r as [|[k e] r IH]; cbn.
  - destruct (place_eqb_spec p q); congruence.
  - destruct (place_eqb_spec k p) as [->|D]; cbn; [destruct (place_eqb_spec p q); congruence|]. destruct (place_eqb k q); [reflexivity|exact IH].
Qed.

(** ** String arrays and id lists *)
Lemma omap_strings l : omap (fun v => match v with TStr s => Ok s | _ => Panic end) (map TStr l) = Ok l.
Proof. induction l as [|s l IH]; cbn; [reflexivity|]. rewrite IH. reflexivity. Qed.
Lemma omap_ids l : omap de_id (map TStr l) = omap id_from_str l.
Proof. induction l as [|s l IH]; [reflexivity|]. cbn [map omap]. rewrite IH. reflexivity. Qed.
Lemma array_ids k m l : string_array k m = Ok l -> field_def [] (de_list de_id) k m = omap id_from_str l.
Proof.
  unfold string_array, field_def. destruct (tget k m) as [[| | |vs|]|]; try discriminate; [|intros [= <-]; reflexivity].
  intros H. cbn [de_list]. rewrite <- omap_ids. f_equal. revert l H. induction vs as [|v vs IH]; intros l H; cbn [omap] in H; [injection H as <-; reflexivity|].
  destruct v; try discriminate. cbn [obind] in H. bind H. injection H as <-. cbn [map]. f_equal. apply IH. reflexivity.
Qed.
Lemma ids_array k m ids : field_def [] (de_list de_id) k m = Ok ids -> exists l, string_array k m = Ok l /\ omap id_from_str l = Ok ids.
Proof.
  intros H. assert (S : exists l, string_array k m = Ok l).
  { apply field_def_ok in H as [[T ->]|(v & T & F)]; unfold string_array; rewrite T; [exists []; reflexivity|].
    apply de_list_ok in F as (vs & -> & F). clear T. induction F as [|v a vs l E F [l' IH]]; [exists []; reflexivity|].
    apply de_from_ok in E as (s & -> & _). exists (s :: l'). cbn [omap obind]. rewrite IH. reflexivity. }
  destruct S as [l S]. exists l. split; [exact S|]. rewrite (array_ids _ _ _ S) in H. exact H.
Qed.
Lemma omap_id_strings l ids : omap id_from_str l = Ok ids -> l = map id_string ids.
Proof.
  revert ids. induction l as [|s l IH]; intros ids H; cbn [omap] in H; [injection H as <-; reflexivity|]. bind H. bind H. injection H as <-.
  cbn [map]. rewrite <- (IH _ eq_refl). f_equal. symmetry. exact (proj1 (id_roundtrip _ _ E)).
Qed.
Lemma sorted_strings_in l s : In s (sorted_strings l) <-> In s l.
Proof. exact (sort_set_in str_cmp str_cmp_laws l s). Qed.
Lemma set_strings_array k l m l0 : string_array k m = Ok l0 -> (forall s, In s l0 -> In s l) -> string_array k (set_strings k l m) = Ok l.
Proof.
  intros H I. unfold set_strings. destruct l as [|s l].
  - destruct l0 as [|s l0]; [exact H|]. exfalso. exact (I s (or_introl eq_refl)).
  - unfold string_array. rewrite tget_tset_same. apply (omap_strings (s :: l)).
Qed.
Lemma set_strings_other k k' l m : k <> k' -> tget k' (set_strings k l m) = tget k' m.
Proof. intros N. destruct l; [reflexivity|]. apply tget_tset_other, N. Qed.

(** ** Editing one document *)
Record evolved (t t' : ttable) (J : string -> Prop) : Prop := mkEvolved {
  ev_top : same_but ["advisory"] t t';
  ev_tables : exists m m' l l' r r', tget "advisory" t = Some (TTab m) /\ tget "advisory" t' = Some (TTab m') /\
    same_but ["aliases"; "related"] m m' /\
    string_array "aliases" m = Ok l /\ string_array "aliases" m' = Ok l' /\ (forall s, In s l' <-> In s l \/ J s) /\
    string_array "related" m = Ok r /\ string_array "related" m' = Ok r' /\ (forall s, In s r' <-> In s r) }.
Lemma edit_ok t m l r miss : tget "advisory" t = Some (TTab m) -> string_array "aliases" m = Ok l -> string_array "related" m = Ok r ->
  exists t', edit_document miss t = Ok t' /\ evolved t t' (fun s => In s miss).
Proof.
  intros T A R. unfold edit_document. rewrite T, A. cbn [obind].
  set (l' := sorted_strings (l ++ miss)%list). set (m1 := set_strings "aliases" l' m).
  assert (R1 : string_array "related" m1 = Ok r) by (unfold string_array, m1; rewrite set_strings_other by discriminate; exact R).
  rewrite R1. cbn [obind]. set (r' := sorted_strings r). set (m2 := set_strings "related" r' m1). eexists. split; [reflexivity|].
  split.
  - intros k N. apply tget_tset_other. intros <-. apply N. left. reflexivity.
  - exists m, m2, l, l', r, r'. split; [exact T|]. split; [apply tget_tset_same|]. split; [|split; [exact A|split; [|split; [|split; [exact R|split]]]]].
    + intros k N. unfold m2, m1. rewrite !set_strings_other; [reflexivity| |]; intros <-; apply N; cbn; tauto.
    + unfold string_array, m2. rewrite set_strings_other by discriminate. refine (set_strings_array "aliases" l' m l A _).
      intros s I. apply sorted_strings_in, in_or_app. left. exact I.
    + intros s. unfold l'. rewrite sorted_strings_in, in_app_iff. reflexivity.
    + apply (set_strings_array "related" r' m1 r R1). intros s I. apply sorted_strings_in, I.
    + intros s. apply sorted_strings_in.
Qed.
Lemma evolved_refl t m l r : tget "advisory" t = Some (TTab m) -> string_array "aliases" m = Ok l -> string_array "related" m = Ok r -> evolved t t (fun _ => False).
Proof. intros T A R. split; [intros k _; reflexivity|]. exists m, m, l, l, r, r. repeat split; auto; tauto. Qed.
Lemma evolved_step t t' J miss : evolved t t' J -> exists t'', edit_document miss t' = Ok t'' /\ evolved t t'' (fun s => J s \/ In s miss).
Proof.
  intros [P (m & m' & l & l' & r & r' & T & T' & S & A & A' & IA & R & R' & IR)].
  destruct (edit_ok t' m' l' r' miss T' A' R') as (t'' & E & [P2 (n & m2 & k & l2 & q & r2 & Tn & T2 & S2 & An & A2 & IA2 & Rn & R2 & IR2)]).
  rewrite T' in Tn. injection Tn as <-. rewrite A' in An. injection An as <-. rewrite R' in Rn. injection Rn as <-.
  exists t''. split; [exact E|]. split; [intros k' N; rewrite (P2 k' N); apply P, N|].
  exists m, m2, l, l2, r, r2. split; [exact T|]. split; [exact T2|]. split; [intros k' N; rewrite (S2 k' N); apply S, N|].
  split; [exact A|]. split; [exact A2|]. split; [intros s; rewrite IA2, IA; tauto|]. split; [exact R|]. split; [exact R2|]. intros s. rewrite IR2. apply IR.
Qed.
Lemma decoded_arrays x t a : decode_advisory x t = Ok a -> exists m l r, tget "advisory" t = Some (TTab m) /\ decode_metadata x m = Ok (f_meta a) /\
  string_array "aliases" m = Ok l /\ omap id_from_str l = Ok (m_aliases (f_meta a)) /\
  string_array "related" m = Ok r /\ omap id_from_str r = Ok (m_related (f_meta a)).
Proof.
  unfold decode_advisory. intros H. bind H. bind H. bind H. injection H as <-. cbn [f_meta]. apply field_req_ok in E as (v & T & D).
  destruct v as [| | | |m]; try discriminate. exists m. pose proof D as D'. unfold decode_metadata in D. do 18 bind D.
  apply (f_equal (fun o => match o with Ok a => a | _ => a0 end)) in D. cbv beta iota in D.
  destruct (ids_array _ _ _ E6) as (l & A & OA), (ids_array _ _ _ E7) as (r & R & OR). exists l, r. rewrite <- D at 2 3. cbn [m_aliases m_related]. repeat split; assumption.
Qed.
Lemma omap_ids_ok l l0 ids0 (J : adv_id -> Prop) :
  omap id_from_str l0 = Ok ids0 -> (forall j, J j -> good_id j) -> (forall s, In s l <-> In s l0 \/ exists j, J j /\ id_string j = s) ->
  exists ids, omap id_from_str l = Ok ids /\ forall j, In j ids <-> In j ids0 \/ J j.
Proof.
  intros H0 G I. assert (P : forall s, In s l -> exists i, id_from_str s = Ok i /\ id_string i = s).
  { intros s K. apply I in K as [K|(j & K & <-)]; [|exists j; split; [apply G, K|reflexivity]].
    apply omap_iff in H0. revert K. clear -H0. induction H0 as [|v a vs l E F IH]; [intros []|]. intros [<-|K]; [|exact (IH K)].
    exists a. split; [exact E|]. exact (proj1 (id_roundtrip _ _ E)). }
  assert (G0 : forall j, In j ids0 -> good_id j).
  { intros j K. apply omap_iff in H0. revert K. clear -H0. induction H0 as [|v a vs l E F IH]; [intros []|]. intros [<-|K]; [exact (id_good _ _ E)|exact (IH K)]. }
  pose proof (omap_id_strings _ _ H0) as L0.
  assert (Q : exists ids, omap id_from_str l = Ok ids).
  { clear I L0. induction l as [|s l IH]; [exists []; reflexivity|]. destruct (P s (or_introl eq_refl)) as (i & Hi & _).
    destruct IH as [ids Hids]; [intros s' K; apply P; right; exact K|]. exists (i :: ids). cbn [omap]. rewrite Hi. cbn [obind]. rewrite Hids. reflexivity. }
  destruct Q as [ids Q]. exists ids. split; [exact Q|]. intros j. pose proof (omap_id_strings _ _ Q) as L.
  assert (Gi : forall j, In j ids -> good_id j).
  { intros i K. apply omap_iff in Q. revert K. clear -Q. induction Q as [|v a vs l E F IH]; [intros []|]. intros [<-|K]; [exact (id_good _ _ E)|exact (IH K)]. }
  assert (inj : forall i k, good_id i -> good_id k -> id_string i = id_string k -> i = k) by (unfold good_id; intros i k A B C; congruence).
  split.
  - intros K. assert (S : In (id_string j) l) by (rewrite L; apply in_map, K). apply I in S as [S|(j' & S & E)].
    + left. rewrite L0 in S. apply in_map_iff in S as (k & E & S). rewrite <- (inj k j (G0 k S) (Gi j K) E). exact S.
    + right. rewrite <- (inj j' j (G j' S) (Gi j K) E). exact S.
  - intros K. assert (Gj : good_id j) by (destruct K as [K|K]; [exact (G0 j K)|exact (G j K)]).
    assert (S : In (id_string j) l) by (apply I; destruct K as [K|K]; [left; rewrite L0; apply in_map, K|right; exists j; auto]).
    rewrite L in S. apply in_map_iff in S as (k & E & S). rewrite <- (inj k j (Gi k S) Gj E). exact S.
Qed.
Lemma field_opt_ext {A} (f : tval -> outcome A) k t t' : tget k t' = tget k t -> field_opt f k t' = field_opt f k t.
Proof. intros E. unfold field_opt. rewrite E. reflexivity. Qed.
Lemma field_req_ext {A} (f : tval -> outcome A) k t t' : tget k t' = tget k t -> field_req f k t' = field_req f k t.
Proof. intros E. unfold field_req. rewrite E. reflexivity. Qed.
Lemma evolved_decodes x t t' (J : adv_id -> Prop) a : decode_advisory x t = Ok a -> (forall j, J j -> good_id j) ->
  evolved t t' (fun s => exists j, J j /\ id_string j = s) ->
  exists al re, decode_advisory x t' = Ok (with_ids a al re) /\ (forall j, In j al <-> In j (m_aliases (f_meta a)) \/ J j) /\
    forall j, In j re <-> In j (m_related (f_meta a)).
Proof.
  intros D G [P (m & m' & l & l' & r & r' & T & T' & S & A & A' & IA & R & R' & IR)].
  destruct (decoded_arrays x t a D) as (m0 & l0 & r0 & T0 & DM & A0 & OA & R0 & OR). rewrite T in T0. injection T0 as <-.
  rewrite A in A0. injection A0 as <-. rewrite R in R0. injection R0 as <-.
  destruct (omap_ids_ok l' l _ J OA G IA) as (al & OA' & IAL).
  destruct (omap_ids_ok r' r _ (fun _ => False) OR) as (re & OR' & IRE); [intros _ []|intros s; rewrite IR; split; [tauto|intros [K|(j & [] & _)]; exact K]|].
  exists al, re. split; [|split; [exact IAL|intros j; rewrite IRE; tauto]].
  unfold decode_advisory in D |- *. unfold field_req at 1. unfold field_req at 1 in D. rewrite T' . rewrite T in D.
  assert (DM' : decode_metadata x m' = Ok (f_meta (with_ids a al re))).
  { unfold decode_metadata in DM |- *.
    assert (X : forall k, ~ In k ["aliases"; "related"] -> tget k m' = tget k m) by exact S.
    unfold field_req, field_opt in DM |- *. unfold field_def at 1 2 5 6 7 8 9. unfold field_def at 1 2 5 6 7 8 9 in DM.
    rewrite !X by (cbn; intros [E|[E|[]]]; discriminate).
    rewrite (array_ids _ _ _ A'), (array_ids _ _ _ R'). rewrite (array_ids _ _ _ A), (array_ids _ _ _ R) in DM. rewrite OA', OR'. rewrite OA, OR in DM.
    do 5 bind DM. cbn [obind] in DM |- *. do 11 bind DM. apply (f_equal (fun o => match o with Ok a => a | _ => f_meta a end)) in DM. cbv beta iota in DM.
    unfold with_ids. cbn [f_meta]. rewrite <- DM. reflexivity. }
  rewrite DM'. rewrite DM in D. cbn [obind] in D |- *.
  rewrite (field_opt_ext _ "affected" t t') by (apply P; cbn; intros [E|[]]; discriminate).
  rewrite (field_req_ext _ "versions" t t') by (apply P; cbn; intros [E|[]]; discriminate).
  bind D. bind D. injection D as <-. reflexivity.
Qed.
