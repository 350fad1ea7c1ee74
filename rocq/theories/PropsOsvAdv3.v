(** C69: an OSV document is accepted iff it says something, and that is what is read; C68: what the export writes in each
    member. *)
From Coq Require Import List NArith ZArith Ascii String Bool Arith Lia Sorting.Permutation.
From Verif Require Import Base StrLib SemverModel OsvModel IdModel PkgModel DbModel VerText UrlModel CvssText CvssTextProofs ScanModel PartsModel
  AdvModel MtimeModel OsvAdvModel OsvAdvSpec DecodeSpec PropsDecode JsonSpec IdSpec Calendar PropsMtime PropsOsvAdv PropsOsvAdv2.
Import ListNotations.
Local Open Scope string_scope.

(** ** Members *)
Lemma jentries_nil k t : jentries k t = [] <-> absent t k.
Proof.
  unfold jentries, absent. induction t as [|[k' v] t IH]; cbn [filter map fst In]; [tauto|].
  destruct (String.eqb_spec k' k) as [->|N]; cbn [map].
  - split; [discriminate|]. intros H. exfalso. apply H. left. reflexivity.
  - rewrite IH. tauto.
Qed.
Lemma jentries_one k t v : jentries k t = [v] <-> only t k v.
Proof.
  unfold only. induction t as [|[k' v'] t IH].
  - split; [discriminate|]. intros ([|] & b & E & _); discriminate.
  - unfold jentries. cbn [filter fst]. destruct (String.eqb_spec k' k) as [->|N].
    + cbn [map snd]. split.
      * intros [= -> E]. exists [], t. split; [reflexivity|]. split; [intros []|]. apply jentries_nil. exact E.
      * intros ([|[k0 v0] a] & b & E & A & B).
        -- injection E as -> ->. f_equal. apply jentries_nil. exact B.
        -- injection E as -> -> ->. exfalso. apply A. left. reflexivity.
    + fold (jentries k t). rewrite IH. split.
      * intros (a & b & -> & A & B). exists ((k', v') :: a), b. split; [reflexivity|]. split; [|exact B]. intros [E|I]; [exact (N E)|exact (A I)].
      * intros ([|[k0 v0] a] & b & E & A & B).
        -- injection E as <- _ _. contradiction.
        -- injection E as -> -> ->. exists a, b. split; [reflexivity|]. split; [|exact B]. intros I. apply A. right. exact I.
Qed.
Lemma only_unique t k v v' : only t k v -> only t k v' -> v = v'.
Proof. intros H H'. apply jentries_one in H. apply jentries_one in H'. congruence. Qed.
Lemma only_not_absent t k v : only t k v -> ~ absent t k.
Proof. intros H H'. apply jentries_one in H. apply jentries_nil in H'. congruence. Qed.
Lemma must_iff {A} (f : json -> outcome A) (R : json -> A -> Prop) t k a : (forall v a, f v = Ok a <-> R v a) ->
  jreq f k t = Ok a <-> must t k R a.
Proof.
  intros H. unfold jreq, must. destruct (jentries k t) as [|v [|w r]] eqn:E.
  - split; [discriminate|]. intros (v & V & _). apply jentries_one in V. congruence.
  - rewrite H. split; [intros Q; exists v; split; [apply jentries_one; exact E|exact Q]|].
    intros (w & W & Q). apply jentries_one in W. rewrite E in W. injection W as <-. exact Q.
  - split; [discriminate|]. intros (u & V & _). apply jentries_one in V. congruence.
Qed.
Lemma or_else_iff {A} (f : json -> outcome A) (R : json -> A -> Prop) t k d a : (forall v a, f v = Ok a <-> R v a) ->
  jdef d f k t = Ok a <-> or_else t k R d a.
Proof.
  intros H. unfold jdef, or_else. destruct (jentries k t) as [|v [|w r]] eqn:E.
  - split.
    + intros [= ->]. right. split; [apply jentries_nil; exact E|reflexivity].
    + intros [(v & V & _)|[_ ->]]; [apply jentries_one in V; congruence|reflexivity].
  - rewrite H. split; [intros Q; left; exists v; split; [apply jentries_one; exact E|exact Q]|].
    intros [(w & W & Q)|[N _]]; [|apply jentries_nil in N; congruence]. apply jentries_one in W. rewrite E in W. injection W as <-. exact Q.
  - split; [discriminate|]. intros [(u & V & _)|[N _]]; [apply jentries_one in V|apply jentries_nil in N]; congruence.
Qed.
Lemma may_iff {A} (f : json -> outcome A) (R : json -> A -> Prop) t k o : (forall v a, f v = Ok a <-> R v a) ->
  jopt f k t = Ok o <-> may t k R o.
Proof.
  intros H. unfold jopt. rewrite (or_else_iff (d_opt f) (fun v o => match o with Some a => v <> JNull /\ R v a | None => v = JNull end)).
  - unfold or_else, may. destruct o as [a|].
    + split; [intros [(v & V & Q)|[_ E]]; [exists v; split; assumption|discriminate]|intros (v & V & Q); left; exists v; split; assumption].
    + split.
      * intros [(v & V & ->)|[N _]]; [right; exact V|left; exact N].
      * intros [N|V]; [right; split; [exact N|reflexivity]|left; exists JNull; split; [exact V|reflexivity]].
  - intros v [a|].
    + rewrite <- H. destruct v; cbn [d_opt]; try (destruct (f _); cbn [obind]; split; [intros [= ->]; split; [discriminate|reflexivity]|intros [_ [= ->]]; reflexivity|discriminate|intros [_ Q]; discriminate|discriminate|intros [_ Q]; discriminate]).
      split; [discriminate|intros [N _]; congruence].
    + destruct v; cbn [d_opt]; try (destruct (f _); cbn [obind]; split; discriminate). split; reflexivity.
Qed.
Lemma dstr_iff v a : d_str v = Ok a <-> str is v a.
Proof.
  unfold d_str, str, is. destruct v; split; try discriminate; try (intros (? & E & _); discriminate).
  - intros [= ->]. exists a. split; reflexivity.
  - intros (? & [= ->] & ->). reflexivity.
Qed.
Lemma dfrom_iff {A} (f : string -> outcome A) (P : string -> A -> Prop) v a : (forall s a, f s = Ok a <-> P s a) -> d_from f v = Ok a <-> str P v a.
Proof.
  intros H. unfold d_from, d_str, str. destruct v; cbn [obind]; split; try discriminate; try (intros (? & E & _); discriminate).
  - intros Q. exists s. split; [reflexivity|apply H; exact Q].
  - intros (? & [= ->] & Q). apply H. exact Q.
Qed.
Lemma dlist_iff {A} (f : json -> outcome A) (R : json -> A -> Prop) v l : (forall v a, f v = Ok a <-> R v a) -> d_list f v = Ok l <-> arr R v l.
Proof.
  intros H. assert (F : forall js, Forall2 (fun v a => f v = Ok a) js l <-> Forall2 R js l).
  { intros js. split; intros Q; induction Q; constructor; try assumption; apply H; assumption. }
  unfold d_list, arr. destruct v; try (split; [discriminate|intros (? & E & _); discriminate]). rewrite omap_iff, F. split.
  - intros Q. exists l0. split; [reflexivity|exact Q].
  - intros (js & [= <-] & Q). exact Q.
Qed.
Lemma dobj_iff {A} (f : members -> outcome A) (R : members -> A -> Prop) v a : (forall t a, f t = Ok a <-> R t a) -> d_obj f v = Ok a <-> obj R v a.
Proof.
  intros H. unfold d_obj, obj. destruct v; try (split; [discriminate|intros (? & E & _); discriminate]). rewrite H. split.
  - intros Q. exists t. split; [reflexivity|exact Q].
  - intros (t' & [= <-] & Q). exact Q.
Qed.
Lemma of_option_ok {A} (o : option A) a : of_option o = Ok a <-> o = Some a.
Proof. unfold of_option. destruct o; split; congruence. Qed.

(** ** The parts of a document *)
Lemma devent_iff v e : d_event v = Ok e <-> says_event v e.
Proof.
  unfold d_event, says_event. split.
  - destruct v as [| | | | |[|[k [| | |s| |]] [|]]]; try discriminate.
    destruct (String.eqb_spec k "introduced") as [->|]; [intros [= <-]; reflexivity|].
    destruct (String.eqb_spec k "fixed") as [->|]; [intros [= <-]; reflexivity|].
    destruct (String.eqb_spec k "last_affected") as [->|]; [intros [= <-]; reflexivity|discriminate].
  - destruct e; intros ->; reflexivity.
Qed.
Ltac leaf := first
  [ apply dstr_iff | apply devent_iff
  | apply dfrom_iff; intros; first [apply of_option_ok | reflexivity | apply category_iff | apply informational_iff]
  | apply dlist_iff; intros; leaf ].
Lemma drange_iff v r : d_range v = Ok r <-> obj says_range v r.
Proof.
  unfold d_range. apply dobj_iff. intros t a.
  assert (F1 : jreq d_str "type" t = Ok (jr_kind a) <-> must t "type" (str is) (jr_kind a)) by (apply must_iff; intros; leaf).
  assert (F2 : jreq (d_list d_event) "events" t = Ok (jr_events a) <-> must t "events" (arr says_event) (jr_events a)) by (apply must_iff; intros; leaf).
  unfold says_range. rewrite <- F1, <- F2. clear F1 F2. split.
  - intros H. obinv H. injection H as <-. split; reflexivity.
  - intros [H1 H2]. rewrite H1; cbn [obind]; rewrite H2. destruct a; reflexivity.
Qed.
Lemma dpackage_iff v p : d_package v = Ok p <-> obj says_package v p.
Proof.
  unfold d_package. apply dobj_iff. intros t a.
  assert (F1 : jreq d_str "ecosystem" t = Ok (op_ecosystem a) <-> must t "ecosystem" (str is) (op_ecosystem a)) by (apply must_iff; intros; leaf).
  assert (F2 : jreq d_str "name" t = Ok (op_name a) <-> must t "name" (str is) (op_name a)) by (apply must_iff; intros; leaf).
  assert (F3 : jopt d_str "purl" t = Ok (op_purl a) <-> may t "purl" (str is) (op_purl a)) by (apply may_iff; intros; leaf).
  unfold says_package. rewrite <- F1, <- F2, <- F3. clear F1 F2 F3. split.
  - intros H. obinv H. injection H as <-. auto.
  - intros (H1 & H2 & H3). rewrite H1; cbn [obind]; rewrite H2; cbn [obind]; rewrite H3. destruct a; reflexivity.
Qed.
Lemma dseverity_iff v p : d_severity v = Ok p <-> obj says_severity v p.
Proof.
  unfold d_severity. apply dobj_iff. intros t a.
  assert (S : forall A (f : string -> outcome A) b, jreq (d_from f) "score" t = Ok b <-> must t "score" (str (fun s v => f s = Ok v)) b)
    by (intros; apply must_iff; intros; apply dfrom_iff; intros; reflexivity).
  assert (K : forall k, jreq d_str "type" t = Ok k <-> must t "type" (str is) k) by (intros; apply must_iff; intros; leaf).
  assert (B : forall A B (f : string -> outcome A) (c : A -> B) b, jreq (d_from (fun s => let? v := f s in Ok (c v))) "score" t = Ok b <->
    exists a, jreq (d_from f) "score" t = Ok a /\ b = c a).
  { intros A B f c b. unfold jreq, d_from. destruct (jentries "score" t) as [|w [|]]; try (split; [discriminate|intros (? & ? & _); discriminate]).
    destruct (d_str w) as [s| |]; cbn [obind]; try (split; [discriminate|intros (? & ? & _); discriminate]).
    destruct (f s) as [z| |]; cbn [obind]; split; try discriminate; try (intros (? & ? & _); discriminate).
    - intros [= <-]. exists z. split; reflexivity.
    - intros (? & [= <-] & ->). reflexivity. }
  split.
  - intros H. obinv H. rename a0 into k. revert H.
    unfold says_severity.
    destruct (String.eqb_spec k "CVSS_V2") as [->|]; [|destruct (String.eqb_spec k "CVSS_V3") as [->|]; [|destruct (String.eqb_spec k "CVSS_V4") as [->|]]].
    + intros H. apply B in H as (z & H & ->). split; [apply K; reflexivity|]. apply S. exact H.
    + intros H. apply B in H as (z & H & ->). split; [apply K; reflexivity|]. apply S. exact H.
    + intros H. apply B in H as (z & H & ->). split; [apply K; reflexivity|]. apply S. exact H.
    + unfold jreq, d_from. destruct (jentries "score" t) as [|w [|]]; try discriminate. destruct (d_str w); discriminate.
  - unfold says_severity. destruct a; intros [H1 H2]; apply K in H1; apply S in H2; rewrite H1; cbn [obind];
      cbn [String.eqb Ascii.eqb Bool.eqb]; apply B; eexists; (split; [exact H2|reflexivity]).
Qed.
Lemma type_iff s k : ref_kind_of s = Ok k <-> type_name s k.
Proof.
  unfold ref_kind_of, type_name. split.
  - repeat match goal with |- context [String.eqb s ?n] => destruct (String.eqb_spec s n) as [->|?]; [intros [= <-]; reflexivity|] end. discriminate.
  - destruct k; intros ->; reflexivity.
Qed.
Lemma dtype_iff v k : d_ref_kind v = Ok k <-> says_type v k.
Proof.
  unfold d_ref_kind, says_type. split.
  - destruct v as [| | |s| |[|[k' [| | | | |]] [|]]]; try discriminate; intros H; apply type_iff in H; eexists; (split; [|exact H]); [left|right]; reflexivity.
  - intros (s & [->| ->] & H); apply type_iff; exact H.
Qed.
Lemma dplatforms_iff v e : d_eco_affected v = Ok e <-> obj says_platforms v e.
Proof.
  unfold d_eco_affected. apply dobj_iff. intros t a.
  assert (F1 : jreq (d_list d_str) "arch" t = Ok (ea_arch a) <-> must t "arch" (arr (str is)) (ea_arch a)) by (apply must_iff; intros; leaf).
  assert (F2 : jreq (d_list d_str) "os" t = Ok (ea_os a) <-> must t "os" (arr (str is)) (ea_os a)) by (apply must_iff; intros; leaf).
  assert (F3 : jreq (d_list (d_from path_from_str)) "functions" t = Ok (ea_functions a) <-> must t "functions" (arr (str a_path)) (ea_functions a)) by (apply must_iff; intros; leaf).
  unfold says_platforms. rewrite <- F1, <- F2, <- F3. clear F1 F2 F3. split.
  - intros H. obinv H. injection H as <-. auto.
  - intros (H1 & H2 & H3). rewrite H1; cbn [obind]; rewrite H2; cbn [obind]; rewrite H3. destruct a; reflexivity.
Qed.
Lemma deco_iff v e : d_eco v = Ok e <-> obj says_eco v e.
Proof.
  unfold d_eco. apply dobj_iff. intros t a.
  assert (F1 : jopt d_eco_affected "affects" t = Ok (es_affects a) <-> may t "affects" (obj says_platforms) (es_affects a)) by (apply may_iff; intros; apply dplatforms_iff).
  assert (F2 : jopt (d_list (d_from path_from_str)) "affected_functions" t = Ok (es_functions a) <-> may t "affected_functions" (arr (str a_path)) (es_functions a)) by (apply may_iff; intros; leaf).
  unfold says_eco. rewrite <- F1, <- F2. clear F1 F2. split.
  - intros H. obinv H. injection H as <-. auto.
  - intros (H1 & H2). rewrite H1; cbn [obind]; rewrite H2. destruct a; reflexivity.
Qed.
Lemma ddb_iff v e : d_db v = Ok e <-> obj says_db v e.
Proof.
  unfold d_db. apply dobj_iff. intros t a.
  assert (F1 : jdef [] (d_list (d_from (fun s => Ok (category_from_str s)))) "categories" t = Ok (ds_categories a) <-> or_else t "categories" (arr (str category_named)) [] (ds_categories a)) by (apply or_else_iff; intros; leaf).
  assert (F2 : jopt (d_from cvss_parse) "cvss" t = Ok (ds_cvss a) <-> may t "cvss" (str a_score) (ds_cvss a)) by (apply may_iff; intros; leaf).
  assert (F3 : jopt (d_from (fun s => Ok (informational_from_str s))) "informational" t = Ok (ds_informational a) <-> may t "informational" (str informational_named) (ds_informational a)) by (apply may_iff; intros; leaf).
  unfold says_db. rewrite <- F1, <- F2, <- F3. clear F1 F2 F3. split.
  - intros H. obinv H. injection H as <-. auto.
  - intros (H1 & H2 & H3). rewrite H1; cbn [obind]; rewrite H2; cbn [obind]; rewrite H3. destruct a; reflexivity.
Qed.
Lemma dentry_iff v e : d_affected v = Ok e <-> obj says_entry v e.
Proof.
  unfold d_affected. apply dobj_iff. intros t a.
  assert (F1 : jreq d_package "package" t = Ok (oa_package a) <-> must t "package" (obj says_package) (oa_package a)) by (apply must_iff; intros; apply dpackage_iff).
  assert (F2 : jopt d_eco "ecosystem_specific" t = Ok (oa_eco a) <-> may t "ecosystem_specific" (obj says_eco) (oa_eco a)) by (apply may_iff; intros; apply deco_iff).
  assert (F3 : jreq d_db "database_specific" t = Ok (oa_db a) <-> must t "database_specific" (obj says_db) (oa_db a)) by (apply must_iff; intros; apply ddb_iff).
  assert (F4 : jopt (d_list d_range) "ranges" t = Ok (oa_ranges a) <-> may t "ranges" (arr (obj says_range)) (oa_ranges a)) by (apply may_iff; intros; apply dlist_iff; intros; apply drange_iff).
  assert (F5 : jopt (d_list d_str) "versions" t = Ok (oa_versions a) <-> may t "versions" (arr (str is)) (oa_versions a)) by (apply may_iff; intros; leaf).
  unfold says_entry. rewrite <- F1, <- F2, <- F3, <- F4, <- F5. clear F1 F2 F3 F4 F5. split.
  - intros H. obinv H. injection H as <-. auto 6.
  - intros (H1 & H2 & H3 & H4 & H5). rewrite H1; cbn [obind]; rewrite H2; cbn [obind]; rewrite H3; cbn [obind]; rewrite H4; cbn [obind]; rewrite H5. destruct a; reflexivity.
Qed.
Lemma dreference_iff norm v r : d_reference norm v = Ok r <-> obj (says_reference norm) v r.
Proof.
  unfold d_reference. apply dobj_iff. intros t a.
  assert (F1 : jreq d_ref_kind "type" t = Ok (or_kind a) <-> must t "type" says_type (or_kind a)) by (apply must_iff; intros; apply dtype_iff).
  assert (F2 : jreq (d_from (fun s => of_option (url_parse norm s))) "url" t = Ok (or_url a) <-> must t "url" (str (fun s u => url_parse norm s = Some u)) (or_url a)) by (apply must_iff; intros; leaf).
  unfold says_reference. rewrite <- F1, <- F2. clear F1 F2. split.
  - intros H. obinv H. injection H as <-. auto.
  - intros (H1 & H2). rewrite H1; cbn [obind]; rewrite H2. destruct a; reflexivity.
Qed.
(** *** C69: an OSV document is read as an advisory iff that is what it says; in particular every member of the schema
    occurs at most once, and other members do not matter. *)
Theorem C69_document : forall norm j o, osv_of_json norm j = Ok o <-> exists t, j = JObj t /\ says_osv norm t o.
Proof.
  intros norm j o. unfold osv_of_json. apply dobj_iff. clear j o. intros t o.
  assert (F1 : jopt (d_from (fun s => of_option (parse_version s))) "schema_version" t = Ok (o_schema o) <-> may t "schema_version" (str (fun s v => parse_version s = Some v)) (o_schema o)) by (apply may_iff; intros; leaf).
  assert (F2 : jreq d_id "id" t = Ok (o_id o) <-> must t "id" (str an_id) (o_id o)) by (apply must_iff; intros; leaf).
  assert (F3 : jreq d_str "modified" t = Ok (o_modified o) <-> must t "modified" (str is) (o_modified o)) by (apply must_iff; intros; leaf).
  assert (F4 : jreq d_str "published" t = Ok (o_published o) <-> must t "published" (str is) (o_published o)) by (apply must_iff; intros; leaf).
  assert (F5 : jopt d_str "withdrawn" t = Ok (o_withdrawn o) <-> may t "withdrawn" (str is) (o_withdrawn o)) by (apply may_iff; intros; leaf).
  assert (F6 : jdef [] (d_list d_id) "aliases" t = Ok (o_aliases o) <-> or_else t "aliases" (arr (str an_id)) [] (o_aliases o)) by (apply or_else_iff; intros; leaf).
  assert (F7 : jdef [] (d_list d_id) "related" t = Ok (o_related o) <-> or_else t "related" (arr (str an_id)) [] (o_related o)) by (apply or_else_iff; intros; leaf).
  assert (F8 : jreq d_str "summary" t = Ok (o_summary o) <-> must t "summary" (str is) (o_summary o)) by (apply must_iff; intros; leaf).
  assert (F9 : jreq d_str "details" t = Ok (o_details o) <-> must t "details" (str is) (o_details o)) by (apply must_iff; intros; leaf).
  assert (F10 : jdef [] (d_list d_severity) "severity" t = Ok (o_severity o) <-> or_else t "severity" (arr (obj says_severity)) [] (o_severity o)) by (apply or_else_iff; intros; apply dlist_iff; intros; apply dseverity_iff).
  assert (F11 : jdef [] (d_list d_affected) "affected" t = Ok (o_affected o) <-> or_else t "affected" (arr (obj says_entry)) [] (o_affected o)) by (apply or_else_iff; intros; apply dlist_iff; intros; apply dentry_iff).
  assert (F12 : jdef [] (d_list (d_reference norm)) "references" t = Ok (o_references o) <-> or_else t "references" (arr (obj (says_reference norm))) [] (o_references o)) by (apply or_else_iff; intros; apply dlist_iff; intros; apply dreference_iff).
  assert (F13 : jdef None (d_obj (jopt d_str "license")) "database_specific" t = Ok (o_license o) <-> or_else t "database_specific" (obj (fun t => may t "license" (str is))) None (o_license o)).
  { apply or_else_iff. intros v a. apply dobj_iff. intros u b. apply may_iff. intros; leaf. }
  split.
  - intros H. obinv H. apply (f_equal (fun z => match z with Ok u => u | _ => o end)) in H. cbv beta iota in H. subst o.
    cbn [o_schema o_id o_modified o_published o_withdrawn o_aliases o_related o_summary o_details o_severity o_affected o_references o_license] in *.
    split; [apply F1|apply F2|apply F3|apply F4|apply F5|apply F6|apply F7|apply F8|apply F9|apply F10|apply F11|apply F12|apply F13]; reflexivity.
  - intros [G1 G2 G3 G4 G5 G6 G7 G8 G9 G10 G11 G12 G13].
    apply F1 in G1. apply F2 in G2. apply F3 in G3. apply F4 in G4. apply F5 in G5. apply F6 in G6. apply F7 in G7. apply F8 in G8.
    apply F9 in G9. apply F10 in G10. apply F11 in G11. apply F12 in G12. apply F13 in G13. clear F1 F2 F3 F4 F5 F6 F7 F8 F9 F10 F11 F12 F13.
    rewrite G1; cbn [obind]; rewrite G2; cbn [obind]; rewrite G3; cbn [obind]; rewrite G4; cbn [obind]; rewrite G5; cbn [obind].
    rewrite G6; cbn [obind]; rewrite G7; cbn [obind]; rewrite G8; cbn [obind]; rewrite G9; cbn [obind]; rewrite G10; cbn [obind].
    rewrite G11; cbn [obind]; rewrite G12; cbn [obind]; rewrite G13; cbn [obind]. destruct o; reflexivity.
Qed.
(** Members of other names do not matter, wherever they stand; nor does the order of members; and a known member given twice
    is an error. *)
Lemma jentries_other k k' v a b : k' <> k -> jentries k (a ++ (k', v) :: b)%list = jentries k (a ++ b)%list.
Proof.
  intros N. unfold jentries. f_equal. induction a as [|e a IH]; cbn [List.app filter fst].
  - destruct (String.eqb_spec k' k); [contradiction|reflexivity].
  - destruct (String.eqb (fst e) k); rewrite IH; reflexivity.
Qed.
Lemma absent_ext k t t' : jentries k t = jentries k t' -> absent t k -> absent t' k.
Proof. intros E H. apply jentries_nil. rewrite <- E. apply jentries_nil. exact H. Qed.
Lemma only_ext k v t t' : jentries k t = jentries k t' -> only t k v -> only t' k v.
Proof. intros E H. apply jentries_one. rewrite <- E. apply jentries_one. exact H. Qed.
Lemma must_ext {A} k t t' (R : json -> A -> Prop) a : jentries k t = jentries k t' -> must t k R a -> must t' k R a.
Proof. intros E (v & V & Q). exists v. split; [exact (only_ext k v t t' E V)|exact Q]. Qed.
Lemma or_else_ext {A} k t t' (R : json -> A -> Prop) d a : jentries k t = jentries k t' -> or_else t k R d a -> or_else t' k R d a.
Proof.
  intros E [(v & V & Q)|[N Q]]; [left; exists v; split; [exact (only_ext k v t t' E V)|exact Q]|right; split; [exact (absent_ext k t t' E N)|exact Q]].
Qed.
Lemma may_ext {A} k t t' (R : json -> A -> Prop) o : jentries k t = jentries k t' -> may t k R o -> may t' k R o.
Proof.
  intros E. destruct o as [a|]; cbn [may].
  - intros (v & V & Q). exists v. split; [exact (only_ext k v t t' E V)|exact Q].
  - intros [N|V]; [left; exact (absent_ext k t t' E N)|right; exact (only_ext k JNull t t' E V)].
Qed.
Lemma says_ext norm t t' o : (forall k, In k osv_members -> jentries k t = jentries k t') -> says_osv norm t o -> says_osv norm t' o.
Proof.
  intros E []. split; first [apply (must_ext _ t) | apply (or_else_ext _ t) | apply (may_ext _ t)]; try assumption; apply E; member.
Qed.
Theorem C69_other_members : forall norm a b k v o, ~ In k osv_members ->
  osv_of_json norm (JObj (a ++ (k, v) :: b)) = Ok o <-> osv_of_json norm (JObj (a ++ b)) = Ok o.
Proof.
  intros norm a b k v o N.
  assert (X : forall t t', (forall k, In k osv_members -> jentries k t = jentries k t') -> osv_of_json norm (JObj t) = Ok o -> osv_of_json norm (JObj t') = Ok o).
  { intros t t' E H. apply C69_document in H as (u & [= <-] & H). apply C69_document. exists t'. split; [reflexivity|]. exact (says_ext norm t t' o E H). }
  assert (Y : forall k', In k' osv_members -> jentries k' (a ++ (k, v) :: b)%list = jentries k' (a ++ b)%list).
  { intros k' I. apply jentries_other. intros ->. contradiction. }
  split; apply X; [exact Y|]. intros k' I. symmetry. apply Y. exact I.
Qed.
Lemma jentries_perm k t t' : Permutation t t' -> Permutation (jentries k t) (jentries k t').
Proof.
  intros P. unfold jentries. apply Permutation_map. induction P as [|e t t' P IH|e e' t|t t' t'' P1 IH1 P2 IH2]; cbn [filter].
  - constructor.
  - destruct (String.eqb (fst e) k); [constructor|]; exact IH.
  - destruct (String.eqb (fst e) k), (String.eqb (fst e') k); try reflexivity. apply perm_swap.
  - exact (Permutation_trans IH1 IH2).
Qed.
Theorem C69_member_order : forall norm t t' o, Permutation t t' -> osv_of_json norm (JObj t) = Ok o -> osv_of_json norm (JObj t') = Ok o.
Proof.
  intros norm t t' o P H. apply C69_document in H as (u & [= <-] & H). apply C69_document. exists t'. split; [reflexivity|].
  assert (O : forall k v, only t k v -> only t' k v).
  { intros k v V. apply jentries_one in V. apply jentries_one. pose proof (jentries_perm k t t' P) as Q. rewrite V in Q. apply Permutation_length_1_inv. exact Q. }
  assert (N : forall k, absent t k -> absent t' k).
  { intros k V. apply jentries_nil in V. apply jentries_nil. pose proof (jentries_perm k t t' P) as Q. rewrite V in Q. apply Permutation_nil. exact Q. }
  assert (M1 : forall A k (R : json -> A -> Prop) a, must t k R a -> must t' k R a) by (intros A k R a (v & V & Q); exists v; split; [exact (O k v V)|exact Q]).
  assert (M2 : forall A k (R : json -> A -> Prop) d a, or_else t k R d a -> or_else t' k R d a).
  { intros A k R d a [(v & V & Q)|[V Q]]; [left; exists v; split; [exact (O k v V)|exact Q]|right; split; [exact (N k V)|exact Q]]. }
  assert (M3 : forall A k (R : json -> A -> Prop) o, may t k R o -> may t' k R o).
  { intros A k R [a|]; cbn [may]; [intros (v & V & Q); exists v; split; [exact (O k v V)|exact Q]|intros [V|V]; [left; exact (N k V)|right; exact (O k _ V)]]. }
  destruct H. split; first [apply M1 | apply M2 | apply M3]; assumption.
Qed.
Theorem C69_no_duplicates : forall norm a b c k v w o, In k osv_members -> osv_of_json norm (JObj (a ++ (k, v) :: b ++ (k, w) :: c)) <> Ok o.
Proof.
  intros norm a b c k v w o I H. apply C69_document in H as (t & [= <-] & H).
  assert (T : forall z, ~ only (a ++ (k, v) :: b ++ (k, w) :: c)%list k z).
  { intros z V. apply jentries_one in V. unfold jentries in V. rewrite filter_app, map_app in V. cbn [filter fst] in V. rewrite String.eqb_refl in V.
    cbn [map] in V. rewrite filter_app, map_app in V. cbn [filter fst] in V. rewrite String.eqb_refl in V. cbn [map] in V.
    apply (f_equal (@List.length json)) in V. rewrite app_length in V. cbn [List.length] in V. rewrite app_length in V. cbn [List.length] in V. lia. }
  assert (N : ~ absent (a ++ (k, v) :: b ++ (k, w) :: c)%list k).
  { intros V. apply V. rewrite map_app, in_app_iff. right. left. reflexivity. }
  assert (M1 : forall A (R : json -> A -> Prop) a0, ~ must (a ++ (k, v) :: b ++ (k, w) :: c)%list k R a0) by (intros A R a0 (z & V & _); exact (T z V)).
  assert (M2 : forall A (R : json -> A -> Prop) d a0, ~ or_else (a ++ (k, v) :: b ++ (k, w) :: c)%list k R d a0) by (intros A R d a0 [(z & V & _)|[V _]]; [exact (T z V)|exact (N V)]).
  assert (M3 : forall A (R : json -> A -> Prop) o0, ~ may (a ++ (k, v) :: b ++ (k, w) :: c)%list k R o0).
  { intros A R [a0|]; cbn [may]; [intros (z & V & _); exact (T z V)|intros [V|V]; [exact (N V)|exact (T _ V)]]. }
  destruct H. unfold osv_members in I. cbn [In] in I.
  repeat (destruct I as [<-|I]; [first [eapply M1; eassumption | eapply M2; eassumption | eapply M3; eassumption]|]). destruct I.
Qed.

(** ** C68: each member of an exported document *)
Lemma kind_type s : url_type s (ref_kind_name (guess_url_kind s)).
Proof.
  assert (C : forall p, contains p s = true -> mentions p s) by (intros p; apply contains_spec).
  assert (CF : forall p, contains p s = false -> ~ mentions p s) by (intros p F M; apply contains_spec in M; congruence).
  unfold guess_url_kind, url_type, issue_page, advisory_page, crate_page.
  destruct (contains "://github.com/" s) eqn:E1; destruct (contains "://gitlab." s) eqn:E2; destruct (contains "/issues/" s) eqn:E3;
  destruct (contains "/advisories/" s) eqn:E4; destruct (contains "://www.cve.org/" s) eqn:E5; destruct (contains "://crates.io/crates/" s) eqn:E6;
    cbn [orb andb ref_kind_name];
    repeat match goal with
           | E : contains _ s = true |- _ => apply C in E
           | E : contains _ s = false |- _ => apply CF in E
           end; clear C CF; intuition.
Qed.
Lemma find_app {A} (f : A -> bool) a b : find f (a ++ b)%list = match find f a with Some x => Some x | None => find f b end.
Proof. induction a as [|x a IH]; cbn; [reflexivity|]. destruct (f x); [reflexivity|exact IH]. Qed.
Theorem C68_content : forall x cal mt p a o, from_rustsec x cal mt p a = Ok o ->
  let m := f_meta a in let j := osv_to_json o in
  member "id" j = Some (JStr (id_string (m_id m))) /\
  member "aliases" j = Some (ids_json (m_aliases m)) /\ member "related" j = Some (ids_json (m_related m)) /\
  member "summary" j = Some (JStr (m_title m)) /\ member "details" j = Some (JStr (m_description m)) /\
  member "severity" j = Some (JArr (match m_cvss m with
                                    | Some c => [JObj [("type", JStr (severity_type c)); ("score", JStr (cvss_print c))]]
                                    | None => []
                                    end)) /\
  (member "withdrawn" j = None <-> m_withdrawn m = None) /\
  (exists pkg page refs, url_parse (x_norm x) ("https://crates.io/crates/" ++ m_package m) = Some pkg /\
     url_parse (x_norm x) ("https://rustsec.org/advisories/" ++ id_string (m_id m) ++ ".html") = Some page /\
     member "references" j = Some (JArr refs) /\
     Forall2 reference_entry (pkg :: page :: match m_url m with Some u => [u] | None => [] end ++ m_references m)%list refs) /\
  member "database_specific" j = Some (JObj [("license", JStr (license_spdx (m_license m)))]) /\
  (exists e, member "affected" j = Some (JArr [e]) /\
     member "package" e = Some (JObj [("ecosystem", JStr "crates.io"); ("name", JStr (m_package m)); ("purl", JStr ("pkg:cargo/" ++ m_package m))]) /\
     member "database_specific" e = Some (JObj
       [("categories", strings_json (map category_name (m_categories m)));
        ("cvss", match m_cvss m with Some c => JStr (cvss_print c) | None => JNull end);
        ("informational", match m_informational m with Some i => JStr (informational_str i) | None => JNull end)]) /\
     exists es, member "ecosystem_specific" e = Some es /\ member "affected_functions" es = Some JNull /\
       let '(arch, os, fns) := match f_affected a with Some af => (af_arch af, af_os af, map fst (af_functions af)) | None => ([], [], []) end in
       member "affects" es = Some (JObj [("arch", strings_json arch); ("os", strings_json os); ("functions", JArr (map j_path fns))])).
Proof.
  intros x cal mt p a o H m j. unfold from_rustsec, url_unwrap in H. fold m in H.
  destruct (url_parse (x_norm x) ("https://crates.io/crates/" ++ m_package m)) as [pkg|] eqn:U1; cbn [obind] in H; [|discriminate].
  destruct (url_parse (x_norm x) ("https://rustsec.org/advisories/" ++ id_string (m_id m) ++ ".html")) as [page|] eqn:U2; cbn [obind] in H; [|discriminate].
  obinv H. apply (f_equal (fun z => match z with Ok u => u | _ => o end)) in H. cbv beta iota in H. subst o.
  assert (W : a4 = None <-> m_withdrawn m = None).
  { destruct (m_withdrawn m) as [d|]; [|injection E3 as <-; tauto]. destruct (date_to_rfc3339 d); cbn [obind] in E3; try discriminate. injection E3 as <-. split; discriminate. }
  unfold j, osv_to_json. cbn [o_schema o_id o_modified o_published o_withdrawn o_aliases o_related o_summary o_details o_severity o_affected o_references o_license j_skip List.app].
  assert (Sk : forall k rest, k <> "withdrawn" -> member k (JObj (("id", j_id (m_id m)) :: ("modified", JStr a1) :: ("published", JStr a2) :: (j_skip "withdrawn" JStr a4 ++ rest)%list)) =
                 member k (JObj (("id", j_id (m_id m)) :: ("modified", JStr a1) :: ("published", JStr a2) :: rest))).
  { intros k rest N. unfold member. cbn [find fst]. destruct (String.eqb "id" k); [reflexivity|]. destruct (String.eqb "modified" k); [reflexivity|].
    destruct (String.eqb "published" k); [reflexivity|]. rewrite find_app. destruct a4 as [w|]; cbn [j_skip find fst]; [|reflexivity].
    destruct (String.eqb_spec "withdrawn" k) as [E'|]; [congruence|reflexivity]. }
  split; [reflexivity|]. split; [rewrite Sk by discriminate; reflexivity|]. split; [rewrite Sk by discriminate; reflexivity|].
  split; [rewrite Sk by discriminate; reflexivity|]. split; [rewrite Sk by discriminate; reflexivity|].
  split. { rewrite Sk by discriminate. unfold member. cbn [find fst String.eqb Ascii.eqb Bool.eqb]. unfold j_list. destruct (m_cvss m) as [[| | |]|]; reflexivity. }
  split. { rewrite <- W. unfold member. cbn [find fst String.eqb Ascii.eqb Bool.eqb]. destruct a4; cbn [j_skip List.app find fst String.eqb Ascii.eqb Bool.eqb]; split; congruence. }
  split.
  { exists pkg, page. eexists. split; [reflexivity|]. split; [reflexivity|]. split; [rewrite Sk by discriminate; reflexivity|].
    assert (F : forall l, Forall2 reference_entry l (map j_reference (map reference_of l))).
    { induction l as [|u l IH]; [constructor|]. cbn [map]. constructor; [|exact IH]. eexists. split; [apply kind_type|reflexivity]. }
    apply F. }
  split; [rewrite Sk by discriminate; reflexivity|].
  eexists. split; [rewrite Sk by discriminate; reflexivity|]. split; [reflexivity|].
  split. { unfold j_affected, member. cbn [find fst String.eqb Ascii.eqb Bool.eqb oa_db]. unfold j_db, j_list, strings_json. cbn [ds_categories ds_cvss ds_informational].
    rewrite map_map. destruct (m_cvss m), (m_informational m); reflexivity. }
  eexists. split; [reflexivity|]. split; [reflexivity|]. destruct (f_affected a) as [[ar os fn]|]; reflexivity.
Qed.
(** The time of the last modification is that of the commit (C52), to the second. *)
Lemma clock_ok t s : clock gregorian t = Some s -> clock_text t s.
Proof.
  unfold clock. destruct (gregorian (t / 86400)) as [[y mo] d] eqn:G. destruct (Z.leb_spec 0 y); cbn [andb]; [|discriminate].
  destruct (Z.leb_spec y 9999); [|discriminate]. intros H1. apply (f_equal (fun z => match z with Some u => u | None => s end)) in H1. cbv beta iota in H1. subst s.
  assert (F : four_digit_year (t / 86400)) by (unfold four_digit_year; rewrite G; cbn [fst]; lia).
  destruct (day_text_iso _ F) as (yn & m' & d' & ys & ms & ds & G' & T & (Y1 & Y2 & Y3) & (M1 & M2 & M3) & (D1 & D2 & D3) & _ & Yl & Mm & Dm).
  assert (Eq : (y, mo, d) = (Z.of_N yn, m', d')) by congruence. injection Eq as -> -> ->.
  assert (P : (pad_left 4 (print_int (Z.of_N yn)) ++ "-" ++ pad_left 2 (print_dec m') ++ "-" ++ pad_left 2 (print_dec d'))%string = iso_date ys ms ds).
  { rewrite <- T. unfold day_text. rewrite G. reflexivity. }
  pose proof (Z.mod_pos_bound t 86400 ltac:(lia)) as B. set (u := (t mod 86400)%Z) in *.
  assert (Two : forall z, (0 <= z < 100)%Z -> number 2 (pad_left 2 (print_int z)) /\ value (pad_left 2 (print_int z)) = Z.to_N z).
  { intros z Hz. unfold print_int. destruct (Z.ltb_spec z 0); [lia|]. destruct (padded 2 (Z.to_N z)) as (Q1 & Q2 & Q3); [lia|change (10 ^ N.of_nat 2)%N with 100%N; lia|].
    split; [split; assumption|exact Q3]. }
  assert (Hh : (0 <= u / 3600 < 24)%Z) by (split; [apply Z.div_pos; lia|apply Z.div_lt_upper_bound; lia]).
  assert (Hm : (0 <= u / 60 mod 60 < 60)%Z) by (apply Z.mod_pos_bound; lia).
  assert (Hs : (0 <= u mod 60 < 60)%Z) by (apply Z.mod_pos_bound; lia).
  destruct (Two (u / 3600)%Z) as [N1 V1]; [lia|]. destruct (Two (u / 60 mod 60)%Z) as [N2 V2]; [lia|]. destruct (Two (u mod 60)%Z) as [N3 V3]; [lia|].
  exists ys, ms, ds, (pad_left 2 (print_int (u / 3600))), (pad_left 2 (print_int (u / 60 mod 60))), (pad_left 2 (print_int (u mod 60))).
  split; [split; assumption|]. split; [split; assumption|]. split; [split; assumption|]. split; [exact N1|]. split; [exact N2|]. split; [exact N3|].
  split. { unfold iso_date in P. rewrite <- !sapp_assoc. rewrite <- !sapp_assoc in P. rewrite P. reflexivity. }
  rewrite Y3, M3, D3, V1, V2, V3. split; [rewrite <- G'; apply gregorian_is_date|].
  split; [lia|]. split; [lia|]. split; [lia|]. rewrite <- G', day_number_gregorian. rewrite !Z2N.id by lia.
  rewrite (Z.div_mod t 86400) at 1 by lia. fold u.
  assert (U : (u = u / 3600 * 3600 + u / 60 mod 60 * 60 + u mod 60)%Z).
  { rewrite (Z.div_mod u 60) at 1 by lia. rewrite (Z.div_mod (u / 60) 60) at 1 by lia. rewrite Z.div_div by lia. change (60 * 60)%Z with 3600%Z. ring. }
  rewrite U at 1. ring.
Qed.
Lemma rfc3339_stamp t s : rfc3339 gregorian t = Ok s -> utc_stamp t s.
Proof. unfold rfc3339. destruct (clock gregorian t) as [c|] eqn:E; [|discriminate]. intros [= <-]. exists c. split; [exact (clock_ok t c E)|reflexivity]. Qed.
Theorem C68_modified : forall x mt p a o, from_rustsec x gregorian mt p a = Ok o ->
  exists t s, for_path mt p = Ok t /\ member "modified" (osv_to_json o) = Some (JStr s) /\ utc_stamp t s.
Proof.
  intros x mt p a o H. unfold from_rustsec in H. obinv H. apply (f_equal (fun z => match z with Ok u => u | _ => o end)) in H. cbv beta iota in H. subst o.
  exists a2, a3. split; [reflexivity|]. split; [reflexivity|]. apply rfc3339_stamp. exact E2.
Qed.
(** A concrete export, and a document whose members come in another order with one of no meaning. *)
Example C68_content_case : exists a o, full_from_str extn toml_of (data_of "x") = Ok a /\ from_rustsec extn gregorian times_of "a" a = Ok o /\
  member "summary" (osv_to_json o) = Some (JStr "Reads too far") /\
  member "aliases" (osv_to_json o) = Some (JArr [JStr "CVE-2024-12345"]) /\ member "related" (osv_to_json o) = Some (JArr []).
Proof.
  do 2 eexists. split; [vm_compute; reflexivity|]. split; [vm_compute; reflexivity|]. repeat split; reflexivity.
Qed.
Definition small_osv : members :=
  [("summary", JStr "s"); ("nonsense", JNull); ("id", JStr "CVE-2024-12345"); ("details", JStr "d"); ("withdrawn", JNull); ("published", JStr "p"); ("modified", JStr "m")].
Example C69_document_case : exists o, osv_of_json visible_norm (JObj small_osv) = Ok o /\ o_withdrawn o = None /\ o_aliases o = [] /\
  osv_of_json visible_norm (JObj (("id", JStr "CVE-2024-12345") :: small_osv)) = Err.
Proof. eexists. split; [vm_compute; reflexivity|]. repeat split; vm_compute; reflexivity. Qed.
Print Assumptions C69_document.
Print Assumptions C69_other_members.
Print Assumptions C69_member_order.
Print Assumptions C69_no_duplicates.
Print Assumptions C68_content.
Print Assumptions C68_modified.
