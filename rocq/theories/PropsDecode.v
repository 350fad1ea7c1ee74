(** C78: loading an advisory yields exactly what its file says. *)
From Coq Require Import List NArith Ascii String Bool Arith Lia Sorting.Sorted Sorting.Permutation.
From Verif Require Import Base StrLib SemverModel OsvModel IdModel PkgModel DbModel UrlModel CvssText CvssTextProofs ScanModel PropsScan
  PartsModel PartsSpec PropsParts AdvModel LintModel LintSpec LintProofs2 DecodeSpec.
Import ListNotations.
Local Open Scope string_scope.

(** ** Entries *)
Lemma tget_iff t k v : NoDup (map fst t) -> tget k t = Some v <-> In (k, v) t.
Proof. intros N. split; [apply tget_in|apply in_tget; exact N]. Qed.
Lemma tget_lacks t k : tget k t = None <-> lacks t k.
Proof.
  rewrite tget_none. unfold has_key, lacks. split.
  - intros H v I. apply H. apply in_map_iff. exists (k, v). split; [reflexivity|exact I].
  - intros H I. apply in_map_iff in I as ((k', v) & E & I). cbn in E. subst k'. exact (H v I).
Qed.
Lemma required_iff {A} t k (f : tval -> outcome A) (R : tval -> A -> Prop) a : NoDup (map fst t) ->
  (forall v a, In (k, v) t -> f v = Ok a <-> R v a) -> field_req f k t = Ok a <-> required t k R a.
Proof.
  intros N H. unfold field_req, required. destruct (tget k t) as [v|] eqn:E.
  - apply (tget_iff t k v N) in E as I. rewrite (H v a I). split; [intros Q; exists v; split; assumption|].
    intros (w & W & Q). apply (tget_iff t k w N) in W. congruence.
  - apply tget_lacks in E. split; [discriminate|]. intros (w & W & _). destruct (E w W).
Qed.
Lemma optional_iff {A} t k (f : tval -> outcome A) (R : tval -> A -> Prop) o : NoDup (map fst t) ->
  (forall v a, In (k, v) t -> f v = Ok a <-> R v a) -> field_opt f k t = Ok o <-> optional t k R o.
Proof.
  intros N H. unfold field_opt, optional. destruct (tget k t) as [v|] eqn:E.
  - apply (tget_iff t k v N) in E as I. destruct o as [a|].
    + transitivity (f v = Ok a).
      * destruct (f v); cbn [obind]; split; congruence.
      * rewrite (H v a I). split; [intros Q; exists v; split; assumption|]. intros (w & W & Q). apply (tget_iff t k w N) in W. congruence.
    + split; [destruct (f v); cbn [obind]; discriminate|]. intros L. destruct (L v I).
  - apply tget_lacks in E. destruct o as [a|]; split; try discriminate; try (intros _; assumption); [|reflexivity]. intros (w & W & _). destruct (E w W).
Qed.
Lemma defaulted_iff {A} t k (f : tval -> outcome A) (R : tval -> A -> Prop) d a : NoDup (map fst t) ->
  (forall v a, In (k, v) t -> f v = Ok a <-> R v a) -> field_def d f k t = Ok a <-> defaulted t k R d a.
Proof.
  intros N H. unfold field_def, defaulted. destruct (tget k t) as [v|] eqn:E.
  - apply (tget_iff t k v N) in E as I. rewrite (H v a I). split; [intros Q; left; exists v; split; assumption|].
    intros [(w & W & Q)|[L _]]; [apply (tget_iff t k w N) in W; congruence|destruct (L v I)].
  - apply tget_lacks in E. split.
    + intros [= ->]. right. split; [exact E|reflexivity].
    + intros [(w & W & _)|[_ ->]]; [destruct (E w W)|reflexivity].
Qed.
(** ** Values *)
Lemma text_iff {A} (f : string -> outcome A) (P : string -> A -> Prop) v a : (forall s a, f s = Ok a <-> P s a) ->
  de_from f v = Ok a <-> text P v a.
Proof.
  intros H. rewrite de_from_ok. unfold text. split; intros (s & E & Q); exists s; (split; [exact E|apply H; exact Q]).
Qed.
Lemma texts_iff {A} (f : string -> outcome A) (P : string -> A -> Prop) v l : (forall s a, f s = Ok a <-> P s a) ->
  de_list (de_from f) v = Ok l <-> texts P v l.
Proof.
  intros H. rewrite de_list_ok. unfold texts. split.
  - intros (vs & -> & F). assert (X : exists ss, vs = map TStr ss /\ Forall2 P ss l).
    { induction F as [|v a vs l Q F (ss & -> & G)]; [exists []; split; constructor|]. apply de_from_ok in Q as (s & -> & Q).
      exists (s :: ss). split; [reflexivity|]. constructor; [apply H; exact Q|exact G]. }
    destruct X as (ss & -> & G). exists ss. split; [reflexivity|exact G].
  - intros (ss & -> & F). exists (map TStr ss). split; [reflexivity|].
    induction F as [|s a ss l Q F IH]; [constructor|]. cbn [map]. constructor; [|exact IH]. apply de_from_ok. exists s. split; [reflexivity|apply H; exact Q].
Qed.
Lemma string_iff v a : de_string v = Ok a <-> text is v a.
Proof.
  unfold de_string, text, is. destruct v; split; try discriminate; try (intros (s' & E & _); discriminate).
  - intros [= ->]. exists a. split; reflexivity.
  - intros (s' & [= ->] & ->). reflexivity.
Qed.
Lemma strings_iff v l : de_list de_string v = Ok l <-> texts is v l.
Proof.
  rewrite <- (texts_iff (fun s => Ok s) is v l); [|intros s a; unfold is; split; congruence].
  assert (E : forall v, de_from (fun s => Ok s) v = de_string v) by (intros w; unfold de_from, de_string; destruct w; reflexivity).
  unfold de_list. destruct v; try tauto. assert (X : omap de_string l0 = omap (de_from (fun s => Ok s)) l0).
  { induction l0 as [|w l0 IH]; [reflexivity|]. cbn [omap]. rewrite IH, E. reflexivity. }
  rewrite X. tauto.
Qed.
Lemma collection_iff s c : collection_from_str s = Ok c <-> collection_name s c.
Proof.
  unfold collection_from_str, collection_name. destruct (String.eqb_spec s "crates") as [->|N1].
  - split; [intros [= <-]; left; split; reflexivity|intros [[_ ->]|[E _]]; [reflexivity|discriminate]].
  - destruct (String.eqb_spec s "rust") as [->|N2].
    + split; [intros [= <-]; right; split; reflexivity|intros [[E _]|[_ ->]]; [discriminate|reflexivity]].
    + split; [discriminate|intros [[E _]|[E _]]; contradiction].
Qed.
Lemma license_iff s l : Ok (license_from_str s) = Ok l <-> license_named s l.
Proof.
  unfold license_from_str. destruct (String.eqb_spec s "CC0-1.0") as [->|N1]; [|destruct (String.eqb_spec s "CC-BY-4.0") as [->|N2]].
  - split; [intros [= <-]; reflexivity|]. destruct l; cbn; try discriminate; try reflexivity. intros (<- & A & _). congruence.
  - split; [intros [= <-]; reflexivity|]. destruct l; cbn; try discriminate; try reflexivity. intros (<- & _ & A). congruence.
  - split; [intros [= <-]; cbn; auto|]. destruct l; cbn; try contradiction. intros (-> & _). reflexivity.
Qed.
Lemma informational_iff s i : Ok (informational_from_str s) = Ok i <-> informational_named s i.
Proof.
  unfold informational_from_str.
  repeat match goal with |- context [String.eqb s ?k] => destruct (String.eqb_spec s k) as [->|?] end;
    try (split; [intros [= <-]; reflexivity|]; destruct i; cbn; try discriminate; try reflexivity; intros [<- N]; exfalso; apply N; cbn; tauto).
  split.
  - intros [= <-]. cbn. split; [reflexivity|]. intuition congruence.
  - destruct i; cbn; try contradiction. intros [-> _]. reflexivity.
Qed.
Lemma category_iff s c : Ok (category_from_str s) = Ok c <-> category_named s c.
Proof.
  unfold category_from_str.
  repeat match goal with |- context [String.eqb s ?k] => destruct (String.eqb_spec s k) as [->|?] end;
    try (split; [intros [= <-]; reflexivity|]; destruct c; cbn; try discriminate; try reflexivity; intros [<- N]; exfalso; apply N; cbn; tauto).
  split.
  - intros [= <-]. cbn. split; [reflexivity|]. intuition congruence.
  - destruct c; cbn; try contradiction. intros [-> _]. reflexivity.
Qed.
Lemma bool_iff v b : de_bool v = Ok b <-> flag v b.
Proof. unfold de_bool, flag. destruct v; split; congruence. Qed.
Lemma some_iff {A} (o : option A) a : (match o with Some u => Ok u | None => Err end) = Ok a <-> o = Some a.
Proof. destruct o; split; congruence. Qed.

Section Decoding.
  Context (x : externals).
  Lemma urls_iff v l : de_list (de_url x) v = Ok l <-> texts (a_url x) v l.
  Proof. apply texts_iff. intros s a. apply some_iff. Qed.
  Lemma reqs_iff v l : de_list (de_req x) v = Ok l <-> texts (a_req x) v l.
  Proof. apply texts_iff. intros s a. apply some_iff. Qed.

  Lemma obind_ok {A B} (o : outcome A) (f : A -> outcome B) b : obind o f = Ok b <-> exists a, o = Ok a /\ f a = Ok b.
  Proof.
    destruct o; cbn [obind]; split; try discriminate; try (intros (? & E & _); discriminate).
    - intros H. exists a. split; [reflexivity|exact H].
    - intros (? & [= <-] & H). exact H.
  Qed.
  (** Each field's reading, for a table with distinct keys. *)
  Ltac reading := first
    [ apply text_iff; intros; first [apply some_iff | reflexivity | apply collection_iff | apply license_iff | apply informational_iff]
    | apply urls_iff | apply reqs_iff | apply strings_iff | apply string_iff | apply bool_iff
    | apply texts_iff; intros; first [apply category_iff | reflexivity] ].
  Lemma metadata_iff t m : NoDup (map fst t) -> decode_metadata x t = Ok m <->
    says_fields x t m /\ defaulted t "title" (text is) "" (m_title m) /\ defaulted t "description" (text is) "" (m_description m).
  Proof.
    intros N.
    assert (F1 : field_req de_id "id" t = Ok (m_id m) <-> required t "id" (text an_id) (m_id m)) by (apply required_iff; [exact N|intros; reading]).
    assert (F2 : field_req de_string "package" t = Ok (m_package m) <-> required t "package" (text is) (m_package m)) by (apply required_iff; [exact N|intros; reading]).
    assert (F3 : field_def "" de_string "title" t = Ok (m_title m) <-> defaulted t "title" (text is) "" (m_title m)) by (apply defaulted_iff; [exact N|intros; reading]).
    assert (F4 : field_def "" de_string "description" t = Ok (m_description m) <-> defaulted t "description" (text is) "" (m_description m)) by (apply defaulted_iff; [exact N|intros; reading]).
    assert (F5 : field_req (de_date x) "date" t = Ok (m_date m) <-> required t "date" (text (a_day x)) (m_date m)) by (apply required_iff; [exact N|intros; reading]).
    assert (F6 : field_def [] (de_list de_id) "aliases" t = Ok (m_aliases m) <-> defaulted t "aliases" (texts an_id) [] (m_aliases m)) by (apply defaulted_iff; [exact N|intros; reading]).
    assert (F7 : field_def [] (de_list de_id) "related" t = Ok (m_related m) <-> defaulted t "related" (texts an_id) [] (m_related m)) by (apply defaulted_iff; [exact N|intros; reading]).
    assert (F8 : field_opt (de_from collection_from_str) "collection" t = Ok (m_collection m) <-> optional t "collection" (text collection_name) (m_collection m)) by (apply optional_iff; [exact N|intros; reading]).
    assert (F9 : field_def [] (de_list (de_from (fun s => Ok (category_from_str s)))) "categories" t = Ok (m_categories m) <-> defaulted t "categories" (texts category_named) [] (m_categories m)) by (apply defaulted_iff; [exact N|intros; reading]).
    assert (F10 : field_def [] (de_list de_string) "keywords" t = Ok (m_keywords m) <-> defaulted t "keywords" (texts is) [] (m_keywords m)) by (apply defaulted_iff; [exact N|intros; reading]).
    assert (F11 : field_opt (de_from cvss_parse) "cvss" t = Ok (m_cvss m) <-> optional t "cvss" (text a_score) (m_cvss m)) by (apply optional_iff; [exact N|intros; reading]).
    assert (F12 : field_opt (de_from (fun s => Ok (informational_from_str s))) "informational" t = Ok (m_informational m) <-> optional t "informational" (text informational_named) (m_informational m)) by (apply optional_iff; [exact N|intros; reading]).
    assert (F13 : field_def [] (de_list (de_url x)) "references" t = Ok (m_references m) <-> defaulted t "references" (texts (a_url x)) [] (m_references m)) by (apply defaulted_iff; [exact N|intros; reading]).
    assert (F14 : field_opt (de_from (from_url (x_norm x))) "source" t = Ok (m_source m) <-> optional t "source" (text (a_source x)) (m_source m)) by (apply optional_iff; [exact N|intros; reading]).
    assert (F15 : field_opt (de_url x) "url" t = Ok (m_url m) <-> optional t "url" (text (a_url x)) (m_url m)) by (apply optional_iff; [exact N|intros; reading]).
    assert (F16 : field_opt (de_date x) "withdrawn" t = Ok (m_withdrawn m) <-> optional t "withdrawn" (text (a_day x)) (m_withdrawn m)) by (apply optional_iff; [exact N|intros; reading]).
    assert (F17 : field_def CcZero10 (de_from (fun s => Ok (license_from_str s))) "license" t = Ok (m_license m) <-> defaulted t "license" (text license_named) CcZero10 (m_license m)) by (apply defaulted_iff; [exact N|intros; reading]).
    assert (F18 : field_def false de_bool "expect-deleted" t = Ok (m_expect_deleted m) <-> defaulted t "expect-deleted" flag false (m_expect_deleted m)) by (apply defaulted_iff; [exact N|intros; reading]).
    unfold decode_metadata. split.
    - intros H. do 18 bind H. apply (f_equal (fun o => match o with Ok a => a | _ => m end)) in H. cbv beta iota in H. subst m.
      cbn [m_id m_package m_title m_description m_date m_aliases m_related m_collection m_categories m_keywords m_cvss m_informational
           m_references m_source m_url m_withdrawn m_license m_expect_deleted] in *.
      split; [|split; [apply F3; reflexivity|apply F4; reflexivity]].
      split; [apply F1|apply F2|apply F5|apply F6|apply F7|apply F8|apply F9|apply F10|apply F11|apply F12|apply F13|apply F14|apply F15|apply F16|apply F17|apply F18];
        reflexivity.
    - intros ([G1 G2 G5 G6 G7 G8 G9 G10 G11 G12 G13 G14 G15 G16 G17 G18] & G3 & G4).
      apply F1 in G1. apply F2 in G2. apply F3 in G3. apply F4 in G4. apply F5 in G5. apply F6 in G6. apply F7 in G7. apply F8 in G8.
      apply F9 in G9. apply F10 in G10. apply F11 in G11. apply F12 in G12. apply F13 in G13. apply F14 in G14. apply F15 in G15.
      apply F16 in G16. apply F17 in G17. apply F18 in G18. clear F1 F2 F3 F4 F5 F6 F7 F8 F9 F10 F11 F12 F13 F14 F15 F16 F17 F18.
      rewrite G1; cbn [obind]; rewrite G2; cbn [obind]; rewrite G3; cbn [obind]; rewrite G4; cbn [obind]; rewrite G5; cbn [obind].
      rewrite G6; cbn [obind]; rewrite G7; cbn [obind]; rewrite G8; cbn [obind]; rewrite G9; cbn [obind]; rewrite G10; cbn [obind].
      rewrite G11; cbn [obind]; rewrite G12; cbn [obind]; rewrite G13; cbn [obind]; rewrite G14; cbn [obind]; rewrite G15; cbn [obind].
      rewrite G16; cbn [obind]; rewrite G17; cbn [obind]; rewrite G18; cbn [obind]. destruct m; reflexivity.
  Qed.

  (** ** Functions *)
  Lemma path_inj k k' p : path_from_str k = Ok p -> path_from_str k' = Ok p -> k = k'.
  Proof. intros H H'. apply C53_parse_iff in H as [-> _]. apply C53_parse_iff in H' as [-> _]. reflexivity. Qed.
  Definition before (a b : list string) := list_cmp str_cmp a b = Lt.
  Lemma insert_spec {A} k (v : A) m : ~ In k (map fst m) -> StronglySorted path_before (map fst m) ->
    (forall p rs, In (p, rs) (fmap_insert k v m) <-> (p, rs) = (k, v) \/ In (p, rs) m) /\
    StronglySorted path_before (map fst (fmap_insert k v m)).
  Proof.
    pose proof (list_cmp_laws _ str_cmp_laws) as L. intros N S. split.
    - intros p rs. induction m as [|[k' v'] m IH]; cbn [fmap_insert]; [cbn; intuition congruence|].
      cbn [map fst] in S, N. inversion S as [|? ? S' F]; subst.
      destruct (path_cmp k k') eqn:C; cbn [In].
      + apply path_cmp_eq in C. subst k'. exfalso. apply N. left. reflexivity.
      + intuition congruence.
      + rewrite IH; [intuition congruence|intros I; apply N; right; exact I|exact S'].
    - induction m as [|[k' v'] m IH]; cbn [fmap_insert map fst]; [repeat constructor|].
      cbn [map fst] in S, N. inversion S as [|? ? S' F]; subst.
      destruct (path_cmp k k') eqn:C; cbn [map fst].
      + apply path_cmp_eq in C. subst k'. exfalso. apply N. left. reflexivity.
      + constructor; [exact S|]. constructor; [exact C|]. rewrite Forall_forall in F |- *. intros z Z. exact (cmp_trans_lt _ L _ _ _ C (F z Z)).
      + constructor; [apply IH; [intros I; apply N; right; exact I|exact S']|]. apply Forall_forall. intros z Z. apply fmap_insert_keys in Z as [->|Z].
        * unfold path_before. fold path_cmp. unfold path_cmp in C |- *. rewrite (cmp_antisym _ L), C. reflexivity.
        * rewrite Forall_forall in F. exact (F z Z).
  Qed.
  Lemma functions_sound ft : NoDup (map fst ft) -> forall m fs, decode_functions x ft m = Ok fs ->
    (forall k p, In k (map fst ft) -> path_from_str k = Ok p -> ~ In p (map fst m)) -> StronglySorted path_before (map fst m) ->
    (forall k v', In (k, v') ft -> exists p rs, path_from_str k = Ok p /\ texts (a_req x) v' rs) /\
    (forall p rs, In (p, rs) fs <-> In (p, rs) m \/ exists k v', In (k, v') ft /\ path_from_str k = Ok p /\ texts (a_req x) v' rs) /\
    StronglySorted path_before (map fst fs).
  Proof.
    induction ft as [|[k v] ft IH]; intros N m fs H D S; cbn [decode_functions] in H.
    - injection H as <-. split; [intros ? ? []|]. split; [|exact S]. intros p rs. split; [left; assumption|]. intros [I|(? & ? & [] & _)]. exact I.
    - bind H. bind H. rename a into p. rename a0 into rs. cbn [map fst] in N, D. inversion N as [|? ? N1 N2]; subst.
      apply reqs_iff in E0. assert (Np : ~ In p (map fst m)) by (apply (D k p); [left; reflexivity|exact E]).
      destruct (insert_spec p rs m Np S) as [I1 I2]. destruct (IH N2 _ _ H) as (A1 & A2 & A3); [|exact I2|].
      { intros k' p' K P I. apply fmap_insert_keys in I as [->|I].
        - assert (k' = k) by (eapply path_inj; eassumption). subst k'. contradiction.
        - exact (D k' p' (or_intror K) P I). }
      split; [|split; [|exact A3]].
      + intros k' v' [[= <- <-]|I]; [exists p, rs; split; assumption|exact (A1 _ _ I)].
      + intros p' rs'. rewrite A2, I1. split.
        * intros [[[= -> ->]|I]|(k' & v' & I & P & R)]; [right; exists k, v; split; [left; reflexivity|split; assumption]|left; exact I|
            right; exists k', v'; split; [right; exact I|split; assumption]].
        * intros [I|(k' & v' & [[= <- <-]|I] & P & R)]; [left; right; exact I| |right; exists k', v'; split; [exact I|split; assumption]].
          left. left. assert (p' = p) by congruence. subst p'. f_equal.
          assert (X : de_list (de_req x) v = Ok rs') by (apply reqs_iff; exact R). apply reqs_iff in E0. congruence.
  Qed.
  Lemma functions_total ft : (forall k v', In (k, v') ft -> exists p rs, path_from_str k = Ok p /\ texts (a_req x) v' rs) ->
    forall m, exists fs, decode_functions x ft m = Ok fs.
  Proof.
    induction ft as [|[k v] ft IH]; intros H m; cbn [decode_functions]; [exists m; reflexivity|].
    destruct (H k v (or_introl eq_refl)) as (p & rs & P & R). rewrite P. cbn [obind]. apply reqs_iff in R. rewrite R. cbn [obind].
    apply IH. intros k' v' I. apply H. right. exact I.
  Qed.
  (** Strictly sorted maps are determined by their entries. *)
  Lemma sorted_unique (a b : list (list string * list version_req)) :
    StronglySorted path_before (map fst a) -> StronglySorted path_before (map fst b) -> (forall p rs, In (p, rs) a <-> In (p, rs) b) -> a = b.
  Proof.
    pose proof (list_cmp_laws _ str_cmp_laws) as L.
    assert (Irr : forall p, ~ path_before p p).
    { intros p H. unfold path_before in H. assert (E : list_cmp str_cmp p p = Eq) by (apply (cmp_eq_iff _ L); reflexivity). congruence. }
    assert (Asym : forall p q, path_before p q -> ~ path_before q p).
    { intros p q H H'. apply (Irr p). exact (cmp_trans_lt _ L _ _ _ H H'). }
    revert b. induction a as [|[p rs] a IH]; intros [|[p' rs'] b] Sa Sb H.
    - reflexivity.
    - destruct (proj2 (H p' rs') (or_introl eq_refl)).
    - destruct (proj1 (H p rs) (or_introl eq_refl)).
    - cbn [map fst] in Sa, Sb. inversion Sa as [|? ? Sa' Fa]; inversion Sb as [|? ? Sb' Fb]; subst. rewrite Forall_forall in Fa, Fb.
      assert (Ka : forall q r, In (q, r) a -> path_before p q) by (intros q r I; apply Fa; apply in_map_iff; exists (q, r); split; [reflexivity|exact I]).
      assert (Kb : forall q r, In (q, r) b -> path_before p' q) by (intros q r I; apply Fb; apply in_map_iff; exists (q, r); split; [reflexivity|exact I]).
      assert (E : (p, rs) = (p', rs')).
      { destruct (proj1 (H p rs) (or_introl eq_refl)) as [E|I]; [symmetry; exact E|].
        destruct (proj2 (H p' rs') (or_introl eq_refl)) as [E'|I']; [exact E'|].
        exfalso. exact (Asym _ _ (Ka _ _ I') (Kb _ _ I)). }
      injection E as <- <-. f_equal. apply IH; [exact Sa'|exact Sb'|]. intros q r. split; intros I.
      + destruct (proj1 (H q r) (or_intror I)) as [[= <- <-]|I']; [destruct (Irr _ (Ka _ _ I))|exact I'].
      + destruct (proj2 (H q r) (or_intror I)) as [[= <- <-]|I']; [destruct (Irr _ (Kb _ _ I))|exact I'].
  Qed.
  Lemma functions_iff v fs : one_each v ->
    (match v with TTab ft => decode_functions x ft [] | _ => Err end) = Ok fs <-> says_functions x v fs.
  Proof.
    intros W. unfold says_functions. split.
    - destruct v as [| | | |ft]; try discriminate. inversion W as [| | | |? N _]; subst. intros H. exists ft. split; [reflexivity|].
      destruct (functions_sound ft N [] fs H) as (A1 & A2 & A3); [intros ? ? _ _ []|constructor|].
      split; [exact A1|]. split; [|exact A3]. intros p rs. rewrite A2. cbn [In]. tauto.
    - intros (ft & -> & A1 & A2 & A3). inversion W as [| | | |? N _]; subst.
      destruct (functions_total ft A1 []) as [fs' H]. rewrite H. f_equal.
      destruct (functions_sound ft N [] fs' H) as (B1 & B2 & B3); [intros ? ? _ _ []|constructor|].
      apply sorted_unique; [exact B3|exact A3|]. intros p rs. rewrite B2, A2. cbn [In]. tauto.
  Qed.
  Lemma affected_iff v a : one_each v -> decode_affected x v = Ok a <-> says_affected x v a.
  Proof.
    intros W. unfold says_affected. destruct v as [| | | |t]; cbn [decode_affected]; try (split; [discriminate|intros (? & E & _); discriminate]).
    inversion W as [| | | |? N C]; subst.
    assert (F1 : field_def [] (de_list de_string) "arch" t = Ok (af_arch a) <-> defaulted t "arch" (texts is) [] (af_arch a)) by (apply defaulted_iff; [exact N|intros; reading]).
    assert (F2 : field_def [] (de_list de_string) "os" t = Ok (af_os a) <-> defaulted t "os" (texts is) [] (af_os a)) by (apply defaulted_iff; [exact N|intros; reading]).
    assert (F3 : field_def [] (fun v => match v with TTab ft => decode_functions x ft [] | _ => Err end) "functions" t = Ok (af_functions a) <->
                 defaulted t "functions" (says_functions x) [] (af_functions a)).
    { apply defaulted_iff; [exact N|]. intros v fs I. apply functions_iff. exact (C _ _ I). }
    split.
    - intros H. bind H. bind H. bind H. injection H as <-. cbn [af_arch af_os af_functions] in *. exists t. split; [reflexivity|].
      split; [apply F1; reflexivity|]. split; [apply F2; reflexivity|apply F3; reflexivity].
    - intros (t' & [= <-] & G1 & G2 & G3). apply F1 in G1. apply F2 in G2. apply F3 in G3. rewrite G1; cbn [obind]; rewrite G2; cbn [obind]; rewrite G3.
      destruct a; reflexivity.
  Qed.
  Lemma versions_iff v vs : one_each v -> decode_versions x v = Ok vs <-> says_versions x v vs.
  Proof.
    intros W. unfold says_versions. destruct v as [| | | |t]; cbn [decode_versions]; try (split; [discriminate|intros (? & E & _); discriminate]).
    inversion W as [| | | |? N C]; subst.
    assert (V : forall p u w, versions_new (x_checks x) p u = Ok w -> w = mkVersions p u).
    { intros p u w H. unfold versions_new in H. bind H. congruence. }
    split.
    - intros H. bind H. bind H. pose proof (V _ _ _ H) as ->. cbn [patched unaffected]. exists t. split; [reflexivity|].
      split; [revert E; apply required_iff; [exact N|intros; reading]|]. split; [revert E0; apply defaulted_iff; [exact N|intros; reading]|].
      eexists; exact H.
    - intros (t' & [= <-] & G1 & G2 & w & H). pose proof (V _ _ _ H) as ->.
      assert (E1 : field_req (de_list (de_req x)) "patched" t = Ok (patched vs)) by (revert G1; apply required_iff; [exact N|intros; reading]).
      assert (E2 : field_def [] (de_list (de_req x)) "unaffected" t = Ok (unaffected vs)) by (revert G2; apply defaulted_iff; [exact N|intros; reading]).
      rewrite E1; cbn [obind]; rewrite E2; cbn [obind]; rewrite H. destruct vs; reflexivity.
  Qed.
  Lemma rest_iff t a : one_each (TTab t) ->
    (field_opt (decode_affected x) "affected" t = Ok (f_affected a) /\ field_req (decode_versions x) "versions" t = Ok (f_versions a)) <-> says_rest x t a.
  Proof.
    intros W. inversion W as [| | | |? N C]; subst. unfold says_rest.
    rewrite (optional_iff t "affected" (decode_affected x) (says_affected x) _ N) by (intros v b I; apply affected_iff; exact (C _ _ I)).
    rewrite (required_iff t "versions" (decode_versions x) (says_versions x) _ N) by (intros v b I; apply versions_iff; exact (C _ _ I)). tauto.
  Qed.

  (** *** C78: a document is accepted with a result iff that result is what the document says. *)
  Theorem C78_document : forall t a, one_each (TTab t) -> decode_advisory x t = Ok a <-> says x t a.
  Proof.
    intros t a W. inversion W as [| | | |? N C]; subst.
    assert (M : field_req (fun v => match v with TTab mt => decode_metadata x mt | _ => Err end) "advisory" t = Ok (f_meta a) <->
      exists mt, In ("advisory", TTab mt) t /\ says_fields x mt (f_meta a) /\
        defaulted mt "title" (text is) "" (m_title (f_meta a)) /\ defaulted mt "description" (text is) "" (m_description (f_meta a))).
    { rewrite (required_iff t "advisory" _ (fun v m => exists mt, v = TTab mt /\ says_fields x mt m /\
        defaulted mt "title" (text is) "" (m_title m) /\ defaulted mt "description" (text is) "" (m_description m)) _ N).
      - unfold required. split.
        + intros (v & I & mt & -> & H). exists mt. split; [exact I|exact H].
        + intros (mt & I & H). exists (TTab mt). split; [exact I|]. exists mt. split; [reflexivity|exact H].
      - intros v m I. destruct v as [| | | |mt]; try (split; [discriminate|intros (? & E & _); discriminate]).
        pose proof (C _ _ I) as Wm. inversion Wm as [| | | |? Nm _]; subst. rewrite metadata_iff by exact Nm. split.
        + intros H. exists mt. split; [reflexivity|exact H].
        + intros (mt' & [= <-] & H). exact H. }
    unfold says. rewrite <- M, <- rest_iff by exact W. unfold decode_advisory. split.
    - intros H. bind H. bind H. bind H. injection H as <-. cbn [f_meta f_affected f_versions]. auto.
    - intros (H1 & H2 & H3). rewrite H1; cbn [obind]; rewrite H2; cbn [obind]; rewrite H3. destruct a; reflexivity.
  Qed.
End Decoding.
Lemma document_iff front d : d = front_document front <-> document front d.
Proof.
  assert (S : starts_with HEADER front = true <-> exists r, front = ("[advisory]" ++ r)%string).
  { split.
    - intros H. apply starts_with_spec in H. exact H.
    - intros H. apply starts_with_spec. exact H. }
  unfold front_document, document. destruct (starts_with HEADER front) eqn:E.
  - assert (X : exists r, front = ("[advisory]" ++ r)%string) by (apply S; reflexivity). split.
    + intros ->. left. split; [exact X|reflexivity].
    + intros [[_ ->]|[N _]]; [reflexivity|contradiction].
  - assert (X : ~ exists r, front = ("[advisory]" ++ r)%string) by (intros Q; apply S in Q; discriminate). split.
    + intros ->. right. split; [exact X|reflexivity].
    + intros [[Q _]|[_ ->]]; [contradiction|reflexivity].
Qed.
Lemma empty_title t s : defaulted t "title" (text is) "" s -> s = "" -> defaulted t "title" (text is) "" "".
Proof. intros H ->. exact H. Qed.
(** A file is accepted with a result iff it has the layout of an advisory file (C16) and the result is what the document
    in its front matter says, with the title and the description of the Markdown. *)
Theorem C78_file : forall x toml data a, (forall s t, toml s = Some t -> one_each (TTab t)) ->
  full_from_str x toml data = Ok a <->
  exists raw_front gap raw_title raw_desc front title desc d t,
    data = advisory_file raw_front gap raw_title raw_desc /\ file_parts raw_front gap raw_title /\
    trimmed raw_front front /\ trimmed_end raw_title title /\ trimmed raw_desc desc /\
    document front d /\ toml d = Some t /\ file_says x t title desc a.
Proof.
  intros x toml data a W. unfold full_from_str. split.
  - intros H. destruct (parts_parse data) as [p| |] eqn:P; cbn [obind] in H; try discriminate.
    destruct (toml (front_document (pt_front p))) as [t|] eqn:T; [|discriminate].
    destruct (decode_advisory x t) as [b| |] eqn:D; cbn [obind] in H; try discriminate.
    destruct (String.eqb_spec (m_title (f_meta b)) "") as [Et|]; cbn [negb] in H; [|discriminate].
    destruct (String.eqb_spec (m_description (f_meta b)) "") as [Ed|]; cbn [negb] in H; [|discriminate].
    apply (f_equal (fun o => match o with Ok z => z | _ => a end)) in H. cbv beta iota in H. subst a.
    destruct (C16_split_sound data p P) as (rf & gap & rt & rd & A1 & A2 & A3 & A4 & A5 & _).
    exists rf, gap, rt, rd, (pt_front p), (pt_title p), (pt_description p), (front_document (pt_front p)), t.
    split; [exact A1|]. split; [exact A2|]. split; [exact A3|]. split; [exact A4|]. split; [exact A5|].
    split; [apply document_iff; reflexivity|]. split; [exact T|].
    apply (C78_document x t b (W _ _ T)) in D as [(mt & M1 & M2 & M3 & M4) R].
    split; [|split; [reflexivity|split; [reflexivity|exact R]]].
    exists mt. split; [exact M1|]. rewrite Et in M3. rewrite Ed in M4. split; [|split; assumption].
    destruct M2. split; assumption.
  - intros (rf & gap & rt & rd & front & title & desc & d & t & -> & F & A3 & A4 & A5 & Dd & T & S).
    rewrite (C16_split_complete rf gap rt rd front title desc F A3 A4 A5). cbn [obind pt_front pt_title pt_description].
    apply document_iff in Dd. subst d. rewrite T. destruct S as ((mt & M1 & M2 & M3 & M4) & Et & Ed & R).
    assert (D : decode_advisory x t = Ok (with_title a "" "")).
    { apply C78_document; [exact (W _ _ T)|]. split; [|exact R]. exists mt. split; [exact M1|].
      split; [|split; [exact M3|exact M4]]. destruct M2. split; assumption. }
    rewrite D. cbn [obind with_title f_meta m_title m_description]. cbn [negb String.eqb]. f_equal.
    destruct a as [m af vs]. unfold with_title. cbn [f_meta f_affected f_versions m_id m_package m_date m_aliases m_related m_collection m_categories m_keywords
      m_cvss m_informational m_references m_source m_url m_withdrawn m_license m_expect_deleted] in *. subst title desc. destruct m; reflexivity.
Qed.

(** ** Order and other keys *)
Lemma same_required {A} ks t t' k (R : tval -> A -> Prop) a : In k ks -> same_on ks t t' -> required t k R a -> required t' k R a.
Proof. intros I S (v & V & Q). exists v. split; [apply (S k v I); exact V|exact Q]. Qed.
Lemma same_lacks ks t t' k : In k ks -> same_on ks t t' -> lacks t k -> lacks t' k.
Proof. intros I S L v V. apply (L v). apply (S k v I). exact V. Qed.
Lemma same_optional {A} ks t t' k (R : tval -> A -> Prop) o : In k ks -> same_on ks t t' -> optional t k R o -> optional t' k R o.
Proof.
  intros I S. destruct o as [a|]; cbn [optional]; [|apply (same_lacks ks); assumption].
  intros (v & V & Q). exists v. split; [apply (S k v I); exact V|exact Q].
Qed.
Lemma same_defaulted {A} ks t t' k (R : tval -> A -> Prop) d a : In k ks -> same_on ks t t' -> defaulted t k R d a -> defaulted t' k R d a.
Proof.
  intros I S [(v & V & Q)|[L E]]; [left; exists v; split; [apply (S k v I); exact V|exact Q]|right; split; [apply (same_lacks ks t); assumption|exact E]].
Qed.
Lemma same_sym ks t t' : same_on ks t t' -> same_on ks t' t.
Proof. intros S k v I. symmetry. apply S. exact I. Qed.
Lemma same_perm ks t t' : Permutation t t' -> same_on ks t t'.
Proof. intros P k v _. split; apply Permutation_in; [exact P|apply Permutation_sym; exact P]. Qed.
Ltac member := cbn; repeat (first [left; reflexivity | right]).
Lemma same_fields x t t' m : same_on metadata_keys t t' -> says_fields x t m -> says_fields x t' m.
Proof.
  intros S []. split;
    first [apply (same_required metadata_keys t) | apply (same_optional metadata_keys t) | apply (same_defaulted metadata_keys t)];
    try exact S; try assumption; member.
Qed.
(** The tables of a document can be given in any order, and any table may have its entries in another order and further
    entries with other keys: the same is read.  [similar] is that relation. *)
Definition similar_value (ks : list string) (v v' : tval) : Prop := exists t t', v = TTab t /\ v' = TTab t' /\ same_on ks t t'.
Definition similar_entry (k : string) (ks : list string) (t t' : ttable) : Prop :=
  forall v, In (k, v) t -> exists v', In (k, v') t' /\ (similar_value ks v v' \/ v' = v).
Definition similar (t t' : ttable) : Prop :=
  similar_entry "advisory" metadata_keys t t' /\ similar_entry "versions" ["patched"; "unaffected"] t t' /\
  similar_entry "affected" ["arch"; "os"; "functions"] t t' /\ (lacks t "affected" -> lacks t' "affected").
Theorem C78_order_and_other_keys : forall x t t' a, one_each (TTab t) -> one_each (TTab t') -> similar t t' ->
  decode_advisory x t = Ok a -> decode_advisory x t' = Ok a.
Proof.
  intros x t t' a W W' (S1 & S2 & S3 & S4) H. apply (C78_document x t a W) in H. apply (C78_document x t' a W').
  destruct H as [(mt & M1 & M2 & M3 & M4) [O V]]. split; [|split].
  - destruct (S1 _ M1) as (v' & I & [(u & u' & [= <-] & -> & E)| ->]).
    + exists u'. split; [exact I|]. split; [exact (same_fields x mt u' _ E M2)|].
      split; [apply (same_defaulted metadata_keys mt); [member|exact E|exact M3]|apply (same_defaulted metadata_keys mt); [member|exact E|exact M4]].
    + exists mt. split; [exact I|]. split; [exact M2|split; assumption].
  - destruct (f_affected a) as [af|]; cbn [optional] in *; [|apply S4; exact O]. destruct O as (v & I & Q).
    destruct (S3 _ I) as (v' & I' & [(u & u' & -> & -> & E)| ->]); [|exists v; split; assumption].
    exists (TTab u'). split; [exact I'|]. destruct Q as (u0 & [= <-] & Q1 & Q2 & Q3). exists u'. split; [reflexivity|].
    split; [|split]; apply (same_defaulted ["arch"; "os"; "functions"] u); try exact E; try assumption; member.
  - destruct V as (v & I & Q). destruct (S2 _ I) as (v' & I' & [(u & u' & -> & -> & E)| ->]); [|exists v; split; assumption].
    exists (TTab u'). split; [exact I'|]. destruct Q as (u0 & [= <-] & Q1 & Q2 & Q3). exists u'. split; [reflexivity|].
    split; [apply (same_required ["patched"; "unaffected"] u); try exact E; try assumption; member|].
    split; [apply (same_defaulted ["patched"; "unaffected"] u); try exact E; try assumption; member|exact Q3].
Qed.
(** In particular for two orders of the whole document. *)
Theorem C78_any_order : forall x t t' a, one_each (TTab t) -> Permutation t t' -> decode_advisory x t = Ok a -> decode_advisory x t' = Ok a.
Proof.
  intros x t t' a W P. assert (W' : one_each (TTab t')).
  { inversion W as [| | | |? N C]; subst. constructor.
    - apply (Permutation_NoDup (Permutation_map fst P) N).
    - intros k v I. apply (C k). apply (Permutation_in _ (Permutation_sym P)). exact I. }
  apply C78_order_and_other_keys; [exact W|exact W'|].
  assert (E : forall k ks, similar_entry k ks t t') by (intros k ks v I; exists v; split; [apply (Permutation_in _ P); exact I|right; reflexivity]).
  split; [apply E|split; [apply E|split; [apply E|]]]. intros L v I. apply (L v). apply (Permutation_in _ (Permutation_sym P)). exact I.
Qed.
