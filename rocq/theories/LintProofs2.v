(** The linter's checks of the TOML document. *)
From Coq Require Import List NArith Ascii String Bool Arith Lia.
From Verif Require Import Base StrLib IdModel IdSpec IdProofs PkgModel DbModel UrlModel CvssText CvssTextProofs PartsModel
  PlatData ScanModel PropsScan AssignModel AdvModel LintModel LintSpec LintProofs.
Import ListNotations.
Local Open Scope string_scope.
Local Infix "++" := String.append (right associativity, at level 60).

(** ** Tables *)
Lemma tget_in k t v : tget k t = Some v -> In (k, v) t.
Proof.
  induction t as [|[k' v'] t IH]; [discriminate|]. cbn. destruct (String.eqb_spec k' k) as [->|N].
  - intros [= ->]. left. reflexivity.
  - intros H. right. apply IH. exact H.
Qed.
Lemma tget_none k t : tget k t = None <-> ~ has_key k t.
Proof.
  unfold has_key. induction t as [|[k' v'] t IH]; cbn; [tauto|]. destruct (String.eqb_spec k' k) as [->|N].
  - split; [discriminate|]. intros H. exfalso. apply H. left. reflexivity.
  - rewrite IH. split; [intros H [E|E]; [congruence|exact (H E)]|tauto].
Qed.
Lemma tget_key k t : has_key k t <-> exists v, tget k t = Some v.
Proof.
  split.
  - intros H. destruct (tget k t) as [v|] eqn:E; [exists v; reflexivity|]. apply tget_none in E. contradiction.
  - intros [v H]. apply tget_in in H. apply in_map_iff. exists (k, v). split; [reflexivity|exact H].
Qed.
Lemma in_tget k t v : NoDup (map fst t) -> In (k, v) t -> tget k t = Some v.
Proof.
  induction t as [|[k' v'] t IH]; intros N H; [destruct H|]. cbn in N. inversion N as [|? ? N1 N2]; subst.
  cbn. destruct H as [H|H].
  - injection H; intros -> ->. rewrite String.eqb_refl. reflexivity.
  - destruct (String.eqb_spec k' k) as [->|D]; [|apply IH; assumption].
    exfalso. apply N1. apply in_map_iff. exists (k, v). split; [reflexivity|exact H].
Qed.
Lemma known_iff ks k : known ks k = true <-> In k ks.
Proof.
  unfold known. rewrite existsb_exists. split.
  - intros (x & H & E). apply String.eqb_eq in E as ->. exact H.
  - intros H. exists k. split; [exact H|apply String.eqb_refl].
Qed.
Lemma when_nil b e : when b e = [] <-> b = false.
Proof. destruct b; cbn; split; congruence. Qed.

(** ** Decoding *)
Lemma field_req_ok {A} (f : tval -> outcome A) k t a : field_req f k t = Ok a -> exists v, tget k t = Some v /\ f v = Ok a.
Proof. unfold field_req. destruct (tget k t) as [v|]; [|discriminate]. intros H. exists v. split; [reflexivity|exact H]. Qed.
Lemma field_opt_ok {A} (f : tval -> outcome A) k t a : field_opt f k t = Ok a ->
  (tget k t = None /\ a = None) \/ exists v b, tget k t = Some v /\ f v = Ok b /\ a = Some b.
Proof.
  unfold field_opt. destruct (tget k t) as [v|]; [|intros [= <-]; left; split; reflexivity].
  destruct (f v) as [b| |] eqn:F; cbn [obind]; try discriminate. intros [= <-]. right. exists v, b. auto.
Qed.
Lemma field_def_ok {A} d (f : tval -> outcome A) k t a : field_def d f k t = Ok a ->
  (tget k t = None /\ a = d) \/ exists v, tget k t = Some v /\ f v = Ok a.
Proof.
  unfold field_def. destruct (tget k t) as [v|]; [|intros [= <-]; left; split; reflexivity].
  intros H. right. exists v. split; [reflexivity|exact H].
Qed.
Lemma de_from_ok {A} (f : string -> outcome A) v a : de_from f v = Ok a <-> exists s, v = TStr s /\ f s = Ok a.
Proof.
  unfold de_from, de_string. destruct v; cbn [obind]; split; try discriminate; try (intros (s0 & E & _); discriminate).
  - intros H. exists s. split; [reflexivity|exact H].
  - intros (s0 & E & H). injection E; intros ->. exact H.
Qed.
Lemma de_list_ok {A} (f : tval -> outcome A) v l : de_list f v = Ok l <-> exists vs, v = TArr vs /\ Forall2 (fun v a => f v = Ok a) vs l.
Proof.
  unfold de_list. destruct v; try (split; [discriminate|intros (? & E & _); discriminate]).
  rewrite omap_iff. split; [intros H; eexists; split; [reflexivity|exact H]|intros (vs & E & H); injection E; intros ->; exact H].
Qed.

(** What the decoded metadata says about the table. *)
Record decoded_meta (x : externals) (t : ttable) (m : metadata) : Prop := {
  dm_id : exists s, tget "id" t = Some (TStr s) /\ id_from_str s = Ok (m_id m);
  dm_package : tget "package" t = Some (TStr (m_package m));
  dm_date : tget "date" t = Some (TStr (m_date m));
  dm_categories : (tget "categories" t = None /\ m_categories m = []) \/
    exists ss, tget "categories" t = Some (TArr (map TStr ss)) /\ m_categories m = map category_from_str ss;
  dm_informational : (tget "informational" t = None /\ m_informational m = None) \/
    exists s, tget "informational" t = Some (TStr s) /\ m_informational m = Some (informational_from_str s);
  dm_withdrawn : m_withdrawn m = None <-> tget "withdrawn" t = None;
  dm_license : (tget "license" t = None /\ m_license m = CcZero10) \/
    exists s, tget "license" t = Some (TStr s) /\ m_license m = license_from_str s;
  dm_url : (tget "url" t = None /\ m_url m = None) \/ exists s u, tget "url" t = Some (TStr s) /\ m_url m = Some u }.
Lemma strings_decoded {A} (f : string -> A) vs l :
  Forall2 (fun v a => de_from (fun s => Ok (f s)) v = Ok a) vs l -> exists ss, vs = map TStr ss /\ l = map f ss.
Proof.
  induction 1 as [|v a vs l H _ IH]; [exists []; split; reflexivity|].
  apply de_from_ok in H as (s & -> & [= <-]). destruct IH as (ss & -> & ->). exists (s :: ss). split; reflexivity.
Qed.
Ltac bind H := match type of H with (obind ?o _) = Ok _ => let E := fresh "E" in destruct o eqn:E; cbn [obind] in H; [|discriminate|discriminate] end.
Lemma decode_metadata_ok x t m : decode_metadata x t = Ok m -> decoded_meta x t m.
Proof.
  unfold decode_metadata. intros H. do 18 bind H. apply (f_equal (fun o => match o with Ok a => a | _ => m end)) in H.
  rename H into M. cbv beta iota in M.
  split; rewrite <- M; cbn [m_id m_package m_date m_categories m_informational m_withdrawn m_license m_url].
  - apply field_req_ok in E as (v & T & F). apply de_from_ok in F as (s & -> & F). exists s. split; assumption.
  - apply field_req_ok in E0 as (v & T & F). unfold de_string in F. destruct v; try discriminate. injection F; intros ->. exact T.
  - apply field_req_ok in E3 as (v & T & F). apply de_from_ok in F as (s & -> & F). apply date_accept in F as [-> _]. exact T.
  - apply field_def_ok in E7 as [[T ->]|(v & T & F)]; [left; split; [exact T|reflexivity]|]. right.
    apply de_list_ok in F as (vs & -> & F). apply strings_decoded in F as (ss & -> & ->). exists ss. split; [exact T|reflexivity].
  - apply field_opt_ok in E10 as [[T ->]|(v & b & T & F & ->)]; [left; split; [exact T|reflexivity]|]. right.
    apply de_from_ok in F as (s & -> & [= <-]). exists s. split; [exact T|reflexivity].
  - apply field_opt_ok in E14 as [[T ->]|(v & b & T & F & ->)]; rewrite T; split; try reflexivity; discriminate.
  - apply field_def_ok in E15 as [[T ->]|(v & T & F)]; [left; split; [exact T|reflexivity]|]. right.
    apply de_from_ok in F as (s & -> & [= <-]). exists s. split; [exact T|reflexivity].
  - apply field_opt_ok in E13 as [[T ->]|(v & b & T & F & ->)]; [left; split; [exact T|reflexivity]|]. right.
    apply de_from_ok in F as (s & -> & _). exists s, b. split; [exact T|reflexivity].
Qed.

(** Function paths. *)
Lemma path_cmp_eq a b : path_cmp a b = Eq -> a = b.
Proof. unfold path_cmp. intros H. apply (cmp_eq_iff _ (list_cmp_laws _ str_cmp_laws)). exact H. Qed.
Lemma fmap_insert_keys {A} k (v : A) m p : In p (map fst (fmap_insert k v m)) <-> p = k \/ In p (map fst m).
Proof.
  induction m as [|[k' v'] m IH]; cbn [fmap_insert map]; [cbn; intuition congruence|].
  destruct (path_cmp k k') eqn:E; cbn [map fst In].
  - apply path_cmp_eq in E as ->. intuition congruence.
  - intuition congruence.
  - rewrite IH. intuition congruence.
Qed.
Lemma decode_functions_keys x t : forall m r, decode_functions x t m = Ok r ->
  (forall p, In p (map fst r) <-> In p (map fst m) \/ exists k, has_key k t /\ path_from_str k = Ok p) /\
  (forall k, has_key k t -> exists p, path_from_str k = Ok p).
Proof.
  induction t as [|[k v] t IH]; intros m r H; cbn [decode_functions] in H.
  - injection H; intros <-. split; [|intros k []]. intros p. split; [tauto|]. intros [K|(k & [] & _)]. exact K.
  - bind H. bind H. destruct (IH _ _ H) as [IH1 IH2]. split.
    + intros p. rewrite IH1, fmap_insert_keys. unfold has_key. cbn [map fst In]. split.
      * intros [[->|P]|(k' & K & P)]; [right; exists k; split; [left; reflexivity|exact E]|left; exact P|right; exists k'; split; [right; exact K|exact P]].
      * intros [P|(k' & [<-|K] & P)]; [left; right; exact P|left; left; congruence|right; exists k'; split; assumption].
    + intros k' [<-|K]; [exists a; exact E|exact (IH2 _ K)].
Qed.
Lemma path_first k s r : path_from_str k = Ok (s :: r) -> forall c, s = c <-> has_prefix (c ++ "::") k /\ has_char ":" c = false.
Proof.
  intros H c. apply C53_parse_iff in H as (-> & L & I). destruct r as [|s2 r]; [cbn in L; lia|].
  rewrite joined_cons. pose proof (identifier_no_colon _ (I s (or_introl eq_refl))) as NC. split.
  - intros <-. split; [|exact NC]. exists (joined (s2 :: r)). rewrite sapp_assoc. reflexivity.
  - intros [[t E] C]. rewrite sapp_assoc in E.
    assert (E1 : split_colons (s ++ "::" ++ joined (s2 :: r)) = split_colons (c ++ "::" ++ t)) by (f_equal; exact E).
    rewrite !split_colons_app in E1 by assumption. congruence.
Qed.
Record decoded_affected (x : externals) (v : tval) (a : affected) : Prop := {
  da_table : exists t, v = TTab t /\
    ((tget "arch" t = None /\ af_arch a = []) \/ tget "arch" t = Some (TArr (map TStr (af_arch a)))) /\
    ((tget "os" t = None /\ af_os a = []) \/ tget "os" t = Some (TArr (map TStr (af_os a)))) /\
    ((tget "functions" t = None /\ af_functions a = []) \/
     exists ft, tget "functions" t = Some (TTab ft) /\
       (forall p, In p (map fst (af_functions a)) <-> exists k, has_key k ft /\ path_from_str k = Ok p) /\
       (forall k, has_key k ft -> exists p, path_from_str k = Ok p)) }.
Lemma de_strings l ss : Forall2 (fun v a => de_string v = Ok a) l ss -> l = map TStr ss.
Proof.
  induction 1 as [|v a vs r H _ IH]; [reflexivity|]. rewrite IH. unfold de_string in H. destruct v; try discriminate.
  injection H; intros ->. reflexivity.
Qed.
Lemma decode_affected_ok x v a : decode_affected x v = Ok a -> decoded_affected x v a.
Proof.
  unfold decode_affected. destruct v as [| | | |t]; try discriminate. intros H. bind H. bind H. bind H. injection H; intros <-.
  split. exists t. split; [reflexivity|]. cbn [af_arch af_os af_functions]. split; [|split].
  - apply field_def_ok in E as [[T ->]|(v & T & F)]; [left; split; [exact T|reflexivity]|]. right.
    apply de_list_ok in F as (vs & -> & F). apply de_strings in F as ->. exact T.
  - apply field_def_ok in E0 as [[T ->]|(v & T & F)]; [left; split; [exact T|reflexivity]|]. right.
    apply de_list_ok in F as (vs & -> & F). apply de_strings in F as ->. exact T.
  - apply field_def_ok in E1 as [[T ->]|(v & T & F)]; [left; split; [exact T|reflexivity]|]. right.
    destruct v as [| | | |ft]; try discriminate. exists ft. split; [exact T|]. destruct (decode_functions_keys _ _ _ _ F) as [K1 K2].
    split; [|exact K2]. intros p. rewrite K1. cbn. split; [intros [[]|K]; exact K|intros K; right; exact K].
Qed.

(** ** The metadata section *)
Section Meta.
  Context (adv : full_advisory) (draft : option bool).
  Let m := f_meta adv.
  Lemma lint_entry_not_err year kv : lint_entry adv draft year kv <> Err.
  Proof.
    destruct kv as [k v]. unfold lint_entry.
    destruct (String.eqb k "id").
    { destruct (id_kind_eqb (id_kind_of (m_id (f_meta adv))) KOther); [discriminate|].
      destruct (id_year (m_id (f_meta adv))); [|discriminate].
      destruct (id_kind_eqb (id_kind_of (m_id (f_meta adv))) KCve); [discriminate|]. destruct year; discriminate. }
    destruct (String.eqb k "categories"); [discriminate|]. destruct (String.eqb k "collection"); [discriminate|].
    destruct (String.eqb k "informational"); [destruct (m_informational (f_meta adv)) as [[]|]; discriminate|].
    destruct (String.eqb k "url"); [discriminate|].
    destruct (String.eqb k "date").
    { unfold date_year, date_component. destruct (nth_error (split_on "-" (m_date (f_meta adv))) 0) as [s|]; [|discriminate].
      destruct (parse_u32 s); cbn [obind]; [destruct year; discriminate|discriminate]. }
    destruct (String.eqb k "yanked"); [discriminate|]. destruct (String.eqb k "license"); [discriminate|].
    destruct (known SILENT k); discriminate.
  Qed.
  (** A year that is already known only adds the mismatch. *)
  Lemma entry_with_year y kv es c : lint_entry adv draft None kv = Ok (es, c) ->
    exists es', lint_entry adv draft (Some y) kv = Ok (es', Some y) /\
      (es' = [] <-> es = [] /\ forall c', c = Some c' -> c' = y).
  Proof.
    destruct kv as [k v]. unfold lint_entry.
    assert (NONE : forall es0 : list lint_error, es0 = es -> None = c -> exists es', Ok (es0, Some y) = Ok (es', Some y) /\ (es' = [] <-> es = [] /\ forall c' : N, c = Some c' -> c' = y)).
    { intros es0 -> <-. exists es. split; [reflexivity|]. split; [intros ->; split; [reflexivity|discriminate]|tauto]. }
    destruct (String.eqb k "id").
    - destruct (id_kind_eqb (id_kind_of (m_id (f_meta adv))) KOther); [intros [= <- <-]; apply NONE; reflexivity|].
      destruct (id_year (m_id (f_meta adv))) as [y1|]; [|intros [= <- <-]; apply NONE; reflexivity].
      destruct (id_kind_eqb (id_kind_of (m_id (f_meta adv))) KCve); [intros [= <- <-]; apply NONE; reflexivity|].
      intros [= <- <-]. eexists. split; [reflexivity|]. split.
      + intros H. apply app_eq_nil in H as [-> H]. apply when_nil, negb_false_iff, N.eqb_eq in H as ->. split; [reflexivity|].
        intros c' [= ->]. reflexivity.
      + intros [-> H]. rewrite (H y1 eq_refl), N.eqb_refl. reflexivity.
    - destruct (String.eqb k "categories"); [intros [= <- <-]; apply NONE; reflexivity|].
      destruct (String.eqb k "collection"); [intros [= <- <-]; apply NONE; reflexivity|].
      destruct (String.eqb k "informational").
      { destruct (m_informational (f_meta adv)) as [[]|]; try discriminate; intros [= <- <-]; apply NONE; reflexivity. }
      destruct (String.eqb k "url"); [intros [= <- <-]; apply NONE; reflexivity|].
      destruct (String.eqb k "date").
      { destruct (date_year (m_date (f_meta adv))) as [y1| |]; cbn [obind]; try discriminate. intros [= <- <-].
        eexists. split; [reflexivity|]. split.
        - intros H. apply when_nil, negb_false_iff, N.eqb_eq in H as ->. split; [reflexivity|]. intros c' [= ->]. reflexivity.
        - intros [_ H]. rewrite (H y1 eq_refl), N.eqb_refl. reflexivity. }
      destruct (String.eqb k "yanked"); [intros [= <- <-]; apply NONE; reflexivity|].
      destruct (String.eqb k "license"); [intros [= <- <-]; apply NONE; reflexivity|].
      destruct (known SILENT k); intros [= <- <-]; apply NONE; reflexivity.
  Qed.
  Lemma entry_panic year kv : lint_entry adv draft year kv = Panic <-> lint_entry adv draft None kv = Panic.
  Proof.
    destruct year as [y|]; [|reflexivity]. destruct (lint_entry adv draft None kv) as [[es c]| |] eqn:E.
    - destruct (entry_with_year y kv es c E) as (es' & -> & _). split; discriminate.
    - exfalso. exact (lint_entry_not_err _ _ E).
    - split; [reflexivity|]. intros _. revert E. destruct kv as [k v]. unfold lint_entry.
      destruct (String.eqb k "id").
      { destruct (id_kind_eqb (id_kind_of (m_id (f_meta adv))) KOther); [discriminate|].
        destruct (id_year (m_id (f_meta adv))); [|discriminate]. destruct (id_kind_eqb (id_kind_of (m_id (f_meta adv))) KCve); discriminate. }
      destruct (String.eqb k "categories"); [discriminate|]. destruct (String.eqb k "collection"); [discriminate|].
      destruct (String.eqb k "informational").
      { destruct (m_informational (f_meta adv)) as [[]|]; try discriminate; reflexivity. }
      destruct (String.eqb k "url"); [discriminate|]. destruct (String.eqb k "date").
      { destruct (date_year (m_date (f_meta adv))); cbn [obind]; try discriminate; reflexivity. }
      destruct (String.eqb k "yanked"); [discriminate|]. destruct (String.eqb k "license"); [discriminate|].
      destruct (known SILENT k); discriminate.
  Qed.
  Definition gives (kv : string * tval) (c : N) : Prop := exists es, lint_entry adv draft None kv = Ok (es, Some c).
  Lemma lint_entries_spec t : forall year es, lint_entries adv draft year t = Ok es ->
    (es = [] <-> (forall kv, In kv t -> exists c, lint_entry adv draft None kv = Ok ([], c))
                 /\ (forall kv c y, In kv t -> gives kv c -> year = Some y -> c = y)
                 /\ (forall kv kv' c c', In kv t -> In kv' t -> gives kv c -> gives kv' c' -> c = c')).
  Proof.
    induction t as [|kv t IH]; intros year es H; cbn [lint_entries] in H.
    - injection H; intros <-. split; [|reflexivity]. intros _. repeat apply conj; intros; contradiction.
    - bind H. destruct a as [e1 y1]. bind H. cbn [fst snd] in *. injection H; intros <-. clear H. specialize (IH _ _ E0).
      destruct year as [y|].
      + destruct (lint_entry adv draft None kv) as [[e0 c0]| |] eqn:E1;
          [|exfalso; exact (lint_entry_not_err _ _ E1)|exfalso; apply (entry_panic (Some y)) in E1; congruence].
        destruct (entry_with_year y _ _ _ E1) as (e' & E2 & W). rewrite E in E2. injection E2; intros -> ->.
        split.
        * intros H. apply app_eq_nil in H as [-> ->]. destruct (proj1 W eq_refl) as [-> W2].
          destruct (proj1 IH eq_refl) as (A & B & C).
          assert (GK : forall c, gives kv c -> c = y).
          { intros c [es G]. rewrite E1 in G. injection G; intros G2 _. apply W2. exact G2. }
          assert (GA : forall kv0 c, In kv0 (kv :: t) -> gives kv0 c -> c = y).
          { intros kv0 c [<-|I] G; [exact (GK c G)|exact (B kv0 c y I G eq_refl)]. }
          repeat apply conj.
          -- intros kv0 [<-|I]; [exists c0; exact E1|exact (A _ I)].
          -- intros kv0 c y' I G [= <-]. exact (GA _ _ I G).
          -- intros kv1 kv2 c c' I I' G G'. rewrite (GA _ _ I G), (GA _ _ I' G'). reflexivity.
        * intros (A & B & C). destruct (A kv (or_introl eq_refl)) as [c A1]. rewrite E1 in A1. injection A1; intros -> ->.
          assert (X : e' = []). { apply W. split; [reflexivity|]. intros c' ->. apply (B kv c' y (or_introl eq_refl)); [|reflexivity]. exists []. exact E1. }
          rewrite X. apply IH. repeat apply conj.
          -- intros kv0 I. apply A. right. exact I.
          -- intros kv0 c1 y' I G [= <-]. apply (B kv0 c1 y (or_intror I) G eq_refl).
          -- intros kv1 kv2 c1 c2 I I'. apply C; right; assumption.
      + split.
        * intros H. apply app_eq_nil in H as [-> ->]. destruct (proj1 IH eq_refl) as (A & B & C).
          assert (GK : forall c, gives kv c -> y1 = Some c).
          { intros c [es G]. rewrite E in G. injection G; intros -> _. reflexivity. }
          repeat apply conj.
          -- intros kv0 [<-|I]; [exists y1; exact E|exact (A _ I)].
          -- intros ? ? ? _ _ [=].
          -- intros kv1 kv2 c c' [<-|I] [<-|I'] G G'.
             ++ apply GK in G. apply GK in G'. congruence.
             ++ apply GK in G. symmetry. exact (B _ _ _ I' G' G).
             ++ apply GK in G'. exact (B _ _ _ I G G').
             ++ exact (C _ _ _ _ I I' G G').
        * intros (A & B & C). destruct (A kv (or_introl eq_refl)) as [c A1]. rewrite E in A1. injection A1; intros -> ->.
          cbn [List.app]. apply IH. repeat apply conj.
          -- intros kv0 I. apply A. right. exact I.
          -- intros kv0 c1 y' I G ->. apply (C kv0 kv c1 y' (or_intror I) (or_introl eq_refl) G). exists []. exact E.
          -- intros kv1 kv2 c1 c2 I I'. apply C; right; assumption.
  Qed.
  Lemma lint_entries_no_panic t : (forall kv, In kv t -> lint_entry adv draft None kv <> Panic) ->
    forall year, exists es, lint_entries adv draft year t = Ok es.
  Proof.
    induction t as [|kv t IH]; intros H year; cbn [lint_entries]; [exists []; reflexivity|].
    destruct (lint_entry adv draft year kv) as [[e y]| |] eqn:E; cbn [obind].
    - destruct (IH (fun kv' I => H kv' (or_intror I)) y) as [es X]. cbn [snd fst]. rewrite X. eexists. reflexivity.
    - exfalso. exact (lint_entry_not_err _ _ E).
    - apply entry_panic in E. exfalso. exact (H kv (or_introl eq_refl) E).
  Qed.

  (** What makes an entry acceptable by itself. *)
  Record entry_ok (k : string) (v : tval) : Prop := {
    eo_key : In k ADVISORY_KEYS;
    eo_id : k = "id" -> id_kind_of (m_id m) <> KOther /\ forall d, draft = Some d -> is_placeholder (m_id m) = d;
    eo_categories : k = "categories" -> forall c, In c (m_categories m) -> is_cat_other c = false;
    eo_informational : k = "informational" -> exists i, m_informational m = Some i /\ forall s, i <> IOther s;
    eo_url : k = "url" -> forall s, v = TStr s -> starts_with "https://" s = true;
    eo_date : k = "date" -> exists y, date_year (m_date m) = Ok y;
    eo_yanked : k = "yanked" -> m_withdrawn m <> None;
    eo_license : k = "license" -> forall s, v = TStr s -> is_lic_other (license_from_str s) = false }.
  Lemma kind_eqb a b : id_kind_eqb a b = true <-> a = b.
  Proof. destruct a, b; cbn; split; congruence. Qed.
  Ltac other_keys := repeat match goal with N : ?k <> ?s |- ?k = ?s -> _ => intros; contradiction end.
  Lemma entry_ok_iff k v : (exists c, lint_entry adv draft None (k, v) = Ok ([], c)) <-> entry_ok k v.
  Proof.
    unfold lint_entry.
    destruct (String.eqb_spec k "id") as [->|N1].
    { split.
      - intros [c H]. destruct (id_kind_eqb (id_kind_of (m_id (f_meta adv))) KOther) eqn:K.
        { injection H; intros _ X. apply app_eq_nil in X as [_ X]. discriminate. }
        assert (D : forall d, draft = Some d -> is_placeholder (m_id m) = d).
        { intros d ->.
          assert (Y : when (negb (Bool.eqb (is_placeholder (m_id (f_meta adv))) d))
                        (value_error "advisory" "id" "advisory ID draft status does not match file name") = []).
          { destruct (id_year (m_id (f_meta adv))); [destruct (id_kind_eqb (id_kind_of (m_id (f_meta adv))) KCve)|];
              apply (f_equal (fun o => match o with Ok (a, _) => a | _ => [] end)) in H; exact H. }
          apply when_nil, negb_false_iff, eqb_prop in Y. exact Y. }
        split; try discriminate; [cbn; tauto|]. intros _. split; [|exact D]. intros X. apply kind_eqb in X. unfold m in X. congruence.
      - intros H. destruct (eo_id _ _ H eq_refl) as [K D].
        assert (KE : id_kind_eqb (id_kind_of (m_id (f_meta adv))) KOther = false).
        { destruct (id_kind_eqb (id_kind_of (m_id (f_meta adv))) KOther) eqn:X; [|reflexivity]. apply kind_eqb in X. contradiction. }
        rewrite KE.
        assert (E1 : match draft with Some d => when (negb (Bool.eqb (is_placeholder (m_id (f_meta adv))) d))
           (value_error "advisory" "id" "advisory ID draft status does not match file name") | None => [] end = []).
        { destruct draft as [d|]; [|reflexivity]. rewrite <- (D d eq_refl). unfold m. rewrite eqb_reflx. reflexivity. }
        rewrite E1. destruct (id_year (m_id (f_meta adv))); [destruct (id_kind_eqb (id_kind_of (m_id (f_meta adv))) KCve)|]; eexists; reflexivity. }
    destruct (String.eqb_spec k "categories") as [->|N2].
    { split.
      - intros [c H]. split; try discriminate; [cbn; tauto|]. intros _ c' I. destruct (is_cat_other c') eqn:X; [|reflexivity].
        assert (Y : In c' (filter is_cat_other (m_categories (f_meta adv)))) by (apply filter_In; split; assumption).
        injection H; intros _ Z. apply map_eq_nil in Z. rewrite Z in Y. destruct Y.
      - intros H. exists None. f_equal. f_equal. assert (X : filter is_cat_other (m_categories (f_meta adv)) = []).
        { pose proof (eo_categories _ _ H eq_refl) as C. fold m. induction (m_categories m) as [|c l IH]; [reflexivity|].
          cbn. rewrite (C c (or_introl eq_refl)). apply IH. intros c' I. apply C. right. exact I. }
        rewrite X. reflexivity. }
    destruct (String.eqb_spec k "collection") as [->|N3].
    { split; [intros [c H]; discriminate|]. intros H. pose proof (eo_key _ _ H) as K. cbn in K.
      repeat (destruct K as [K|K]; [discriminate|]). destruct K. }
    destruct (String.eqb_spec k "informational") as [->|N4].
    { split.
      - intros [c H]. split; try discriminate; [cbn; tauto|]. intros _. unfold m. destruct (m_informational (f_meta adv)) as [i|]; [|discriminate].
        exists i. split; [reflexivity|]. intros s ->. discriminate.
      - intros H. destruct (eo_informational _ _ H eq_refl) as (i & I & O). unfold m in I. rewrite I. exists None.
        destruct i; try reflexivity. exfalso. exact (O _ eq_refl). }
    destruct (String.eqb_spec k "url") as [->|N5].
    { split.
      - intros [c H]. split; try discriminate; [cbn; tauto|]. intros _ s ->. injection H; intros _ X. apply when_nil, negb_false_iff in X. exact X.
      - intros H. exists None. destruct v; try reflexivity. rewrite (eo_url _ _ H eq_refl s eq_refl). reflexivity. }
    destruct (String.eqb_spec k "date") as [->|N6].
    { split.
      - intros [c H]. split; try discriminate; [cbn; tauto|]. intros _. unfold m. destruct (date_year (m_date (f_meta adv))) as [y| |]; try discriminate.
        exists y. reflexivity.
      - intros H. destruct (eo_date _ _ H eq_refl) as [y Y]. unfold m in Y. rewrite Y. exists (Some y). reflexivity. }
    destruct (String.eqb_spec k "yanked") as [->|N7].
    { split.
      - intros [c H]. split; try discriminate; [cbn; tauto|]. intros _ X. unfold m in X. rewrite X in H. discriminate.
      - intros H. exists None. pose proof (eo_yanked _ _ H eq_refl) as Y. unfold m in Y. destruct (m_withdrawn (f_meta adv)); [reflexivity|congruence]. }
    destruct (String.eqb_spec k "license") as [->|N8].
    { split.
      - intros [c H]. split; try discriminate; [cbn; tauto|]. intros _ s ->. injection H; intros _ X. apply when_nil in X. exact X.
      - intros H. exists None. destruct v; try reflexivity. rewrite (eo_license _ _ H eq_refl s eq_refl). reflexivity. }
    destruct (known SILENT k) eqn:S.
    - split; [|intros _; exists None; reflexivity]. intros _. split; other_keys. apply known_iff in S. revert S. cbn. clear. tauto.
    - split; [intros [c H]; discriminate|]. intros H. exfalso. pose proof (eo_key _ _ H) as K.
      assert (X : known SILENT k = true); [|congruence]. apply known_iff. clear -K N1 N2 N3 N4 N5 N6 N7 N8. cbn in K |- *.
      repeat (destruct K as [K|K]; [try (exfalso; congruence); tauto|]). destruct K.
  Qed.
  Lemma gives_iff k v c : gives (k, v) c <->
    (k = "id" /\ id_kind_of (m_id m) <> KOther /\ id_kind_of (m_id m) <> KCve /\ id_year (m_id m) = Some c)
    \/ (k = "date" /\ date_year (m_date m) = Ok c).
  Proof.
    unfold gives, lint_entry.
    destruct (String.eqb_spec k "id") as [->|N1].
    { split.
      - intros [es H]. left. split; [reflexivity|]. unfold m.
        destruct (id_kind_eqb (id_kind_of (m_id (f_meta adv))) KOther) eqn:K; [discriminate|].
        destruct (id_year (m_id (f_meta adv))) as [y|]; [|discriminate].
        destruct (id_kind_eqb (id_kind_of (m_id (f_meta adv))) KCve) eqn:K2; [discriminate|].
        injection H; intros -> _. repeat apply conj; [| |reflexivity]; intros X; apply kind_eqb in X; congruence.
      - intros [(_ & K & K2 & Y)|[X _]]; [|discriminate]. unfold m in *.
        destruct (id_kind_eqb (id_kind_of (m_id (f_meta adv))) KOther) eqn:X; [apply kind_eqb in X; contradiction|].
        rewrite Y. destruct (id_kind_eqb (id_kind_of (m_id (f_meta adv))) KCve) eqn:X2; [apply kind_eqb in X2; contradiction|].
        eexists. reflexivity. }
    destruct (String.eqb_spec k "date") as [->|N6].
    { cbn [String.eqb Ascii.eqb Bool.eqb andb]. split.
      - intros [es H]. right. split; [reflexivity|]. unfold m. cbn in H. destruct (date_year (m_date (f_meta adv))) as [y| |]; cbn [obind] in H; try discriminate.
        injection H; intros -> _. reflexivity.
      - intros [[X _]|[_ X]]; [discriminate|]. unfold m in X. cbn. rewrite X. eexists. reflexivity. }
    split; [|intros [[X _]|[X _]]; contradiction].
    intros [es H]. exfalso. revert H.
    destruct (String.eqb k "categories"); [discriminate|]. destruct (String.eqb k "collection"); [discriminate|].
    destruct (String.eqb k "informational"); [destruct (m_informational (f_meta adv)) as [[]|]; discriminate|].
    destruct (String.eqb k "url"); [discriminate|]. destruct (String.eqb k "yanked"); [discriminate|].
    destruct (String.eqb k "license"); [discriminate|]. destruct (known SILENT k); discriminate.
  Qed.
End Meta.
