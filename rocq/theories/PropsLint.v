(** C55: the advisory linter. *)
From Coq Require Import List NArith Ascii String Bool Arith Lia.
From Verif Require Import Base StrLib IdModel IdSpec IdProofs PkgModel DbModel UrlModel CvssText CvssTextProofs PartsModel
  PartsSpec PropsParts PlatData ScanModel PropsScan AssignModel AdvModel LintModel LintSpec LintProofs LintProofs2.
Import ListNotations.
Local Open Scope string_scope.
Local Infix "++" := String.append (right associativity, at level 60).

(** ** The sections, by document *)
Lemma category_known s : is_cat_other (category_from_str s) = false <-> In s CATEGORIES.
Proof.
  unfold category_from_str, CATEGORIES.
  repeat match goal with |- context [String.eqb s ?c] => destruct (String.eqb_spec s c) as [->|]; [cbn; tauto|] end.
  cbn. split; [discriminate|]. intros H. repeat (destruct H as [H|H]; [congruence|]). destruct H.
Qed.
Lemma informational_known s : (forall o, informational_from_str s <> IOther o) <-> In s INFORMATIONAL.
Proof.
  unfold informational_from_str, INFORMATIONAL.
  repeat match goal with |- context [String.eqb s ?c] => destruct (String.eqb_spec s c) as [->|]; [split; [cbn; tauto|intros _ o; discriminate]|] end.
  split; [intros H; exfalso; exact (H s eq_refl)|]. intros H. exfalso. cbn in H. repeat (destruct H as [H|H]; [congruence|]). destruct H.
Qed.
Lemma license_known s : is_lic_other (license_from_str s) = false <-> In s LICENSES.
Proof.
  unfold license_from_str, LICENSES.
  repeat match goal with |- context [String.eqb s ?c] => destruct (String.eqb_spec s c) as [->|]; [cbn; tauto|] end.
  cbn. split; [discriminate|]. intros H. repeat (destruct H as [H|H]; [congruence|]). destruct H.
Qed.
Lemma detect_known s : detect s <> KOther <->
  has_prefix "RUSTSEC-" s \/ has_prefix "CVE-" s \/ has_prefix "TALOS-" s \/ has_prefix "GHSA-" s.
Proof.
  pose proof (detect_spec s) as D. destruct (detect s); split; try discriminate; try tauto.
Qed.
Lemma dash_numeral ys1 ns1 ys2 ns2 y m : u32_numeral ys1 y -> u32_numeral ys2 m -> ys1 ++ "-" ++ ns1 = ys2 ++ "-" ++ ns2 ->
  ys1 = ys2 /\ ns1 = ns2.
Proof.
  intros H1 H2 E. apply u32_numeral_nodash in H1, H2.
  assert (S : split_once "-" (ys1 ++ String "-" ns1) = split_once "-" (ys2 ++ String "-" ns2)) by (f_equal; exact E).
  rewrite (proj2 (split_once_spec "-" _ ys1 ns1) (conj eq_refl H1)), (proj2 (split_once_spec "-" _ ys2 ns2) (conj eq_refl H2)) in S.
  injection S; auto.
Qed.
Lemma u32_numeral_fun s y y' : u32_numeral s y -> u32_numeral s y' -> y = y'.
Proof. rewrite <- !parse_u32_iff. congruence. Qed.
(** The year a date is asked for is the number before the first dash. *)
Lemma date_year_iff d y : date_year d = Ok y <->
  exists ds, (d = ds \/ exists r, d = ds ++ "-" ++ r) /\ has_char "-" ds = false /\ u32_numeral ds y.
Proof.
  unfold date_year, date_component.
  assert (X : forall ds, (d = ds \/ exists r, d = ds ++ "-" ++ r) /\ has_char "-" ds = false <-> nth_error (split_on "-" d) 0 = Some ds).
  { intros ds. split.
    - intros [[->|[r ->]] N]; [rewrite split_on_nochar by exact N; reflexivity|].
      change (ds ++ "-" ++ r) with (ds ++ String "-" r). rewrite split_on_app by exact N. reflexivity.
    - intros H. pose proof (join_split "-" d) as J. destruct (split_on "-" d) as [|h t] eqn:E; [discriminate|].
      injection H; intros ->. split; [|apply (split_on_parts "-" d); rewrite E; left; reflexivity].
      destruct t as [|h2 t]; [left; symmetry; exact J|]. right. rewrite join_cons2 in J. eexists. symmetry. exact J. }
  split.
  - destruct (nth_error (split_on "-" d) 0) as [ds|]; [|discriminate]. destruct (parse_u32 ds) as [n|] eqn:P; [|discriminate].
    intros [= <-]. exists ds. destruct (proj2 (X ds) eq_refl) as [A B]. repeat apply conj; [exact A|exact B|]. apply parse_u32_iff. exact P.
  - intros (ds & A & B & C). rewrite (proj1 (X ds) (conj A B)). apply parse_u32_iff in C. rewrite C. reflexivity.
Qed.

Lemma metadata_clean x t adv draft es : NoDup (map fst t) -> decoded_meta x t (f_meta adv) ->
  lint_metadata adv draft (TTab t) = Ok es -> (es = [] <-> clean_metadata t draft).
Proof.
  intros ND D H. cbn [lint_metadata] in H. rewrite (lint_entries_spec adv draft t None es H). set (m := f_meta adv) in *.
  destruct (dm_id _ _ _ D) as (ids & Tid & Pid). destruct (id_roundtrip _ _ Pid) as (I1 & I2 & I3).
  pose proof (dm_date _ _ _ D) as Td.
  assert (OK : (forall kv, In kv t -> exists c, lint_entry adv draft None kv = Ok ([], c)) <-> (forall k v, tget k t = Some v -> entry_ok adv draft k v)).
  { split.
    - intros A k v T. apply entry_ok_iff. apply A. apply tget_in. exact T.
    - intros A [k v] I. apply entry_ok_iff. apply A. apply in_tget; assumption. }
  rewrite OK. split.
  - intros (A & _ & C). split.
    + intros k K. apply tget_key in K as [v K]. exact (eo_key _ _ _ _ (A _ _ K)).
    + intros id T. rewrite Tid in T. injection T; intros <-. destruct (eo_id _ _ _ _ (A _ _ Tid) eq_refl) as [E1 E2]. fold m in E1, E2. split.
      * apply detect_known. rewrite <- I2. exact E1.
      * intros d Ed. rewrite <- (E2 d Ed). exact I3.
    + intros kind ys ns date ds y Tk Kk NP Ny Tdate Sd Nd. rewrite Tid in Tk. injection Tk; intros ->. rewrite Td in Tdate. injection Tdate; intros <-.
      assert (DP : dated_prefix (detect (kind ++ "-" ++ ys ++ "-" ++ ns)) = Some kind) by (destruct Kk as [->| ->]; reflexivity).
      destruct (proj1 (id_dated_iff _ _ NP DP _) Pid) as (ys' & ns' & y' & mm & E & N1 & N2 & _ & EI).
      assert (EY : ys = ys' /\ ns = ns').
      { apply (dash_numeral ys ns ys' ns' y y' Ny N1). apply (sapp_inj_l (kind ++ "-")). rewrite !sapp_assoc. exact E. }
      destruct EY as [<- <-]. pose proof (u32_numeral_fun _ _ _ Ny N1) as <-.
      destruct (eo_date _ _ _ _ (A _ _ Td) eq_refl) as [dy Dy]. fold m in Dy.
      assert (EQ : y = dy).
      { apply (C ("id", TStr (kind ++ "-" ++ ys ++ "-" ++ ns)) ("date", TStr (m_date m))); [apply tget_in; exact Tid|apply tget_in; exact Td| |];
          apply gives_iff; fold m.
        - left. split; [reflexivity|]. rewrite EI. cbn [id_kind_of id_year]. destruct Kk as [->| ->]; repeat apply conj; try reflexivity; discriminate.
        - right. split; [reflexivity|exact Dy]. }
      subst dy. apply date_year_iff in Dy as (ds' & S' & N' & U').
      assert (ds = ds') as ->; [|exact U'].
      assert (SP : forall z, (m_date m = z \/ (exists r, m_date m = z ++ "-" ++ r)) -> has_char "-" z = false -> nth_error (split_on "-" (m_date m)) 0 = Some z).
      { intros z [->|[r ->]] NZ; [rewrite split_on_nochar by exact NZ; reflexivity|].
        change (z ++ "-" ++ r) with (z ++ String "-" r). rewrite split_on_app by exact NZ. reflexivity. }
      pose proof (SP ds Sd Nd) as P1. pose proof (SP ds' S' N') as P2. congruence.
    + intros l s T I. destruct (dm_categories _ _ _ D) as [[T' _]|(ss & T' & M)]; [congruence|]. rewrite T' in T. injection T; intros <-.
      apply category_known. apply (eo_categories _ _ _ _ (A _ _ T') eq_refl). fold m. rewrite M. apply in_map.
      apply in_map_iff in I as (s' & [= ->] & I). exact I.
    + intros s T. destruct (dm_informational _ _ _ D) as [[T' _]|(s' & T' & M)]; [congruence|]. rewrite T' in T. injection T; intros ->.
      destruct (eo_informational _ _ _ _ (A _ _ T') eq_refl) as (i & Ei & O). fold m in Ei. rewrite M in Ei. injection Ei; intros <-.
      apply informational_known. exact O.
    + intros s T. unfold has_prefix. apply starts_with_spec. exact (eo_url _ _ _ _ (A _ _ T) eq_refl s eq_refl).
    + intros s T. apply license_known. exact (eo_license _ _ _ _ (A _ _ T) eq_refl s eq_refl).
    + intros K. apply tget_key in K as [v K]. pose proof (eo_yanked _ _ _ _ (A _ _ K) eq_refl) as W. fold m in W.
      destruct (tget "withdrawn" t) as [w|] eqn:Tw; [apply tget_key; exists w; exact Tw|].
      exfalso. apply W. apply (dm_withdrawn _ _ _ D). exact Tw.
  - intros CM.
    assert (DY : exists y, date_year (m_date m) = Ok y).
    { destruct (lint_entry adv draft None ("date", TStr (m_date m))) as [[e c]| |] eqn:E.
      - cbn in E. fold m in E. destruct (date_year (m_date m)) as [y| |]; cbn in E; try discriminate. exists y. reflexivity.
      - exfalso. exact (lint_entry_not_err _ _ _ _ E).
      - exfalso. clear -E H Td. apply tget_in in Td. revert H Td. generalize (@None N) as yr. revert es.
        induction t as [|kv t IH]; intros es yr H I; [destruct I|]. cbn [lint_entries] in H.
        destruct (lint_entry adv draft yr kv) as [[e1 y1]| |] eqn:E1; cbn [obind] in H; try discriminate.
        destruct (lint_entries adv draft (snd (e1, y1)) t) as [e2| |] eqn:E2; cbn [obind] in H; try discriminate.
        destruct I as [->|I]; [apply (entry_panic adv draft yr) in E; congruence|]. exact (IH _ _ E2 I). }
    destruct DY as [dy Dy].
    assert (EO : forall k v, tget k t = Some v -> entry_ok adv draft k v).
    { intros k v T. split; fold m.
      - apply (cm_keys _ _ CM). apply tget_key. exists v. exact T.
      - intros ->. rewrite Tid in T. injection T; intros <-. destruct (cm_id _ _ CM _ Tid) as [P1 P2]. split.
        + rewrite I2. apply detect_known. exact P1.
        + intros d Ed. specialize (P2 d Ed). change "RUSTSEC-0000-0000" with placeholder in P2. destruct d, (is_placeholder (m_id m)); try reflexivity.
          * exfalso. destruct P2 as [P2 _]. specialize (P2 eq_refl). apply I3 in P2. discriminate.
          * exfalso. destruct P2 as [_ P2]. destruct I3 as [I3 _]. specialize (P2 (I3 eq_refl)). discriminate.
      - intros -> c I. destruct (dm_categories _ _ _ D) as [[T' M]|(ss & T' & M)]; fold m in M; [rewrite M in I; destruct I|].
        rewrite M in I. apply in_map_iff in I as (s & <- & I). apply category_known. apply (cm_categories _ _ CM _ s T'). apply in_map. exact I.
      - intros ->. destruct (dm_informational _ _ _ D) as [[T' M]|(s & T' & M)]; [congruence|]. fold m in M. eexists. split; [exact M|].
        apply informational_known. apply (cm_informational _ _ CM). exact T'.
      - intros -> s ->. apply starts_with_spec. apply (cm_url _ _ CM s T).
      - intros _. exists dy. exact Dy.
      - intros -> W. apply (dm_withdrawn _ _ _ D) in W. apply tget_none in W. apply W. apply (cm_yanked _ _ CM). apply tget_key. exists v. exact T.
      - intros -> s ->. apply license_known. apply (cm_license _ _ CM s T). }
    split; [exact EO|]. split; [discriminate|].
    assert (YR : forall c, id_kind_of (m_id m) <> KOther -> id_kind_of (m_id m) <> KCve -> id_year (m_id m) = Some c -> c = dy).
    { intros c K1 K2 Y. destruct (String.eqb_spec ids placeholder) as [E|NP].
      { rewrite E in Pid. unfold id_from_str in Pid. rewrite String.eqb_refl in Pid. injection Pid; intros X. rewrite <- X in Y. discriminate. }
      destruct (dated_prefix (detect ids)) as [pfx|] eqn:DP.
      - destruct (proj1 (id_dated_iff _ _ NP DP _) Pid) as (ys & ns & y & mm & E & N1 & N2 & _ & EI).
        rewrite EI in Y. cbn in Y. injection Y; intros ->.
        assert (KK : pfx = "RUSTSEC" \/ pfx = "TALOS").
        { rewrite I2 in K1, K2. destruct (detect ids); cbn in DP; try discriminate; try congruence; injection DP; intros <-; [left|right]; reflexivity. }
        apply date_year_iff in Dy as (ds & Sd & Nd & Ud). rewrite E in Tid, NP.
        pose proof (cm_year _ _ CM pfx ys ns (m_date m) ds c Tid KK NP N1 Td Sd Nd) as U. exact (u32_numeral_fun _ _ _ U Ud).
      - pose proof (id_undated _ NP DP) as U. rewrite Pid in U. injection U; intros X. rewrite X in Y. discriminate. }
    intros [k v] [k' v'] c c' _ _ G G'. apply gives_iff in G, G'. fold m in G, G'.
    destruct G as [(_ & K1 & K2 & Y)|[_ Y]], G' as [(_ & K1' & K2' & Y')|[_ Y']].
    + congruence.
    + rewrite (YR c K1 K2 Y). congruence.
    + rewrite (YR c' K1' K2' Y'). congruence.
    + congruence.
Qed.

Lemma versions_clean t : lint_versions (TTab t) = [] <-> forall k, has_key k t -> In k ["patched"; "unaffected"].
Proof.
  cbn [lint_versions]. induction t as [|[k v] t IH]; [split; [intros _ k []|reflexivity]|]. cbn [flat_map fst].
  split.
  - intros H. apply app_eq_nil in H as [H1 H2]. apply when_nil, negb_false_iff, known_iff in H1.
    intros k' [<-|K]; [exact H1|]. apply IH; assumption.
  - intros H. assert (K : known ["patched"; "unaffected"] k = true) by (apply known_iff, H; left; reflexivity).
    rewrite K. apply IH. intros k' I. apply H. right. exact I.
Qed.
Lemma arch_known s : arch_from_str s = Err \/ (exists a, arch_from_str s = Ok a /\ arch_str a = s).
Proof.
  unfold arch_from_str. destruct (find (fun e => String.eqb s (fst e)) arch_table) as [e|] eqn:E; [|left; reflexivity]. right.
  apply find_some in E as [E1 E2]. apply String.eqb_eq in E2 as ->. exists (snd e). split; [reflexivity|]. revert e E1.
  apply Forall_forall. repeat constructor.
Qed.
Lemma arch_from_str_str a : arch_from_str (arch_str a) = Ok a.
Proof. destruct a; vm_compute; reflexivity. Qed.
Lemma flat_when {A} (P : A -> bool) e l : flat_map (fun a => when (P a) e) l = [] <-> forall a, In a l -> P a = false.
Proof.
  induction l as [|a l IH]; [split; [intros _ ? []|reflexivity]|]. cbn [flat_map]. split.
  - intros H. apply app_eq_nil in H as [H1 H2]. apply when_nil in H1. intros a' [<-|I]; [exact H1|apply IH; assumption].
  - intros H. rewrite (H a (or_introl eq_refl)). apply IH. intros a' I. apply H. right. exact I.
Qed.
Lemma concat_nil {A} (l : list (list A)) : List.concat l = [] <-> forall x, In x l -> x = [].
Proof.
  induction l as [|a l IH]; [split; [intros _ ? []|reflexivity]|]. cbn. split.
  - intros H. apply app_eq_nil in H as [-> H]. intros x [<-|I]; [reflexivity|apply IH; assumption].
  - intros H. rewrite (H a (or_introl eq_refl)). apply IH. intros x I. apply H. right. exact I.
Qed.
Lemma omap_concat {A B} (f : A -> outcome (list B)) l es : omap f l = Ok es -> (List.concat es = [] <-> forall a, In a l -> f a = Ok []).
Proof.
  intros H. apply omap_iff in H. rewrite concat_nil. induction H as [|a e l es H F IH]; [split; intros _ ? []|]. split.
  - intros K b [<-|I]; [rewrite H; f_equal; apply K; left; reflexivity|]. apply IH; [|exact I]. intros x X. apply K. right. exact X.
  - intros K x [<-|I]; [specialize (K a (or_introl eq_refl)); congruence|]. apply IH; [|exact I]. intros b X. apply K. right. exact X.
Qed.
Lemma path_name_underscores s : path_name s = underscores s.
Proof. induction s as [|a s IH]; [reflexivity|]. cbn. rewrite IH. reflexivity. Qed.
Lemma affected_clean x t adv package af es : m_package (f_meta adv) = package -> f_affected adv = Some af ->
  decoded_affected x (TTab t) af -> lint_affected adv (TTab t) = Ok es -> (es = [] <-> clean_affected t package).
Proof.
  intros HP HA [D] H. destruct D as (t' & E & Darch & Dos & Dfun). injection E; intros <-. clear E.
  cbn [lint_affected] in H. destruct (omap (lint_affected_entry adv) (map fst t)) as [l| |] eqn:O; cbn [obind] in H; try discriminate.
  injection H; intros <-. clear H. rewrite (omap_concat _ _ _ O). clear O. unfold lint_affected_entry. rewrite HA.
  assert (FUN : forall es0, omap (lint_function adv) (af_functions af) = Ok es0 ->
    (List.concat es0 = [] <-> forall p, In p (map fst (af_functions af)) -> exists r, p = path_name package :: r)).
  { intros es0 O. rewrite (omap_concat _ _ _ O). split.
    - intros K p I. apply in_map_iff in I as (f & <- & I). specialize (K f I). unfold lint_function in K.
      destruct (fst f) as [|s r]; [discriminate|]. injection K; intros X. apply when_nil, negb_false_iff, String.eqb_eq in X.
      exists r. rewrite path_name_underscores, <- HP, <- X. reflexivity.
    - intros K f I. destruct (K (fst f) (in_map fst _ _ I)) as [r E]. unfold lint_function. rewrite E, HP, path_name_underscores, String.eqb_refl. reflexivity. }
  assert (FOK : exists es0, omap (lint_function adv) (af_functions af) = Ok es0 \/ ~ has_key "functions" t).
  { destruct Dfun as [[T Ef]|(ft & T & K1 & K2)]; [exists []; left; rewrite Ef; reflexivity|].
    destruct (omap (lint_function adv) (af_functions af)) as [e| |] eqn:O; [exists e; left; reflexivity| |]; exfalso.
    - assert (Q : forall l, omap (lint_function adv) l <> Err).
      { induction l0 as [|f r IH]; [discriminate|]. cbn. unfold lint_function at 1. destruct (fst f); [discriminate|]. cbn [obind].
        destruct (omap (lint_function adv) r); [discriminate|congruence|discriminate]. }
      exact (Q _ O).
    - assert (Q : forall l, (forall f, In f l -> fst f <> []) -> omap (lint_function adv) l <> Panic).
      { induction l0 as [|f r IH]; intros N; [discriminate|]. cbn. unfold lint_function at 1. pose proof (N f (or_introl eq_refl)) as Nf.
        destruct (fst f); [congruence|]. cbn [obind]. specialize (IH (fun g I => N g (or_intror I))).
        destruct (omap (lint_function adv) r); [discriminate|discriminate|congruence]. }
      apply (Q _ ) in O; [exact O|]. intros f I E0. assert (I2 : In [] (map fst (af_functions af))) by (rewrite <- E0; apply in_map; exact I).
      apply K1 in I2 as (k & _ & P). apply C53_parse_iff in P as (_ & L & _). cbn in L. lia. }
  destruct FOK as [es0 FOK].
  assert (FKEY : has_key "functions" t -> (omap (lint_function adv) (af_functions af) = Ok es0)).
  { intros K. destruct FOK as [F|F]; [exact F|contradiction]. }
  split.
  - intros A. split.
    + intros k K. specialize (A k K). revert A.
      destruct (String.eqb_spec k "functions") as [->|]; [cbn; tauto|]. destruct (String.eqb_spec k "arch") as [->|]; [cbn; tauto|].
      destruct (String.eqb_spec k "os") as [->|]; [cbn; tauto|]. discriminate.
    + intros ft f T K. assert (HK : has_key "functions" t) by (apply tget_key; eexists; exact T).
      specialize (A _ HK). cbn [String.eqb Ascii.eqb Bool.eqb andb] in A. cbn in A. rewrite (FKEY HK) in A. cbn [obind] in A. injection A; intros A'.
      destruct Dfun as [[T' _]|(ft' & T' & K1 & K2)]; [congruence|]. rewrite T' in T. injection T; intros <-.
      destruct (K2 f K) as [p P]. assert (I : In p (map fst (af_functions af))) by (apply K1; exists f; split; assumption).
      destruct (proj1 (FUN _ (FKEY HK)) A' p I) as [r ->]. apply (path_first _ _ _ P). reflexivity.
    + intros l0 s T I. assert (HK : has_key "arch" t) by (apply tget_key; eexists; exact T). specialize (A _ HK). cbn in A. injection A; intros A'.
      rewrite flat_when in A'. destruct Darch as [[T' _]|T']; [congruence|]. rewrite T' in T. injection T; intros <-.
      apply in_map_iff in I as (s' & [= ->] & I). specialize (A' s I). apply orb_false_iff in A' as [_ A'].
      destruct (arch_known s) as [X|(a & _ & X)]; [rewrite X in A'; discriminate|]. exists a. exact X.
    + intros l0 s T I. assert (HK : has_key "os" t) by (apply tget_key; eexists; exact T). specialize (A _ HK). cbn in A. injection A; intros A'.
      rewrite flat_when in A'. destruct Dos as [[T' _]|T']; [congruence|]. rewrite T' in T. injection T; intros <-.
      apply in_map_iff in I as (s' & [= ->] & I). specialize (A' s I). intros ->. discriminate.
  - intros C k K. pose proof (ca_keys _ _ C k K) as KK. cbn in KK. destruct KK as [<-|[<-|[<-|[]]]]; cbn.
    + rewrite (FKEY K). cbn [obind]. f_equal. apply (FUN _ (FKEY K)).
      destruct Dfun as [[T' E]|(ft & T & K1 & K2)]; [apply tget_none in T'; contradiction|].
      intros p I. apply K1 in I as (f & Kf & P). destruct p as [|s r]; [apply C53_parse_iff in P as (_ & L & _); cbn in L; lia|].
      exists r. f_equal. apply (proj2 (path_first _ _ _ P (path_name package))). exact (ca_functions _ _ C ft f T Kf).
    + f_equal. apply flat_when. destruct Darch as [[T' E]|T]; [apply tget_none in T'; contradiction|].
      intros s I. destruct (ca_arch _ _ C _ s T (in_map TStr _ _ I)) as [a <-]. rewrite arch_from_str_str. destruct a; reflexivity.
    + f_equal. apply flat_when. destruct Dos as [[T' E]|T]; [apply tget_none in T'; contradiction|].
      intros s I. apply String.eqb_neq. exact (ca_os _ _ C _ s T (in_map TStr _ _ I)).
Qed.

(** ** What the linter is given *)
Lemma decode_advisory_ok x doc a : decode_advisory x doc = Ok a ->
  (exists mt, tget "advisory" doc = Some (TTab mt) /\ decode_metadata x mt = Ok (f_meta a)) /\
  ((tget "affected" doc = None /\ f_affected a = None) \/
   exists v af, tget "affected" doc = Some v /\ f_affected a = Some af /\ decoded_affected x v af) /\
  (exists vt, tget "versions" doc = Some (TTab vt)).
Proof.
  unfold decode_advisory. intros H. bind H. bind H. bind H. injection H; intros <-. clear H. cbn [f_meta f_affected].
  apply field_req_ok in E as (v & T & F). destruct v as [| | | |mt]; try discriminate.
  apply field_req_ok in E1 as (v1 & T1 & F1). destruct v1 as [| | | |vt]; try discriminate.
  split; [exists mt; split; assumption|]. split; [|exists vt; exact T1].
  apply field_opt_ok in E0 as [[T0 ->]|(v & b & T0 & F0 & ->)]; [left; split; [exact T0|reflexivity]|].
  right. exists v, b. split; [exact T0|]. split; [reflexivity|]. apply decode_affected_ok. exact F0.
Qed.
Lemma decoded_with_title x t a title desc : decoded_meta x t (f_meta a) -> decoded_meta x t (f_meta (with_title a title desc)).
Proof. intros [A B C D E F G H]. split; assumption. Qed.
Record linted (x : externals) (doc : ttable) (adv : full_advisory) : Prop := {
  li_meta : exists mt, tget "advisory" doc = Some (TTab mt) /\ decoded_meta x mt (f_meta adv);
  li_affected : (tget "affected" doc = None /\ f_affected adv = None) \/
    exists t af, tget "affected" doc = Some (TTab t) /\ f_affected adv = Some af /\ decoded_affected x (TTab t) af;
  li_versions : exists vt, tget "versions" doc = Some (TTab vt) }.
Lemma full_linted x toml text adv p doc : full_from_str x toml text = Ok adv -> parts_parse text = Ok p ->
  starts_with HEADER (pt_front p) = true -> toml (pt_front p) = Some doc -> linted x doc adv.
Proof.
  unfold full_from_str. intros H P S T. rewrite P in H. cbn [obind] in H. unfold front_document in H. rewrite S, T in H.
  bind H. destruct (negb (m_title (f_meta a) =? "")); [discriminate|]. destruct (negb (m_description (f_meta a) =? "")); [discriminate|].
  injection H; intros <-. apply decode_advisory_ok in E as ((mt & M1 & M2) & A & V). split.
  - exists mt. split; [exact M1|]. apply decoded_with_title, decode_metadata_ok, M2.
  - destruct A as [A|(v & af & A1 & A2 & A3)]; [left; exact A|]. right. destruct A3 as [(t & -> & A3)].
    exists t, af. split; [exact A1|]. split; [exact A2|]. split. exists t. split; [reflexivity|exact A3].
  - exact V.
Qed.
Lemma lint_string_ok x toml text draft l : lint_string x toml text draft = Ok l ->
  exists p doc es, full_from_str x toml text = Ok (l_advisory l) /\ parts_parse text = Ok p /\ toml (pt_front p) = Some doc /\
    lint_advisory (l_advisory l) draft doc = Ok es /\ l_errors l = (lint_markdown (pt_front p) (pt_markdown p) ++ es)%list.
Proof.
  unfold lint_string. intros H. bind H. bind H. destruct (toml (pt_front a0)) as [doc|] eqn:T; [|discriminate]. bind H.
  injection H; intros <-. exists a0, doc, a1. cbn [l_advisory l_errors]. auto.
Qed.

(** The text of an advisory whose first line is the fence and whose front matter starts with its table's header: the
    layout the documentation asks for. *)
Definition headed (text : string) (toml : string -> option ttable) (doc : ttable) (markdown : string) : Prop :=
  exists p, parts_parse text = Ok p /\ has_prefix "[advisory]" (pt_front p) /\ toml (pt_front p) = Some doc /\ markdown = pt_markdown p.

(** *** The linter accepts exactly the clean documents. *)
Theorem C55_accepts_exactly x toml text draft l doc markdown :
  lint_string x toml text draft = Ok l -> headed text toml doc markdown -> distinct_keys doc ->
  full_from_str x toml text = Ok (l_advisory l) /\ (l_errors l = [] <-> clean_document doc draft markdown).
Proof.
  intros L (p & P & S & T & ->) [ND1 ND2]. apply starts_with_spec in S. change (starts_with HEADER (pt_front p) = true) in S.
  apply lint_string_ok in L as (p' & doc' & es & F & P' & T' & LA & ->). rewrite P in P'. injection P'; intros <-.
  rewrite T in T'. injection T'; intros <-. clear P' T'. split; [exact F|].
  destruct (full_linted _ _ _ _ _ _ F P S T) as [(mt & M1 & M2) AF (vt & V)].
  unfold lint_advisory in LA. bind LA. injection LA; intros <-. clear LA.
  assert (X : forall A (u v : list A), (u ++ v)%list = [] <-> u = [] /\ v = []).
  { intros A u v. split; [apply app_eq_nil|]. intros [-> ->]. reflexivity. }
  rewrite X, lint_markdown_spec, (omap_concat _ _ _ E). clear X.
  set (adv := l_advisory l) in *.
  assert (LM : exists e, lint_metadata adv draft (TTab mt) = Ok e).
  { apply tget_in in M1. apply omap_iff in E. clear -E M1. induction E as [|kv e doc a H F IH]; [destruct M1|].
    destruct M1 as [->|I]; [exists e; exact H|exact (IH I)]. }
  destruct LM as [em LM]. pose proof (metadata_clean x mt adv draft em (ND2 _ _ (tget_in _ _ _ M1)) M2 LM) as MC.
  assert (LAF : forall t, tget "affected" doc = Some (TTab t) -> exists e, lint_affected adv (TTab t) = Ok e).
  { intros t TA. apply tget_in in TA. apply omap_iff in E. clear -E TA. induction E as [|kv e doc a H F IH]; [destruct TA|].
    destruct TA as [->|I]; [exists e; exact H|exact (IH I)]. }
  assert (AFC : forall t e, tget "affected" doc = Some (TTab t) -> lint_affected adv (TTab t) = Ok e ->
    (e = [] <-> clean_affected t (m_package (f_meta adv)))).
  { intros t e TA L1. destruct AF as [[N _]|(t' & af & A1 & A2 & A3)]; [congruence|]. rewrite A1 in TA. injection TA; intros ->.
    exact (affected_clean x t adv (m_package (f_meta adv)) af e eq_refl A2 A3 L1). }
  split.
  - intros [Mk A]. split.
    + intros k K. apply tget_key in K as [v K]. specialize (A (k, v) (tget_in _ _ _ K)). unfold lint_top in A.
      destruct (String.eqb_spec k "advisory") as [->|]; [cbn; tauto|]. destruct (String.eqb_spec k "versions") as [->|]; [cbn; tauto|].
      destruct (String.eqb_spec k "affected") as [->|]; [cbn; tauto|]. discriminate.
    + intros t Tm. rewrite M1 in Tm. injection Tm; intros <-. apply MC. pose proof (A _ (tget_in _ _ _ M1)) as Am. cbn in Am. cbn in LM. congruence.
    + intros t k Tv. pose proof (A _ (tget_in _ _ _ Tv)) as Av.
      change (Ok (lint_versions (TTab t)) = Ok []) in Av. injection Av; intros Av'. revert k. apply versions_clean. exact Av'.
    + intros t mt' package Ta Tm Tp. rewrite M1 in Tm. injection Tm; intros <-.
      rewrite (dm_package _ _ _ M2) in Tp. injection Tp; intros <-. destruct (LAF t Ta) as [e Le].
      pose proof (A _ (tget_in _ _ _ Ta)) as Aa. change (lint_affected adv (TTab t) = Ok []) in Aa. apply (AFC t [] Ta Aa). reflexivity.
    + exact Mk.
  - intros C. split; [exact (cd_mentions _ _ _ C)|]. intros [k v] I. assert (K : has_key k doc) by (apply in_map_iff; exists (k, v); split; [reflexivity|exact I]).
    apply (in_tget _ _ _ ND1) in I. pose proof (cd_keys _ _ _ C k K) as KK. cbn in KK. destruct KK as [<-|[<-|[<-|[]]]].
    + rewrite M1 in I. injection I; intros <-. change (lint_metadata adv draft (TTab mt) = Ok []). rewrite LM. f_equal. apply MC. exact (cd_metadata _ _ _ C mt M1).
    + rewrite V in I. injection I; intros <-. change (Ok (lint_versions (TTab vt)) = Ok []). f_equal. apply versions_clean. intros k. exact (cd_versions _ _ _ C vt k V).
    + destruct AF as [[N _]|(t & af & A1 & A2 & A3)]; [congruence|]. rewrite A1 in I. injection I; intros <-.
      change (lint_affected adv (TTab t) = Ok []). destruct (LAF t A1) as [e Le]. rewrite Le. f_equal. apply (AFC t e A1 Le).
      exact (cd_affected _ _ _ C t mt _ A1 M1 (dm_package _ _ _ M2)).
Qed.

(** *** Whatever loads can be linted. *)
Lemma lint_function_ok adv fs : (forall p, In p (map fst fs) -> p <> []) -> exists es, omap (lint_function adv) fs = Ok es.
Proof.
  induction fs as [|f r IH]; intros N; [exists []; reflexivity|]. cbn [omap]. unfold lint_function at 1.
  pose proof (N (fst f) (or_introl eq_refl)) as Nf. destruct (fst f); [congruence|]. cbn [obind].
  destruct (IH (fun p I => N p (or_intror I))) as [es ->]. eexists. reflexivity.
Qed.
Lemma omap_all_ok {A B} (f : A -> outcome B) l : (forall a, In a l -> exists b, f a = Ok b) -> exists bs, omap f l = Ok bs.
Proof.
  induction l as [|a l IH]; intros H; [exists []; reflexivity|]. cbn. destruct (H a (or_introl eq_refl)) as [b ->]. cbn [obind].
  destruct (IH (fun x I => H x (or_intror I))) as [bs ->]. eexists. reflexivity.
Qed.
Theorem C55_lints_what_loads x toml text draft adv doc markdown ds y :
  full_from_str x toml text = Ok adv -> headed text toml doc markdown -> distinct_keys doc ->
  (m_date (f_meta adv) = ds \/ exists r, m_date (f_meta adv) = ds ++ "-" ++ r) -> has_char "-" ds = false -> u32_numeral ds y ->
  exists l, lint_string x toml text draft = Ok l /\ l_advisory l = adv.
Proof.
  intros F (p & P & S & T & ->) [ND1 ND2] D1 D2 D3. apply starts_with_spec in S. change (starts_with HEADER (pt_front p) = true) in S.
  destruct (full_linted _ _ _ _ _ _ F P S T) as [(mt & M1 & M2) AF (vt & V)].
  assert (Dy : date_year (m_date (f_meta adv)) = Ok y) by (apply date_year_iff; exists ds; auto).
  unfold lint_string. rewrite F, P. cbn [obind]. rewrite T.
  assert (X : exists es, lint_advisory adv draft doc = Ok es).
  { unfold lint_advisory. assert (Y : exists es, omap (lint_top adv draft) doc = Ok es).
    { apply omap_all_ok. intros [k v] I. apply (in_tget _ _ _ ND1) in I. unfold lint_top.
      destruct (String.eqb_spec k "advisory") as [->|].
      { rewrite M1 in I. injection I; intros <-. cbn [lint_metadata]. apply lint_entries_no_panic. intros [k w] J E.
        apply (in_tget _ _ _ (ND2 _ _ (tget_in _ _ _ M1))) in J. revert E. unfold lint_entry.
        destruct (String.eqb k "id").
        { destruct (id_kind_eqb (id_kind_of (m_id (f_meta adv))) KOther); [discriminate|].
          destruct (id_year (m_id (f_meta adv))); [|discriminate]. destruct (id_kind_eqb (id_kind_of (m_id (f_meta adv))) KCve); discriminate. }
        destruct (String.eqb k "categories"); [discriminate|]. destruct (String.eqb k "collection"); [discriminate|].
        destruct (String.eqb_spec k "informational") as [->|].
        { destruct (dm_informational _ _ _ M2) as [[N _]|(s & _ & ->)]; [congruence|]. destruct (informational_from_str s); discriminate. }
        destruct (String.eqb k "url"); [discriminate|]. destruct (String.eqb k "date"); [rewrite Dy; discriminate|].
        destruct (String.eqb k "yanked"); [discriminate|]. destruct (String.eqb k "license"); [discriminate|].
        destruct (known SILENT k); discriminate. }
      destruct (String.eqb_spec k "versions") as [->|]; [eexists; reflexivity|].
      destruct (String.eqb_spec k "affected") as [->|]; [|eexists; reflexivity].
      destruct AF as [[N _]|(t & af & A1 & A2 & [A3])]; [congruence|]. rewrite A1 in I. injection I; intros <-. cbn [lint_affected].
      destruct A3 as (t' & E & _ & _ & A3). injection E; intros <-.
      destruct (omap_all_ok (lint_affected_entry adv) (map fst t)) as [es ->]; [|eexists; reflexivity].
      intros k K. unfold lint_affected_entry. rewrite A2. destruct (String.eqb k "functions"); [|destruct (String.eqb k "arch"); [eexists; reflexivity|];
        destruct (String.eqb k "os"); eexists; reflexivity].
      destruct (lint_function_ok adv (af_functions af)) as [es ->]; [|eexists; reflexivity].
      intros q Q ->. destruct A3 as [[_ A3]|(ft & _ & A3 & _)]; [rewrite A3 in Q; destruct Q|].
      apply A3 in Q as (k' & _ & Q). apply C53_parse_iff in Q as (_ & L & _). cbn in L. lia. }
    destruct Y as [es ->]. eexists. reflexivity. }
  destruct X as [es ->]. eexists. split; reflexivity.
Qed.

(** *** Unknown keys are reported, by name and section, and nothing else is called an unknown key. *)
Definition unknown_key (doc : ttable) (section : option string) (k : string) : Prop :=
  (section = None /\ has_key k doc /\ ~ In k SECTIONS) \/
  exists name t, section = Some name /\ tget name doc = Some (TTab t) /\ has_key k t /\
    ((name = "advisory" /\ ~ In k ("collection" :: ADVISORY_KEYS)) \/ (name = "versions" /\ ~ In k ["patched"; "unaffected"])
     \/ (name = "affected" /\ ~ In k ["functions"; "arch"; "os"])).
Definition names_key (k : string) (section : option string) (es : list lint_error) : Prop :=
  exists e, In e es /\ le_kind e = InvalidKey k /\ le_section e = section.
Lemma names_nil k s : ~ names_key k s []. Proof. intros (e & [] & _). Qed.
Lemma names_app k s a b : names_key k s (a ++ b)%list <-> names_key k s a \/ names_key k s b.
Proof.
  unfold names_key. split.
  - intros (e & I & R). apply in_app_iff in I as [I|I]; [left|right]; exists e; auto.
  - intros [(e & I & R)|(e & I & R)]; exists e; (split; [apply in_app_iff|exact R]); auto.
Qed.
Lemma names_none k s es : (forall e n, In e es -> le_kind e <> InvalidKey n) -> ~ names_key k s es.
Proof. intros H (e & I & K & _). exact (H e k I K). Qed.
Lemma names_one k s n sec : names_key k s [key_error sec n] <-> k = n /\ s = sec.
Proof.
  split; [intros (e & [<-|[]] & K & S); cbn in K, S; split; congruence|]. intros [-> ->]. exists (key_error sec n). cbn. auto.
Qed.
Lemma when_kind b e x n : le_kind e <> InvalidKey n -> In x (when b e) -> le_kind x <> InvalidKey n.
Proof. intros H. destruct b; cbn; [|tauto]. intros [<-|[]]. exact H. Qed.
Lemma entry_names adv draft year k v es c n s : lint_entry adv draft year (k, v) = Ok (es, c) ->
  (names_key n s es <-> s = Some "advisory" /\ n = k /\ ~ In k ("collection" :: ADVISORY_KEYS)).
Proof.
  assert (NO : forall es0, (forall e n, In e es0 -> le_kind e <> InvalidKey n) -> In k ("collection" :: ADVISORY_KEYS) ->
    (names_key n s es0 <-> s = Some "advisory" /\ n = k /\ ~ In k ("collection" :: ADVISORY_KEYS))).
  { intros es0 H I. split; [intros N; exfalso; exact (names_none _ _ _ H N)|]. intros (_ & _ & N). contradiction. }
  unfold lint_entry.
  destruct (String.eqb_spec k "id") as [->|N1].
  { set (e1 := match draft with Some d => _ | None => _ end).
    assert (H1 : forall e n, In e e1 -> le_kind e <> InvalidKey n).
    { intros e n0. unfold e1. destruct draft; [|intros []]. apply when_kind. discriminate. }
    assert (H2 : forall e0 e n, le_kind e0 <> InvalidKey n -> forall b, In e (e1 ++ when b e0)%list -> le_kind e <> InvalidKey n).
    { intros e0 e n0 K b I. apply in_app_iff in I as [I|I]; [exact (H1 e n0 I)|exact (when_kind b e0 e n0 K I)]. }
    intros H.
    assert (Q : forall e n, In e es -> le_kind e <> InvalidKey n); [|apply NO; [exact Q|cbn; tauto]].
    intros e n0. destruct (id_kind_eqb (id_kind_of (m_id (f_meta adv))) KOther).
    { injection H; intros _ <-. apply (H2 (value_error "advisory" "id" "unknown advisory ID type") e n0 ltac:(discriminate) true). }
    destruct (id_year (m_id (f_meta adv))); [|injection H; intros _ <-; apply H1].
    destruct (id_kind_eqb (id_kind_of (m_id (f_meta adv))) KCve); [injection H; intros _ <-; apply H1|].
    destruct year; injection H; intros _ <-; [apply H2; discriminate|apply H1]. }
  destruct (String.eqb_spec k "categories") as [->|N2].
  { intros [= <- <-]. apply NO; [|cbn; tauto]. intros e n0 I. apply in_map_iff in I as (x & <- & _). discriminate. }
  destruct (String.eqb_spec k "collection") as [->|N3].
  { intros [= <- <-]. apply NO; [|cbn; tauto]. intros e n0 [<-|[]]. discriminate. }
  destruct (String.eqb_spec k "informational") as [->|N4].
  { destruct (m_informational (f_meta adv)) as [[]|]; try discriminate; intros [= <- <-]; (apply NO; [|cbn; tauto]); intros e n0;
      cbn; intros I; try tauto; destruct I as [<-|[]]; discriminate. }
  destruct (String.eqb_spec k "url") as [->|N5].
  { intros [= <- <-]. apply NO; [|cbn; tauto]. intros e n0. destruct v; try (intros []). apply when_kind. discriminate. }
  destruct (String.eqb_spec k "date") as [->|N6].
  { destruct (date_year (m_date (f_meta adv))); cbn [obind]; try discriminate. destruct year; intros [= <- <-]; (apply NO; [|cbn; tauto]).
    - intros e n1. apply when_kind. discriminate.
    - intros e n1 []. }
  destruct (String.eqb_spec k "yanked") as [->|N7].
  { intros [= <- <-]. apply NO; [|cbn; tauto]. intros e n0. apply when_kind. discriminate. }
  destruct (String.eqb_spec k "license") as [->|N8].
  { intros [= <- <-]. apply NO; [|cbn; tauto]. intros e n0. destruct v; try (intros []). apply when_kind. discriminate. }
  destruct (known SILENT k) eqn:S; intros [= <- <-].
  - apply NO; [intros e n0 []|]. apply known_iff in S. revert S. cbn. clear. tauto.
  - rewrite names_one. split; [|tauto]. intros [-> ->]. repeat apply conj; try reflexivity. intros K.
    assert (X : known SILENT k = true); [|congruence]. apply known_iff. clear -K N1 N2 N3 N4 N5 N6 N7 N8. cbn in K |- *.
    repeat (destruct K as [K|K]; [try (exfalso; congruence); tauto|]). destruct K.
Qed.
Lemma entries_names adv draft t n s : forall year es, lint_entries adv draft year t = Ok es ->
  (names_key n s es <-> s = Some "advisory" /\ has_key n t /\ ~ In n ("collection" :: ADVISORY_KEYS)).
Proof.
  induction t as [|[k v] t IH]; intros year es H; cbn [lint_entries] in H.
  - injection H; intros <-. split; [intros N; destruct (names_nil _ _ N)|]. intros (_ & [] & _).
  - bind H. destruct a as [e1 y1]. bind H. injection H; intros <-. cbn [fst snd] in *. rewrite names_app, (entry_names _ _ _ _ _ _ _ _ _ E), (IH _ _ E0).
    unfold has_key. cbn [map fst In]. clear. split.
    + intros [(A & B & C)|(A & B & C)]; [subst n; tauto|tauto].
    + intros (A & [B|B] & C); [left; subst n; tauto|tauto].
Qed.
Lemma keyed_names {V} (ok : string -> bool) sec (t : list (string * V)) n s :
  names_key n s (flat_map (fun kv => when (negb (ok (fst kv))) (key_error sec (fst kv))) t) <-> s = sec /\ In n (map fst t) /\ ok n = false.
Proof.
  induction t as [|[k v] t IH]; [split; [intros N; destruct (names_nil _ _ N)|intros (_ & [] & _)]|].
  cbn [flat_map fst map In]. rewrite names_app, IH. destruct (ok k) eqn:E; cbn [negb when].
  - split; [intros [N|N]; [destruct (names_nil _ _ N)|tauto]|]. intros (A & [B|B] & C); [congruence|tauto].
  - rewrite names_one. split; [intros [[-> ->]|N]; [auto|tauto]|]. intros (A & [B|B] & C); [left; auto|tauto].
Qed.
Lemma concat_names {A} (f : A -> outcome (list lint_error)) l es n s : omap f l = Ok es ->
  (names_key n s (List.concat es) <-> exists a e, In a l /\ f a = Ok e /\ names_key n s e).
Proof.
  intros H. apply omap_iff in H. induction H as [|a e l es H F IH].
  - split; [intros N; destruct (names_nil _ _ N)|intros (? & ? & [] & _)].
  - cbn [List.concat]. rewrite names_app, IH. split.
    + intros [N|(a' & e' & I & R)]; [exists a, e; cbn; auto|exists a', e'; cbn; auto].
    + intros (a' & e' & [<-|I] & E & N); [left; congruence|right; exists a', e'; auto].
Qed.
Lemma affected_names adv t es n s : lint_affected adv (TTab t) = Ok es ->
  (names_key n s es <-> s = Some "affected" /\ has_key n t /\ ~ In n ["functions"; "arch"; "os"]).
Proof.
  cbn [lint_affected]. intros H. bind H. injection H; intros <-. rewrite (concat_names _ _ _ _ _ E).
  assert (NO : forall k e, In k ["functions"; "arch"; "os"] -> lint_affected_entry adv k = Ok e -> ~ names_key n s e).
  { intros k e I L. apply names_none. intros e0 n0 I0. revert L. destruct I as [<-|[<-|[<-|[]]]]; unfold lint_affected_entry;
      cbn [String.eqb Ascii.eqb Bool.eqb andb]; destruct (f_affected adv) as [af|]; try discriminate; cbn.
    - intros L. bind L. injection L; intros <-. apply in_concat in I0 as (u & U & I0). clear -E0 U I0. apply omap_iff in E0.
      induction E0 as [|f e l es H F IH]; [destruct U|]. destruct U as [->|U]; [|exact (IH U)]. unfold lint_function in H.
      destruct (fst f); [discriminate|]. injection H; intros <-. revert I0. apply when_kind. discriminate.
    - intros [= <-]. apply in_flat_map in I0 as (x & _ & I0). revert I0. apply when_kind. discriminate.
    - intros [= <-]. apply in_flat_map in I0 as (x & _ & I0). revert I0. apply when_kind. discriminate. }
  split.
  - intros (k & e & I & L & N). destruct (in_dec string_dec k ["functions"; "arch"; "os"]) as [K|K]; [destruct (NO _ _ K L N)|].
    unfold lint_affected_entry in L. destruct (String.eqb_spec k "functions") as [->|]; [destruct K; cbn; tauto|].
    destruct (String.eqb_spec k "arch") as [->|]; [destruct K; cbn; tauto|]. destruct (String.eqb_spec k "os") as [->|]; [destruct K; cbn; tauto|].
    injection L; intros <-. apply names_one in N as [-> ->]. auto.
  - intros (-> & K & N). exists n, [key_error (Some "affected") n]. split; [exact K|]. split; [|apply names_one; auto].
    unfold lint_affected_entry. destruct (String.eqb_spec n "functions") as [->|]; [destruct N; cbn; tauto|].
    destruct (String.eqb_spec n "arch") as [->|]; [destruct N; cbn; tauto|]. destruct (String.eqb_spec n "os") as [->|]; [destruct N; cbn; tauto|reflexivity].
Qed.
Theorem C55_unknown_keys_are_named x toml text draft l doc markdown section k :
  lint_string x toml text draft = Ok l -> headed text toml doc markdown -> distinct_keys doc ->
  ((exists e, In e (l_errors l) /\ le_kind e = InvalidKey k /\ le_section e = section) <-> unknown_key doc section k).
Proof.
  intros L (p & P & S & T & ->) [ND1 ND2]. apply starts_with_spec in S. change (starts_with HEADER (pt_front p) = true) in S.
  apply lint_string_ok in L as (p' & doc' & es & F & P' & T' & LA & ->). rewrite P in P'. injection P'; intros <-.
  rewrite T in T'. injection T'; intros <-. clear P' T'. destruct (full_linted _ _ _ _ _ _ F P S T) as [(mt & M1 & M2) AF (vt & V)].
  change (names_key k section (lint_markdown (pt_front p) (pt_markdown p) ++ es)%list <-> unknown_key doc section k).
  rewrite names_app. unfold lint_advisory in LA. bind LA. injection LA; intros <-. clear LA. rewrite (concat_names _ _ _ _ _ E).
  assert (NM : ~ names_key k section (lint_markdown (pt_front p) (pt_markdown p))).
  { apply names_none. intros e n I. unfold lint_markdown in I. destruct (has_char "@" (pt_markdown p)); [|destruct I].
    apply mention_errors_in in I as (i & li & u & _ & _ & ->). discriminate. }
  assert (OKS : forall kv, In kv doc -> exists e, lint_top (l_advisory l) draft kv = Ok e).
  { intros kv I. apply omap_iff in E. clear -E I. induction E as [|kv' e doc a H F IH]; [destruct I|].
    destruct I as [->|I]; [exists e; exact H|exact (IH I)]. }
  split.
  - intros [N|([key v] & e & I & LT & N)]; [contradiction|]. pose proof (in_tget _ _ _ ND1 I) as G. unfold lint_top in LT.
    destruct (String.eqb_spec key "advisory") as [->|D1].
    { rewrite M1 in G. injection G; intros <-. cbn [lint_metadata] in LT. apply (entries_names _ _ _ _ _ _ _ LT) in N as (-> & K & NK).
      right. exists "advisory", mt. auto 10. }
    destruct (String.eqb_spec key "versions") as [->|D2].
    { rewrite V in G. injection G; intros <-. injection LT; intros <-. apply (proj1 (keyed_names (known ["patched"; "unaffected"]) (Some "versions") vt k section)) in N as (-> & K & NK).
      right. exists "versions", vt. repeat apply conj; auto. right. left. split; [reflexivity|]. rewrite <- known_iff. congruence. }
    destruct (String.eqb_spec key "affected") as [->|D3].
    { destruct AF as [[X _]|(t & af & A1 & A2 & A3)]; [congruence|]. rewrite A1 in G. injection G; intros <-.
      apply (affected_names _ _ _ _ _ LT) in N as (-> & K & NK). right. exists "affected", t. auto 10. }
    injection LT; intros <-. apply names_one in N as [-> ->]. left. repeat apply conj; [reflexivity|apply tget_key; eexists; exact G|].
    cbn. intros [<-|[<-|[<-|[]]]]; congruence.
  - intros [(-> & K & NS)|(name & t & -> & G & K & C)]; right.
    + apply tget_key in K as [v K]. apply tget_in in K. exists (k, v), [key_error None k]. split; [exact K|]. split; [|apply names_one; auto].
      unfold lint_top. destruct (String.eqb_spec k "advisory") as [->|]; [destruct NS; cbn; tauto|].
      destruct (String.eqb_spec k "versions") as [->|]; [destruct NS; cbn; tauto|].
      destruct (String.eqb_spec k "affected") as [->|]; [destruct NS; cbn; tauto|reflexivity].
    + apply tget_in in G. destruct (OKS _ G) as [e Le]. exists (name, TTab t), e. split; [exact G|]. split; [exact Le|].
      destruct C as [[-> C]|[[-> C]|[-> C]]].
      * change (lint_entries (l_advisory l) draft None t = Ok e) in Le. apply (entries_names _ _ _ _ _ _ _ Le). auto.
      * change (Ok (lint_versions (TTab t)) = Ok e) in Le. injection Le; intros <-. apply (proj2 (keyed_names (known ["patched"; "unaffected"]) (Some "versions") t k _)). repeat apply conj; auto.
        destruct (known ["patched"; "unaffected"] k) eqn:X; [|reflexivity]. apply known_iff in X. contradiction.
      * change (lint_affected (l_advisory l) (TTab t) = Ok e) in Le. apply (affected_names _ _ _ _ _ Le). auto.
Qed.

(** *** Line numbers *)
(** The documented layout: fence, front matter, fence, an empty line, the text. *)
Definition layout (front markdown : string) : string :=
  "```toml" ++ newline ++ front ++ newline ++ "```" ++ newline ++ newline ++ markdown.
Definition line_message (user : string) (line : nat) : string :=
  "bare @" ++ user ++ " in advisory on line " ++ print_dec (N.of_nat line) ++ " (use explicit link to avoid spam)".
(** The user as shown: without closing parentheses at the end. *)
Fixpoint closing (n : nat) : string := match n with O => "" | S n => ")" ++ closing n end.
Definition shown_as (user shown : string) : Prop := (exists n, user = shown ++ closing n) /\ ~ exists x, shown = x ++ ")".
Lemma closing_comm n : closing n ++ ")" = ")" ++ closing n.
Proof. induction n as [|n IH]; [reflexivity|]. cbn [closing String.append] in *. rewrite IH. reflexivity. Qed.
Lemma drop_parens_spec s : exists n, s = closing n ++ drop_parens s /\ forall x, drop_parens s <> String ")" x.
Proof.
  induction s as [|a s [n [IH1 IH2]]]; [exists 0; split; [reflexivity|discriminate]|].
  destruct (Ascii.ascii_dec a ")") as [->|N].
  - exists (S n). cbn [drop_parens closing String.append]. split; [rewrite <- IH1; reflexivity|exact IH2].
  - exists 0. assert (E : drop_parens (String a s) = String a s) by (destruct a as [[|] [|] [|] [|] [|] [|] [|] [|]]; try reflexivity; congruence).
    rewrite E. split; [reflexivity|]. congruence.
Qed.
Lemma closing_rev n : srev (closing n) = closing n.
Proof. induction n as [|n IH]; [reflexivity|]. cbn [closing]. rewrite srev_sapp, IH. exact (closing_comm n). Qed.
Lemma trim_shown user : shown_as user (trim_parens user).
Proof.
  unfold shown_as, trim_parens. destruct (drop_parens_spec (srev user)) as (n & E & N). split.
  - exists n. apply (f_equal srev) in E. rewrite srev_involutive, srev_sapp, closing_rev in E. exact E.
  - intros [x H]. apply (f_equal srev) in H. rewrite srev_involutive, srev_sapp in H. exact (N _ H).
Qed.
Lemma lines_cons l r : r <> [] -> lines_of (l :: r) = strip_cr l :: lines_of r.
Proof. destruct r; [congruence|reflexivity]. Qed.
Lemma file_lines_cons a b : has_char nl a = false -> file_lines (a ++ String nl b) = strip_cr a :: file_lines b.
Proof. intros H. unfold file_lines. rewrite split_on_app by exact H. apply lines_cons, split_on_nonempty. Qed.
Lemma split_on_glue a b : split_on nl (a ++ String nl b) = (split_on nl a ++ split_on nl b)%list.
Proof.
  rewrite <- (join_split nl a) at 1. pose proof (split_on_nonempty nl a) as N.
  assert (P : forall x, In x (split_on nl a) -> has_char nl x = false) by apply split_on_parts.
  induction (split_on nl a) as [|x r IH]; [congruence|]. destruct r as [|y r].
  - cbn [join_on List.app]. apply split_on_app. apply P. left. reflexivity.
  - rewrite join_cons2, sapp_assoc. cbn [String.append]. rewrite split_on_app by (apply P; left; reflexivity).
    rewrite IH; [reflexivity|discriminate|]. intros z Z. apply P. right. exact Z.
Qed.
Lemma lines_of_app p q : q <> [] -> lines_of (p ++ q)%list = (map strip_cr p ++ lines_of q)%list.
Proof.
  intros Q. induction p as [|x p IH]; [reflexivity|]. cbn [List.app map]. rewrite lines_cons; [rewrite IH; reflexivity|].
  destruct p; [exact Q|discriminate].
Qed.
Lemma last_join (l : list string) : l <> [] -> exists t, join_on nl l = t ++ last l "".
Proof.
  induction l as [|x r IH]; [congruence|]. intros _. destruct r as [|y r]; [exists ""; reflexivity|].
  destruct IH as [t T]; [discriminate|]. rewrite join_cons2, T. exists (x ++ String nl t). rewrite sapp_assoc. reflexivity.
Qed.
Lemma lines_of_length l : last l "x" <> "" -> List.length (lines_of l) = List.length l.
Proof.
  induction l as [|x r IH]; [reflexivity|]. destruct r as [|y r].
  - cbn. destruct (String.eqb_spec x ""); [congruence|reflexivity].
  - intros H. rewrite lines_cons by discriminate. cbn [List.length]. f_equal. apply IH. exact H.
Qed.
Lemma ends_not_newline s : s <> "" -> ~ ends_blank s -> last (split_on nl s) "x" <> "".
Proof.
  intros N B E. apply B. pose proof (split_on_nonempty nl s) as NE. pose proof (join_split nl s) as J.
  destruct (split_on nl s) as [|h t] eqn:S; [congruence|]. destruct t as [|h2 t].
  { cbn in E, J. congruence. }
  assert (L : exists l, h :: h2 :: t = (l ++ [""])%list /\ l <> []).
  { exists (removelast (h :: h2 :: t)). split; [|discriminate]. rewrite <- E. apply app_removelast_last. discriminate. }
  destruct L as (l & L & NL). rewrite L in J. exists newline, (join_on nl l). split; [right; left; reflexivity|]. rewrite <- J. clear -NL.
  induction l as [|x r IH]; [congruence|]. destruct r as [|y r]; [reflexivity|]. cbn [List.app] in *. rewrite !join_cons2.
  rewrite IH by discriminate. rewrite sapp_assoc. reflexivity.
Qed.
Lemma file_lines_layout front markdown : front <> "" -> ~ ends_blank front ->
  file_lines (layout front markdown) = (["```toml"] ++ map strip_cr (split_on nl front) ++ ["```"; ""] ++ file_lines markdown)%list /\
  List.length (file_lines front) = List.length (split_on nl front).
Proof.
  intros N B. split.
  - unfold layout. change newline with (String nl ""). cbn [String.append].
    change (String "`" (String "`" (String "`" (String "t" (String "o" (String "m" (String "l" (String nl
      (front ++ String nl (String "`" (String "`" (String "`" (String nl (String nl markdown))))))))))))))
      with ("```toml" ++ String nl (front ++ String nl ("```" ++ String nl ("" ++ String nl markdown)))).
    rewrite file_lines_cons by reflexivity. unfold file_lines. rewrite split_on_glue, lines_of_app by apply split_on_nonempty.
    rewrite !split_on_app by reflexivity. rewrite !lines_cons; try apply split_on_nonempty; try discriminate. reflexivity.
  - unfold file_lines. apply lines_of_length, ends_not_newline; assumption.
Qed.
Lemma layout_parts front title desc : has_prefix "[advisory]" front -> ~ ends_blank front -> ~ occurs (newline ++ "```") front -> ~ occurs newline title ->
  exists p, parts_parse (layout front ("# " ++ title ++ newline ++ desc)) = Ok p /\ pt_front p = front /\ pt_markdown p = "# " ++ title ++ newline ++ desc.
Proof.
  intros [fr ->] B O T. set (front := "[advisory]" ++ fr) in *.
  assert (S : ~ starts_blank front).
  { rewrite <- ws_start_iff. unfold front. cbn. discriminate. }
  assert (E : layout front ("# " ++ title ++ newline ++ desc) = advisory_file (newline ++ front) (newline ++ newline) title desc).
  { unfold layout, advisory_file. rewrite !sapp_assoc. reflexivity. }
  assert (NL : forall b, blank b -> blank (newline ++ b)) by (intros b Hb; apply blank_cons; [right; left; reflexivity|exact Hb]).
  assert (TR : trimmed (newline ++ front) front).
  { split; [|split; assumption]. exists newline, "". split; [rewrite <- (sapp_nil_r newline); apply NL, blank_nil|]. split; [apply blank_nil|].
    rewrite sapp_nil_r. reflexivity. }
  assert (FP : file_parts (newline ++ front) (newline ++ newline) title).
  { split; [|split; [apply NL; rewrite <- (sapp_nil_r newline); apply NL, blank_nil|exact T]].
    intros (a & b & E2). change newline with (String nl "") in E2. cbn [String.append] in E2. destruct a as [|c a]; [discriminate|].
    injection E2; intros E3 _. apply O. exists a, b. exact E3. }
  destruct (trim_end_spec title) as (bt & Bt & Et & Nt).
  assert (TE : trimmed_end title (trim_end title)) by (split; [exists bt; split; assumption|exact Nt]).
  rewrite E, (C16_split_complete _ _ _ _ _ _ _ FP TR TE (trim_both_spec desc)). eexists. repeat apply conj; reflexivity.
Qed.
Definition not_text (e : lint_error) : Prop := le_section e <> Some "markdown".
Lemma when_section b e0 : not_text e0 -> forall e, In e (when b e0) -> not_text e.
Proof. intros H e. destruct b; cbn; [|tauto]. intros [<-|[]]. exact H. Qed.
Lemma entry_section adv draft year kv es c : lint_entry adv draft year kv = Ok (es, c) -> forall e, In e es -> not_text e.
Proof.
  destruct kv as [k v]. unfold lint_entry.
  destruct (String.eqb k "id").
  { set (e1 := match draft with Some d => _ | None => _ end).
    assert (H1 : forall e, In e e1 -> not_text e).
    { intros e. unfold e1. destruct draft; [|intros []]. apply when_section. discriminate. }
    assert (H2 : forall e0, not_text e0 -> forall b e, In e (e1 ++ when b e0)%list -> not_text e).
    { intros e0 K b e I. apply in_app_iff in I as [I|I]; [exact (H1 e I)|exact (when_section b e0 K e I)]. }
    destruct (id_kind_eqb (id_kind_of (m_id (f_meta adv))) KOther).
    { intros [= <- _]. apply (H2 (value_error "advisory" "id" "unknown advisory ID type") ltac:(discriminate) true). }
    destruct (id_year (m_id (f_meta adv))); [|intros [= <- _]; exact H1].
    destruct (id_kind_eqb (id_kind_of (m_id (f_meta adv))) KCve); [intros [= <- _]; exact H1|].
    destruct year; intros [= <- _]; [apply H2; discriminate|exact H1]. }
  destruct (String.eqb k "categories").
  { intros [= <- _] e I. apply in_map_iff in I as (x & <- & _). discriminate. }
  destruct (String.eqb k "collection"); [intros [= <- _] e [<-|[]]; discriminate|].
  destruct (String.eqb k "informational").
  { destruct (m_informational (f_meta adv)) as [[]|]; try discriminate; intros [= <- _] e; cbn; intros I; try tauto; destruct I as [<-|[]]; discriminate. }
  destruct (String.eqb k "url"); [intros [= <- _] e; destruct v; try (intros []); apply when_section; discriminate|].
  destruct (String.eqb k "date").
  { destruct (date_year (m_date (f_meta adv))); cbn [obind]; try discriminate. destruct year; intros [= <- _]; [apply when_section; discriminate|intros e []]. }
  destruct (String.eqb k "yanked"); [intros [= <- _]; apply when_section; discriminate|].
  destruct (String.eqb k "license"); [intros [= <- _] e; destruct v; try (intros []); apply when_section; discriminate|].
  destruct (known SILENT k); intros [= <- _] e; [intros []|intros [<-|[]]; discriminate].
Qed.
Lemma concat_section {A} (f : A -> outcome (list lint_error)) l es : omap f l = Ok es ->
  (forall a r, In a l -> f a = Ok r -> forall e, In e r -> not_text e) -> forall e, In e (List.concat es) -> not_text e.
Proof.
  intros H. apply omap_iff in H. induction H as [|a r l es H F IH]; intros K e I; [destruct I|].
  cbn [List.concat] in I. apply in_app_iff in I as [I|I]; [exact (K a r (or_introl eq_refl) H e I)|].
  apply (IH (fun a' r' J => K a' r' (or_intror J)) e I).
Qed.
Lemma advisory_section adv draft doc es : lint_advisory adv draft doc = Ok es -> forall e, In e es -> not_text e.
Proof.
  unfold lint_advisory. intros H. bind H. injection H; intros <-. apply (concat_section _ _ _ E). clear. intros [k v] r _ L.
  unfold lint_top in L. destruct (String.eqb k "advisory").
  { destruct v as [| | | |t]; cbn [lint_metadata] in L; try (injection L; intros <- e [<-|[]]; discriminate).
    revert r L. generalize (@None N) as y. induction t as [|kv t IH]; intros y r L; cbn [lint_entries] in L; [injection L; intros <- e []|].
    bind L. destruct a as [e1 y1]. bind L. injection L; intros <- e I. apply in_app_iff in I as [I|I]; [exact (entry_section _ _ _ _ _ _ E e I)|exact (IH _ _ E0 e I)]. }
  destruct (String.eqb k "versions").
  { injection L; intros <- e I. destruct v as [| | | |t]; cbn [lint_versions] in I; try destruct I. apply in_flat_map in I as (x & _ & I).
    revert I. apply when_section. discriminate. }
  destruct (String.eqb k "affected"); [|injection L; intros <- e [<-|[]]; discriminate].
  destruct v as [| | | |t]; cbn [lint_affected] in L; try (injection L; intros <- e []). bind L. injection L; intros <-.
  apply (concat_section _ _ _ E). clear. intros k r _ L. unfold lint_affected_entry in L.
  destruct (String.eqb k "functions").
  { destruct (f_affected adv) as [af|]; [|discriminate]. bind L. injection L; intros <-. apply (concat_section _ _ _ E). clear. intros f r _ L.
    unfold lint_function in L. destruct (fst f); [discriminate|]. injection L; intros <-. apply when_section. discriminate. }
  destruct (String.eqb k "arch").
  { destruct (f_affected adv) as [af|]; [|discriminate]. injection L; intros <- e I. apply in_flat_map in I as (x & _ & I). revert I. apply when_section. discriminate. }
  destruct (String.eqb k "os").
  { destruct (f_affected adv) as [af|]; [|discriminate]. injection L; intros <- e I. apply in_flat_map in I as (x & _ & I). revert I. apply when_section. discriminate. }
  injection L; intros <- e [<-|[]]. discriminate.
Qed.
(** Every offending line of the text is reported with its number in the file (counted from 1), and every report is about
    such a line. *)
Theorem C55_line_numbers x toml front title desc draft l :
  let markdown := "# " ++ title ++ newline ++ desc in
  has_prefix "[advisory]" front -> ~ ends_blank front -> ~ occurs (newline ++ "```") front -> ~ occurs newline title ->
  lint_string x toml (layout front markdown) draft = Ok l ->
  (forall n line, nth_error (file_lines (layout front markdown)) n = Some line -> List.length (file_lines front) + 2 < n ->
     bare_mention line -> exists user shown e, mentions_user line user /\ shown_as user shown /\
       In e (l_errors l) /\ le_section e = Some "markdown" /\ le_message e = Some (line_message shown (S n))) /\
  (forall e, In e (l_errors l) -> le_section e = Some "markdown" -> exists n line user shown,
     nth_error (file_lines (layout front markdown)) n = Some line /\ mentions_user line user /\ shown_as user shown /\
     le_message e = Some (line_message shown (S n))).
Proof.
  intros markdown H1 H2 H3 H4 L. destruct (layout_parts front title desc H1 H2 H3 H4) as (p & P & P1 & P2). fold markdown in P, P2.
  apply lint_string_ok in L as (p' & doc & es & F & P' & T & LA & EL). rewrite P in P'. injection P'; intros <-. clear P'.
  rewrite P1, P2 in EL. rewrite EL.
  assert (NE : front <> "") by (destruct H1 as [t ->]; discriminate).
  destruct (file_lines_layout front markdown NE H2) as [FL LEN]. rewrite FL.
  assert (NTH : forall i, nth_error (["```toml"] ++ map strip_cr (split_on nl front) ++ ["```"; ""] ++ file_lines markdown)%list (List.length (file_lines front) + 3 + i)
                          = nth_error (file_lines markdown) i).
  { intros i. rewrite LEN. cbn [List.app]. replace (List.length (split_on nl front) + 3 + i) with (S (List.length (map strip_cr (split_on nl front)) + S (S i)))
      by (rewrite map_length; lia). cbn [nth_error]. rewrite nth_error_app2 by lia. rewrite Nat.add_comm, Nat.add_sub. reflexivity. }
  split.
  - intros n line N G B. replace n with (List.length (file_lines front) + 3 + (n - (List.length (file_lines front) + 3))) in N by lia.
    rewrite NTH in N. set (i := n - (List.length (file_lines front) + 3)) in *.
    destruct (mention_errors_each (file_lines markdown) (List.length (file_lines front) + 4) i line N B) as (u & U & I).
    exists u, (trim_parens u). eexists. split; [exact U|]. split; [apply trim_shown|]. split.
    + apply in_app_iff. left. unfold lint_markdown. destruct (has_char "@" markdown) eqn:A; [exact I|].
      exfalso. apply (no_at_no_mention _ A). apply file_lines_mention. exists line. split; [|exact B]. eapply nth_error_In. exact N.
    + split; [reflexivity|]. cbn [mention_error le_message]. unfold line_message. do 3 f_equal. unfold i. replace (S n) with (List.length (file_lines front) + 4 + (n - (List.length (file_lines front) + 3))) by lia. reflexivity.
  - intros e I SM. apply in_app_iff in I as [I|I].
    + unfold lint_markdown in I. destruct (has_char "@" markdown); [|destruct I].
      apply mention_errors_in in I as (i & li & u & N & U & ->). exists (List.length (file_lines front) + 3 + i), li, u, (trim_parens u).
      rewrite NTH. split; [exact N|]. split; [exact U|]. split; [apply trim_shown|]. cbn [mention_error le_message]. unfold line_message. do 3 f_equal.
      replace (S (List.length (file_lines front) + 3 + i)) with (List.length (file_lines front) + 4 + i) by lia. reflexivity.
    + exfalso. exact (advisory_section _ _ _ _ LA e I SM).
Qed.

(** *** Files *)
Theorem C55_files x toml name content l :
  lint_file x toml name content = Ok l ->
  (exists stem, name = stem ++ ".md" /\ stem <> "") /\
  exists text, content = Some text /\ lint_string x toml text (Some (is_draft_name name)) = Ok l /\
  (forall doc markdown, headed text toml doc markdown -> distinct_keys doc -> l_errors l = [] ->
     (has_prefix "RUSTSEC-0000-0000." name <-> id_string (m_id (f_meta (l_advisory l))) = "RUSTSEC-0000-0000")).
Proof.
  unfold lint_file. intros H. destruct (has_md_extension name) eqn:M; [|discriminate]. destruct content as [s|]; [|discriminate]. split.
  - unfold has_md_extension in M. pose proof (strip_suffix_spec ".md" name) as S. destruct (strip_suffix ".md" name) as [stem|]; [|discriminate].
    exists stem. split; [apply S; reflexivity|]. intros ->. discriminate.
  - exists s. split; [reflexivity|]. split; [exact H|]. intros doc markdown HD DK L.
    destruct (C55_accepts_exactly _ _ _ _ _ _ _ H HD DK) as [F A]. pose proof (proj1 A L) as C.
    destruct HD as (p & P & S & T & ->). apply starts_with_spec in S.
    destruct (full_linted _ _ _ _ _ _ F P S T) as [(mt & M1 & M2) _ _].
    destruct (dm_id _ _ _ M2) as (ids & Tid & Pid). destruct (id_roundtrip _ _ Pid) as (I1 & _ & _). rewrite I1.
    destruct (cm_id _ _ (cd_metadata _ _ _ C mt M1) ids Tid) as [_ D]. rewrite <- (D _ eq_refl).
    unfold is_draft_name. symmetry. apply starts_with_spec.
Qed.

(** *** A case that meets the hypotheses *)
Definition ex_externals : externals :=
  mkExt (fun _ => Some (BinInt.Z.of_nat 2024, 1%N, 2%N)) (fun s => Some s) (fun _ => Some [SemverModel.mkComparator SemverModel.OpGreaterEq 1%N None None []]) true.
Definition q1 (s : string) : string := String (ascii_of_N 34) (s ++ String (ascii_of_N 34) "").
Definition ex_front : string :=
  "[advisory]" ++ newline ++ "id = " ++ q1 "RUSTSEC-2024-0001" ++ newline ++ "package = " ++ q1 "my-crate" ++ newline
  ++ "date = " ++ q1 "2024-01-02" ++ newline ++ "categories = [" ++ q1 "memory-corruption" ++ "]" ++ newline
  ++ "[affected.functions]" ++ newline ++ q1 "my_crate::read" ++ " = []" ++ newline
  ++ "[versions]" ++ newline ++ "patched = [" ++ q1 ">= 1" ++ "]".
Definition ex_doc : ttable :=
  [("advisory", TTab [("id", TStr "RUSTSEC-2024-0001"); ("package", TStr "my-crate"); ("date", TStr "2024-01-02");
                      ("categories", TArr [TStr "memory-corruption"])]);
   ("affected", TTab [("functions", TTab [("my_crate::read", TArr [])])]);
   ("versions", TTab [("patched", TArr [TStr ">= 1"])])].
Definition ex_toml (s : string) : option ttable := if String.eqb s ex_front then Some ex_doc else None.
Definition ex_title : string := "Out of bounds read".
Definition ex_desc (s : string) : string := newline ++ "Reported by " ++ s ++ " last year." ++ newline.
Definition ex_text (s : string) : string := layout ex_front ("# " ++ ex_title ++ newline ++ ex_desc s).
Definition is_ok {A} (P : A -> bool) (o : outcome A) : bool := match o with Ok a => P a | _ => false end.
Lemma is_ok_iff {A} (P : A -> bool) o : is_ok P o = true -> exists a, o = Ok a /\ P a = true.
Proof. destruct o; cbn; try discriminate. intros H. eexists. split; [reflexivity|exact H]. Qed.
Lemma ex_distinct : distinct_keys ex_doc.
Proof.
  split; [repeat constructor; cbn; intuition discriminate|]. intros k t [E|[E|[E|[]]]]; injection E; intros <- _; repeat constructor; cbn; intuition discriminate.
Qed.
Example C55_nonvacuous :
  (exists l, lint_string ex_externals ex_toml (ex_text "[@alice](https://github.com/alice)") (Some false) = Ok l /\ l_errors l = []) /\
  (exists l, lint_string ex_externals ex_toml (ex_text "@alice") (Some false) = Ok l /\
     map le_message (l_errors l) = [Some (line_message "alice" 15)]) /\
  (forall s, exists p, parts_parse (ex_text s) = Ok p /\ has_prefix "[advisory]" (pt_front p) /\ ex_toml (pt_front p) = Some ex_doc) /\
  distinct_keys ex_doc.
Proof.
  split.
  { destruct (is_ok_iff (fun l => match l_errors l with [] => true | _ => false end)
      (lint_string ex_externals ex_toml (ex_text "[@alice](https://github.com/alice)") (Some false))) as (l & L & E); [vm_compute; reflexivity|].
    exists l. split; [exact L|]. destruct (l_errors l); [reflexivity|discriminate]. }
  split.
  { destruct (is_ok_iff (fun l => match l_errors l with [mkLint _ _ (Some m)] => String.eqb m (line_message "alice" 15) | _ => false end)
      (lint_string ex_externals ex_toml (ex_text "@alice") (Some false))) as (l & L & E); [vm_compute; reflexivity|].
    exists l. split; [exact L|]. destruct (l_errors l) as [|[? ? [m|]] [|]]; try discriminate. apply String.eqb_eq in E as ->. reflexivity. }
  split; [|exact ex_distinct].
  intros s. destruct (layout_parts ex_front ex_title (ex_desc s)) as (p & P & P1 & P2).
  - eexists. reflexivity.
  - intros (w & r & W & E). assert (X : trim_end ex_front = ex_front) by (vm_compute; reflexivity).
    destruct (trim_end_spec ex_front) as (b & _ & _ & N). rewrite X in N. apply N. exists w, r. split; assumption.
  - intros O. apply (split_str_none (newline ++ "```") ex_front); [vm_compute; reflexivity|exact O].
  - intros O. apply (split_str_none newline ex_title); [vm_compute; reflexivity|exact O].
  - exists p. split; [exact P|]. rewrite P1. split; [eexists; reflexivity|]. unfold ex_toml. rewrite String.eqb_refl. reflexivity.
Qed.

(** *** What does not hold *)
(** "Well-formed advisories are accepted" fails for the form without the [advisory] header that the loader accepts: its
    keys are at the top level, where the linter knows none of them. *)
Theorem C55_headerless_refuted x toml text draft l p doc k :
  lint_string x toml text draft = Ok l -> parts_parse text = Ok p -> toml (pt_front p) = Some doc ->
  has_key k doc -> ~ In k SECTIONS -> exists e, In e (l_errors l) /\ le_kind e = InvalidKey k /\ le_section e = None.
Proof.
  intros L P T K NS. apply lint_string_ok in L as (p' & doc' & es & F & P' & T' & LA & ->). rewrite P in P'. injection P'; intros <-.
  rewrite T in T'. injection T'; intros <-. change (names_key k None (lint_markdown (pt_front p) (pt_markdown p) ++ es)%list).
  apply names_app. right. unfold lint_advisory in LA. bind LA. injection LA; intros <-. apply (concat_names _ _ _ _ _ E).
  apply tget_key in K as [v K]. apply tget_in in K. exists (k, v), [key_error None k]. split; [exact K|]. split; [|apply names_one; auto].
  unfold lint_top. destruct (String.eqb_spec k "advisory") as [->|]; [destruct NS; cbn; tauto|].
  destruct (String.eqb_spec k "versions") as [->|]; [destruct NS; cbn; tauto|].
  destruct (String.eqb_spec k "affected") as [->|]; [destruct NS; cbn; tauto|reflexivity].
Qed.
(** Such a document that loads: [id], [package] and [date] first, then [versions].  With dotted keys
    ([affected.arch = ["x86"]]) the linter crashes: the loader reads [advisory.affected], which it ignores, and the linter
    reads [affected]. *)
Definition bare_front (extra : string) : string :=
  "id = " ++ q1 "RUSTSEC-2024-0001" ++ newline ++ "package = " ++ q1 "my-crate" ++ newline
  ++ "date = " ++ q1 "2024-01-02" ++ newline ++ extra ++ "[versions]" ++ newline ++ "patched = []".
Definition bare_keys : ttable := [("id", TStr "RUSTSEC-2024-0001"); ("package", TStr "my-crate"); ("date", TStr "2024-01-02")].
Definition bare_versions : ttable := [("versions", TTab [("patched", TArr [])])].
Definition dotted_line : string := "affected.arch = [" ++ q1 "x86" ++ "]" ++ newline.
Definition dotted_keys : ttable := [("affected", TTab [("arch", TArr [TStr "x86"])])].
Definition bare_toml (extra : string) (keys : ttable) (s : string) : option ttable :=
  if String.eqb s (bare_front extra) then Some (bare_keys ++ keys ++ bare_versions)%list
  else if String.eqb s ("[advisory]" ++ newline ++ bare_front extra) then Some (("advisory", TTab (bare_keys ++ keys)%list) :: bare_versions)
  else None.
Definition bare_text (extra : string) : string := layout (bare_front extra) ("# " ++ ex_title ++ newline ++ ex_desc "alice").
Definition plain_front : string := bare_front "".
Theorem C55_no_panic_refuted :
  (exists adv l, full_from_str ex_externals (bare_toml "" []) (bare_text "") = Ok adv /\
     lint_string ex_externals (bare_toml "" []) (bare_text "") None = Ok l /\ List.length (l_errors l) = 3) /\
  (exists adv, full_from_str ex_externals (bare_toml dotted_line dotted_keys) (bare_text dotted_line) = Ok adv /\
     lint_string ex_externals (bare_toml dotted_line dotted_keys) (bare_text dotted_line) None = Panic).
Proof.
  split.
  - destruct (is_ok_iff (fun _ => true) (full_from_str ex_externals (bare_toml "" []) (bare_text ""))) as (a & A & _); [vm_compute; reflexivity|].
    destruct (is_ok_iff (fun l => Nat.eqb (List.length (l_errors l)) 3) (lint_string ex_externals (bare_toml "" []) (bare_text "") None)) as (l & L & E); [vm_compute; reflexivity|].
    exists a, l. split; [exact A|]. split; [exact L|]. apply Nat.eqb_eq. exact E.
  - destruct (is_ok_iff (fun _ => true) (full_from_str ex_externals (bare_toml dotted_line dotted_keys) (bare_text dotted_line))) as (a & A & _); [vm_compute; reflexivity|].
    exists a. split; [exact A|]. vm_compute. reflexivity.
Qed.
(** A mention at the end of a sentence is not seen. *)
Theorem C55_every_mention_refuted front : lint_markdown front "Reported by @alice." = [].
Proof. vm_compute. reflexivity. Qed.
(** The documented field [source] is called an unknown key. *)
Theorem C55_source_refuted x toml text draft l doc markdown t :
  lint_string x toml text draft = Ok l -> headed text toml doc markdown -> distinct_keys doc ->
  tget "advisory" doc = Some (TTab t) -> has_key "source" t ->
  exists e, In e (l_errors l) /\ le_kind e = InvalidKey "source" /\ le_section e = Some "advisory".
Proof.
  intros L H D T K. apply (C55_unknown_keys_are_named x toml text draft l doc markdown _ _ L H D). right. exists "advisory", t.
  split; [reflexivity|]. split; [exact T|]. split; [exact K|]. left. split; [reflexivity|]. cbn. intuition discriminate.
Qed.

Print Assumptions C55_accepts_exactly.
Print Assumptions C55_lints_what_loads.
Print Assumptions C55_unknown_keys_are_named.
Print Assumptions C55_line_numbers.
Print Assumptions C55_files.
Print Assumptions C55_headerless_refuted.
Print Assumptions C55_no_panic_refuted.
Print Assumptions C55_every_mention_refuted.
Print Assumptions C55_source_refuted.
