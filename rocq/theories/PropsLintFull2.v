(** C85, continued: tables, documents, files. *)
From Coq Require Import List NArith Ascii String Bool Arith Lia.
From Verif Require Import Base StrLib IdModel IdSpec IdProofs PkgModel DbModel UrlModel CvssTextProofs PartsModel
  PartsSpec PlatData PropsPlat ScanModel PropsScan AssignModel AdvModel LintModel LintSpec LintProofs LintProofs2 PropsLint LintFullSpec PropsCrash PropsLintFull.
Import ListNotations.
Local Open Scope string_scope.
Local Infix "++" := String.append (right associativity, at level 60).

Section Tables.
  Context (adv : full_advisory) (draft : option bool).
  Notation m := (f_meta adv).

  Lemma entries_in t : forall year es, lint_entries adv draft year t = Ok es -> forall e, In e es <->
    exists t1 k v t2, t = (t1 ++ (k, v) :: t2)%list /\ entry_reports adv draft (after_all adv t1 year) k v e.
  Proof.
    induction t as [|[k v] r IH]; intros year es H e; cbn [lint_entries] in H.
    { injection H as <-. split; [intros []|intros (t1 & k & v & t2 & E & _); destruct t1; discriminate E]. }
    destruct (lint_entry adv draft year (k, v)) as [[l y']| |] eqn:E1; cbn [obind] in H; [|discriminate H..]. cbn [fst snd] in H.
    destruct (lint_entries adv draft y' r) as [es'| |] eqn:E2; cbn [obind] in H; [|discriminate H..]. injection H as <-.
    destruct (entry_spec adv draft year k v l y' E1) as [-> L]. rewrite in_app_iff, L, (IH _ _ E2). split.
    - intros [R|(t1 & k' & v' & t2 & -> & R)].
      + exists [], k, v, r. split; [reflexivity|exact R].
      + exists ((k, v) :: t1), k', v', t2. split; [reflexivity|exact R].
    - intros ([|[k1 v1] t1] & k' & v' & t2 & E & R).
      + injection E as <- <- <-. left. exact R.
      + injection E as <- <- ->. right. exists t1, k', v', t2. split; [reflexivity|exact R].
  Qed.
  Lemma after_all_cons k v t year : after_all adv ((k, v) :: t) year = after_all adv t (after adv year k).
  Proof. reflexivity. Qed.
  Lemma or_none (a : option N) : or_else a None = a.
  Proof. destruct a; reflexivity. Qed.
  Lemma or_none_l (a : option N) : or_else None a = a.
  Proof. reflexivity. Qed.
  Lemma or_assoc a b c : or_else (or_else a b) c = or_else a (or_else b c).
  Proof. destruct a; reflexivity. Qed.
  Lemma or_twice a : or_else a a = a.
  Proof. destruct a; reflexivity. Qed.
  Lemma has_key_cons k k' (v : tval) t : has_key k ((k', v) :: t) <-> k = k' \/ has_key k t.
  Proof. unfold has_key. cbn. intuition congruence. Qed.
  Lemma without_id t : forall year, ~ has_key "id" t -> 
    (has_key "date" t -> after_all adv t year = or_else year (date_says adv)) /\ (~ has_key "date" t -> after_all adv t year = year).
  Proof.
    induction t as [|[k v] t IH]; intros year N; [split; [intros []|reflexivity]|].
    rewrite after_all_cons. assert (N' : ~ has_key "id" t) by (intros X; apply N; apply has_key_cons; auto).
    assert (Nk : k <> "id") by (intros ->; apply N; apply has_key_cons; auto).
    unfold after. destruct (String.eqb_spec k "id"); [contradiction|]. destruct (String.eqb_spec k "date") as [->|Nd].
    - destruct (IH (or_else year (date_says adv)) N') as [A B]. split.
      + intros _. destruct (in_dec string_dec "date" (map fst t)) as [X|X]; [rewrite (A X), or_assoc, or_twice; reflexivity|exact (B X)].
      + intros X. destruct X. apply has_key_cons. auto.
    - destruct (IH year N') as [A B]. split; intros X.
      + apply A. apply has_key_cons in X as [X|X]; [congruence|exact X].
      + apply B. intros Y. apply X. apply has_key_cons. auto.
  Qed.
  Lemma without_date t : forall year, ~ has_key "date" t -> 
    (has_key "id" t -> after_all adv t year = or_else year (id_says adv)) /\ (~ has_key "id" t -> after_all adv t year = year).
  Proof.
    induction t as [|[k v] t IH]; intros year N; [split; [intros []|reflexivity]|].
    rewrite after_all_cons. assert (N' : ~ has_key "date" t) by (intros X; apply N; apply has_key_cons; auto).
    assert (Nk : k <> "date") by (intros ->; apply N; apply has_key_cons; auto).
    unfold after. destruct (String.eqb_spec k "id") as [->|Nd].
    - destruct (IH (or_else year (id_says adv)) N') as [A B]. split.
      + intros _. destruct (in_dec string_dec "id" (map fst t)) as [X|X]; [rewrite (A X), or_assoc, or_twice; reflexivity|exact (B X)].
      + intros X. destruct X. apply has_key_cons. auto.
    - destruct (String.eqb_spec k "date"); [contradiction|]. destruct (IH year N') as [A B]. split; intros X.
      + apply A. apply has_key_cons in X as [X|X]; [congruence|exact X].
      + apply B. intros Y. apply X. apply has_key_cons. auto.
  Qed.

  Lemma key_split k (t : ttable) : has_key k t -> exists t1 v t2, t = (t1 ++ (k, v) :: t2)%list.
  Proof.
    intros H. apply in_map_iff in H as ([k' v] & E & H). cbn in E. subst k'. apply in_split in H as (t1 & t2 & ->). eauto.
  Qed.
  Lemma split_key t1 k v t2 : has_key k (t1 ++ (k, v) :: t2)%list.
  Proof. unfold has_key. rewrite map_app, in_app_iff. right. left. reflexivity. Qed.
  Lemma nodup_before t1 k v t2 : NoDup (map fst (t1 ++ (k, v) :: t2)%list) -> ~ has_key k t1.
  Proof. rewrite map_app. cbn [map fst]. intros ND X. apply NoDup_remove_2 in ND. apply ND. apply in_app_iff. left. exact X. Qed.

  Lemma one_to_all t k v e : In (k, v) t -> reports_metadata adv draft [(k, v)] e -> reports_metadata adv draft t e.
  Proof.
    intros Hi H. assert (K : forall k0, has_key k0 [(k, v)] -> has_key k0 t) by (intros k0 Hk; apply has_one in Hk as ->; apply (in_map fst) in Hi; exact Hi).
    assert (W : forall k0 v0, In (k0, v0) [(k, v)] -> In (k0, v0) t) by (intros k0 v0 [Q|[]]; injection Q as <- <-; exact Hi).
    inversion H as [? HK|HK|? ? HB|? ? HB|? HK|HK|? HK|? HK|HK|? HK|k0 HK NK]; subst; try (destruct (before_one _ _ _ _ HB)).
    - eapply r_draft; eauto.
    - apply r_kind; auto.
    - eapply r_category; eauto.
    - apply r_collection; auto.
    - eapply r_informational; eauto.
    - eapply r_url; eauto.
    - apply r_yanked; auto.
    - eapply r_license; eauto.
    - apply r_key; auto.
  Qed.

  Lemma metadata_findings t es : NoDup (map fst t) -> lint_entries adv draft None t = Ok es ->
    forall e, In e es <-> reports_metadata adv draft t e.
  Proof.
    intros ND H e. rewrite (entries_in t None es H). split.
    - intros (t1 & k & v & t2 & Et & R). pose proof ND as ND1. rewrite Et in ND1. pose proof (nodup_before _ _ _ _ ND1) as Nb.
      destruct R as [(y1 & y2 & -> & S & I & Ny & ->)|[(y1 & y2 & -> & S & I & Ny & ->)|[_ R]]].
      + destruct (without_id t1 None Nb) as [A B]. destruct (in_dec string_dec "date" (map fst t1)) as [X|X]; [|rewrite (B X) in S; discriminate S].
        rewrite (A X) in S. cbn [or_else] in S. apply (r_id_year adv draft t y1 y2); [|apply id_says_iff; exact I|apply date_says_iff; exact S|exact Ny].
        destruct (key_split _ _ X) as (a & w & b & ->). exists a, w, b, v, t2. rewrite Et, <- app_assoc. reflexivity.
      + destruct (without_date t1 None Nb) as [A B]. destruct (in_dec string_dec "id" (map fst t1)) as [X|X]; [|rewrite (B X) in S; discriminate S].
        rewrite (A X) in S. cbn [or_else] in S.
        apply (r_date_year adv draft t y2 y1); [|apply id_says_iff; exact S|apply date_says_iff; exact I|congruence].
        destruct (key_split _ _ X) as (a & w & b & ->). exists a, w, b, v, t2. rewrite Et, <- app_assoc. reflexivity.
      + apply (one_to_all t k v); [rewrite Et; apply in_app_iff; right; left; reflexivity|exact R].
    - intros R.
      assert (One : forall k, has_key k t -> (forall v, reports_metadata adv draft [(k, v)] e) ->
        ~ In e [bad_value "advisory" "id" "year in advisory ID does not match date"; bad_value "advisory" "date" "year in advisory ID does not match date"] ->
        exists t1 k v t2, t = (t1 ++ (k, v) :: t2)%list /\ entry_reports adv draft (after_all adv t1 None) k v e).
      { intros k Hk Hr Ne. destruct (key_split _ _ Hk) as (t1 & v & t2 & ->). exists t1, k, v, t2. split; [reflexivity|]. right. right. auto. }
      assert (Val : forall k v, In (k, v) t -> reports_metadata adv draft [(k, v)] e ->
        ~ In e [bad_value "advisory" "id" "year in advisory ID does not match date"; bad_value "advisory" "date" "year in advisory ID does not match date"] ->
        exists t1 k v t2, t = (t1 ++ (k, v) :: t2)%list /\ entry_reports adv draft (after_all adv t1 None) k v e).
      { intros k v Hk Hr Ne. apply in_split in Hk as (t1 & t2 & ->). exists t1, k, v, t2. split; [reflexivity|]. right. right. auto. }
      assert (Self : forall k (v : tval), has_key k [(k, v)]) by (intros; apply has_one; reflexivity).
      destruct R as [d HK D X|HK K|y1 y2 HB C Dy Ny|y1 y2 HB C Dy Ny|s HK Hc|HK|s HK Hi|u HK P|HK W|l HK P|k HK NK].
      + apply (One "id" HK); [intros v; eapply r_draft; eauto|intros [Q|[Q|[]]]; discriminate Q].
      + apply (One "id" HK); [intros v; apply r_kind; auto|intros [Q|[Q|[]]]; discriminate Q].
      + destruct HB as (a & w & b & v & c & Et). exists (a ++ ("date", w) :: b)%list, "id", v, c. 
        assert (Et' : t = ((a ++ ("date", w) :: b) ++ ("id", v) :: c)%list) by (rewrite Et, <- app_assoc; reflexivity).
        split; [exact Et'|]. left. exists y1, y2. split; [reflexivity|]. pose proof ND as ND1. rewrite Et' in ND1.
        destruct (without_id _ None (nodup_before _ _ _ _ ND1)) as [A _]. rewrite (A (split_key _ _ _ _)). cbn [or_else].
        split; [apply date_says_iff; exact Dy|]. split; [apply id_says_iff; exact C|]. split; [exact Ny|reflexivity].
      + destruct HB as (a & w & b & v & c & Et). exists (a ++ ("id", w) :: b)%list, "date", v, c. 
        assert (Et' : t = ((a ++ ("id", w) :: b) ++ ("date", v) :: c)%list) by (rewrite Et, <- app_assoc; reflexivity).
        split; [exact Et'|]. right. left. exists y2, y1. split; [reflexivity|]. pose proof ND as ND1. rewrite Et' in ND1.
        destruct (without_date _ None (nodup_before _ _ _ _ ND1)) as [A _]. rewrite (A (split_key _ _ _ _)). cbn [or_else].
        split; [apply id_says_iff; exact C|]. split; [apply date_says_iff; exact Dy|]. split; [congruence|reflexivity].
      + apply (One "categories" HK); [intros v; eapply r_category; eauto|intros [Q|[Q|[]]]; discriminate Q].
      + apply (One "collection" HK); [intros v; apply r_collection; auto|intros [Q|[Q|[]]]; discriminate Q].
      + apply (One "informational" HK); [intros v; eapply r_informational; eauto|intros [Q|[Q|[]]]; discriminate Q].
      + apply (Val "url" _ HK); [eapply r_url; [left; reflexivity|exact P]|intros [Q|[Q|[]]]; discriminate Q].
      + apply (One "yanked" HK); [intros v; apply r_yanked; auto|intros [Q|[Q|[]]]; discriminate Q].
      + apply (Val "license" _ HK); [eapply r_license; [left; reflexivity|exact P]|intros [Q|[Q|[]]]; discriminate Q].
      + apply (One k HK); [intros v; apply r_key; auto|intros [Q|[Q|[]]]; discriminate Q].
  Qed.

  (** A table of metadata makes the linter crash, and when. *)
  Lemma entry_outcome year k v : 
    (exists r, lint_entry adv draft year (k, v) = Ok r) /\ ~ (k = "informational" /\ m_informational m = None \/ k = "date" /\ forall y, date_year (m_date m) <> Ok y) \/
    lint_entry adv draft year (k, v) = Panic /\ (k = "informational" /\ m_informational m = None \/ k = "date" /\ forall y, date_year (m_date m) <> Ok y).
  Proof.
    unfold lint_entry.
    destruct (String.eqb_spec k "id") as [->|N1].
    { left. split; [|intros [[Q _]|[Q _]]; discriminate Q]. destruct (id_kind_eqb (id_kind_of (m_id m)) KOther); [eauto|].
      destruct (id_year (m_id m)); [|eauto]. destruct (id_kind_eqb (id_kind_of (m_id m)) KCve); [eauto|]. destruct year; eauto. }
    destruct (String.eqb_spec k "categories") as [->|N2]; [left; split; [eauto|intros [[Q _]|[Q _]]; discriminate Q]|].
    destruct (String.eqb_spec k "collection") as [->|N3]; [left; split; [eauto|intros [[Q _]|[Q _]]; discriminate Q]|].
    destruct (String.eqb_spec k "informational") as [->|N4].
    { destruct (m_informational m) as [inf|]; [left; split; [destruct inf; eauto|intros [[_ Q]|[Q _]]; discriminate Q]|right; auto]. }
    destruct (String.eqb_spec k "url") as [->|N5]; [left; split; [eauto|intros [[Q _]|[Q _]]; discriminate Q]|].
    destruct (String.eqb_spec k "date") as [->|N6].
    { unfold date_year, date_component. destruct (nth_error _ _) as [p|]; [destruct (parse_u32 p) as [y|]|]; cbn [obind].
      - left. split; [destruct year; eauto|]. intros [[Q _]|[_ Q]]; [discriminate Q|exact (Q y eq_refl)].
      - right. split; [reflexivity|]. right. split; [reflexivity|discriminate].
      - right. split; [reflexivity|]. right. split; [reflexivity|discriminate]. }
    assert (Rest : ~ (k = "informational" /\ m_informational m = None \/ k = "date" /\ forall y, date_year (m_date m) <> Ok y))
      by (intros [[Q _]|[Q _]]; contradiction).
    left. split; [|exact Rest]. destruct (String.eqb k "yanked"); [eauto|]. destruct (String.eqb k "license"); [eauto|]. destruct (known SILENT k); eauto.
  Qed.
  Definition upsets_metadata (t : ttable) : Prop :=
    has_key "informational" t /\ m_informational m = None \/ has_key "date" t /\ forall y, date_year (m_date m) <> Ok y.
  Lemma metadata_outcome t : forall year,
    (exists es, lint_entries adv draft year t = Ok es) /\ ~ upsets_metadata t \/ lint_entries adv draft year t = Panic /\ upsets_metadata t.
  Proof.
    induction t as [|[k v] r IH]; intros year; cbn [lint_entries].
    { left. split; [eauto|]. intros [[[] _]|[[] _]]. }
    unfold upsets_metadata. rewrite !has_key_cons.
    destruct (entry_outcome year k v) as [[[[l y'] ->] N]|[-> U]]; cbn [obind].
    2:{ right. split; [reflexivity|]. destruct U as [[-> U]|[-> U]]; auto. }
    cbn [fst snd]. destruct (IH y') as [[[es ->] N']|[-> U]]; cbn [obind].
    - left. split; [eauto|]. unfold upsets_metadata in N'. intros [[[<-|Q] U]|[[<-|Q] U]]; [apply N|apply N'|apply N|apply N']; auto.
    - right. split; [reflexivity|]. unfold upsets_metadata in U. tauto.
  Qed.

  (** The table [affected]. *)
  Definition upsets_affected (k : string) : Prop :=
    In k ["functions"; "arch"; "os"] /\ f_affected adv = None \/
    k = "functions" /\ exists af rs, f_affected adv = Some af /\ In ([], rs) (af_functions af).
  Lemma functions_outcome l :
    (exists es, omap (lint_function adv) l = Ok es /\ (forall rs, ~ In ([], rs) l) /\
       forall e, In e (List.concat es) <-> (exists s p rs, In (s :: p, rs) l /\ s <> path_name (m_package m)) /\
         e = bad_value "affected" "functions" "function path must start with crate name") \/
    (omap (lint_function adv) l = Panic /\ exists rs, In ([], rs) l).
  Proof.
    induction l as [|[p0 rs0] l IH]; cbn [omap].
    { left. exists []. split; [reflexivity|]. split; [intros rs []|]. intros e. split; [intros []|intros [(s & p & rs & [] & _) _]]. }
    unfold lint_function at 1 3. cbn [fst]. destruct p0 as [|s0 p0]; cbn [obind]; [right; split; [reflexivity|exists rs0; left; reflexivity]|].
    destruct IH as [(es & -> & N & L)|[-> (rs & U)]]; cbn [obind]; [|right; split; [reflexivity|exists rs; right; exact U]].
    left. eexists. split; [reflexivity|]. split; [intros rs [Q|Q]; [discriminate Q|exact (N rs Q)]|].
    intros e. cbn [List.concat]. rewrite in_app_iff, L, when_in, underscores_path, negb_true_iff, String.eqb_neq. split.
    - intros [[Ne ->]|[(s & p & rs & Hi & Hn) ->]]; (split; [|reflexivity]); [exists s0, p0, rs0; split; [left; reflexivity|exact Ne]|
        exists s, p, rs; split; [right; exact Hi|exact Hn]].
    - intros [(s & p & rs & [Hi|Hi] & Hn) ->]; [left; split; [congruence|reflexivity]|right; split; [eauto|reflexivity]].
  Qed.
  Lemma affected_entry_outcome k :
    (exists es, lint_affected_entry adv k = Ok es /\ ~ upsets_affected k /\ forall e, In e es <-> forall v, reports_affected adv [(k, v)] e) \/
    (lint_affected_entry adv k = Panic /\ upsets_affected k).
  Proof.
    assert (V : exists v0 : tval, v0 = TStr "") by eauto. destruct V as [v0 _].
    unfold lint_affected_entry, upsets_affected. destruct (String.eqb_spec k "functions") as [->|N1].
    { destruct (f_affected adv) as [af|] eqn:A; [|right; split; [reflexivity|left; cbn; auto]].
      destruct (functions_outcome (af_functions af)) as [(es & -> & N & L)|[-> (rs & U)]]; cbn [obind].
      2:{ right. split; [reflexivity|]. right. split; [reflexivity|]. exists af, rs. auto. }
      left. eexists. split; [reflexivity|]. split.
      - intros [[_ Q]|[_ (af' & rs & Q & U)]]; [discriminate Q|]. injection Q as <-. exact (N rs U).
      - intros e. rewrite L. split.
        + intros [(s & p & rs & Hi & Hn) ->] v. apply (r_function adv [("functions", v)] af s p rs); auto. apply has_one; reflexivity.
        + intros H. specialize (H v0). inversion H as [af' s p rs HK Ha Hi Hn|af' a HK|af' HK|k' HK NK]; subst;
            try (apply has_one in HK; discriminate HK).
          * split; [|reflexivity]. rewrite A in Ha. injection Ha as <-. eauto.
          * apply has_one in HK as ->. destruct NK. cbn. auto. }
    destruct (String.eqb_spec k "arch") as [->|N2].
    { destruct (f_affected adv) as [af|] eqn:A; [|right; split; [reflexivity|left; cbn; auto]].
      left. eexists. split; [reflexivity|]. split.
      - intros [[_ Q]|[Q _]]; discriminate Q.
      - intros e. rewrite in_flat_map. split.
        + intros (a & Ha & He) v. apply when_in in He as [W ->]. apply (r_arch adv [("arch", v)] af a); auto; [apply has_one; reflexivity|].
          intros x Q. destruct C57_target_names_round_trip as [AS _]. apply AS in Q. rewrite Q in W. rewrite orb_false_r in W. apply String.eqb_eq in W. subst a.
          vm_compute in Q. discriminate Q.
        + intros H. specialize (H v0). inversion H as [af' s p rs HK|af' a HK Ha Hi Hn|af' HK|k' HK NK]; subst;
            try (apply has_one in HK; discriminate HK).
          * rewrite A in Ha. injection Ha as <-. exists a. split; [exact Hi|]. apply when_in. split; [|reflexivity]. apply orb_true_iff. right.
            destruct (arch_from_str a) as [x| |] eqn:Ax; [|reflexivity..]. destruct C57_target_names_round_trip as [AS _]. apply AS in Ax. destruct (Hn x Ax).
          * apply has_one in HK as ->. destruct NK. cbn. auto. }
    destruct (String.eqb_spec k "os") as [->|N3].
    { destruct (f_affected adv) as [af|] eqn:A; [|right; split; [reflexivity|left; cbn; auto]].
      left. eexists. split; [reflexivity|]. split.
      - intros [[_ Q]|[Q _]]; discriminate Q.
      - intros e. rewrite in_flat_map. split.
        + intros (a & Ha & He) v. apply when_in in He as [W ->]. apply String.eqb_eq in W. subst a.
          apply (r_os adv [("os", v)] af); auto. apply has_one; reflexivity.
        + intros H. specialize (H v0). inversion H as [af' s p rs HK|af' a HK|af' HK Ha Hi|k' HK NK]; subst;
            try (apply has_one in HK; discriminate HK).
          * rewrite A in Ha. injection Ha as <-. exists "". split; [exact Hi|]. apply when_in. auto.
          * apply has_one in HK as ->. destruct NK. cbn. auto. }
    left. eexists. split; [reflexivity|]. assert (Nk : ~ In k ["functions"; "arch"; "os"]) by (intros [Q|[Q|[Q|[]]]]; congruence). split.
    - intros [[Q _]|[Q _]]; contradiction.
    - intros e. split.
      + intros [<-|[]] v. apply r_affected_key; [apply has_one; reflexivity|exact Nk].
      + intros H. specialize (H v0). inversion H as [af' s p rs HK|af' a HK|af' HK|k' HK NK]; subst; apply has_one in HK; try congruence.
        subst k'. left. reflexivity.
  Qed.
  Lemma affected_one_to_all t k v e : has_key k t -> reports_affected adv [(k, v)] e -> reports_affected adv t e.
  Proof.
    intros Hi H. assert (K : forall k0, has_key k0 [(k, v)] -> has_key k0 t) by (intros k0 Hk; apply has_one in Hk as ->; exact Hi).
    inversion H; subst; [eapply r_function|eapply r_arch|eapply r_os|apply r_affected_key]; eauto.
  Qed.
  Lemma affected_all_to_one t e : reports_affected adv t e -> exists k, has_key k t /\ forall v, reports_affected adv [(k, v)] e.
  Proof.
    intros H. assert (Self : forall k (v : tval), has_key k [(k, v)]) by (intros; apply has_one; reflexivity).
    inversion H; subst; [exists "functions"|exists "arch"|exists "os"|exists k]; (split; [assumption|]); intros v;
      [eapply r_function|eapply r_arch|eapply r_os|apply r_affected_key]; eauto.
  Qed.
  Lemma affected_outcome t :
    (exists es, lint_affected adv (TTab t) = Ok es /\ (forall k, has_key k t -> ~ upsets_affected k) /\ forall e, In e es <-> reports_affected adv t e) \/
    (lint_affected adv (TTab t) = Panic /\ exists k, has_key k t /\ upsets_affected k).
  Proof.
    cbn [lint_affected].
    assert (G : forall ks, (exists es, omap (lint_affected_entry adv) ks = Ok es /\ (forall k, In k ks -> ~ upsets_affected k) /\
                  forall e, In e (List.concat es) <-> exists k, In k ks /\ forall v, reports_affected adv [(k, v)] e) \/
                (omap (lint_affected_entry adv) ks = Panic /\ exists k, In k ks /\ upsets_affected k)).
    { induction ks as [|k ks IH]; cbn [omap].
      { left. exists []. split; [reflexivity|]. split; [intros k []|]. intros e. split; [intros []|intros (k & [] & _)]. }
      destruct (affected_entry_outcome k) as [(l & -> & N & L)|[-> U]]; cbn [obind]; [|right; split; [reflexivity|exists k; split; [left; reflexivity|exact U]]].
      destruct IH as [(es & -> & N' & L')|[-> (k' & Hk & U)]]; cbn [obind]; [|right; split; [reflexivity|exists k'; split; [right; exact Hk|exact U]]].
      left. eexists. split; [reflexivity|]. split; [intros k' [<-|Hk]; auto|]. intros e. cbn [List.concat]. rewrite in_app_iff, L, L'. split.
      - intros [H|(k' & Hk & H)]; [exists k; split; [left; reflexivity|exact H]|exists k'; split; [right; exact Hk|exact H]].
      - intros (k' & [<-|Hk] & H); [left; exact H|right; eauto]. }
    destruct (G (map fst t)) as [(es & -> & N & L)|[-> U]]; cbn [obind].
    - left. eexists. split; [reflexivity|]. split; [exact N|]. intros e. rewrite L. split.
      + intros (k & Hk & H). exact (affected_one_to_all t k (TStr "") e Hk (H _)).
      + intros H. exact (affected_all_to_one t e H).
    - right. split; [reflexivity|exact U].
  Qed.

  (** A document. *)
  Definition top_upsets (kv : string * tval) : Prop :=
    (exists t, kv = ("advisory", TTab t) /\ upsets_metadata t) \/ (exists t k, kv = ("affected", TTab t) /\ has_key k t /\ upsets_affected k).
  Lemma top_outcome k v : (forall t, v = TTab t -> NoDup (map fst t)) ->
    (exists es, lint_top adv draft (k, v) = Ok es /\ ~ top_upsets (k, v) /\ forall e, In e es <-> reports adv draft [(k, v)] e) \/
    (lint_top adv draft (k, v) = Panic /\ top_upsets (k, v)).
  Proof.
    intros ND. cbn [lint_top]. destruct (String.eqb_spec k "advisory") as [->|N1].
    { destruct v as [s|b|n|l|t]; cbn [lint_metadata].
      5:{ destruct (metadata_outcome t None) as [[(es & E) N]|[E U]].
          2:{ right. split; [exact E|]. left. eauto. }
          left. exists es. split; [exact E|]. split.
          - intros [(t' & Q & U)|(t' & k & Q & _)]; [injection Q as <-; exact (N U)|discriminate Q].
          - intros e. rewrite (metadata_findings t es (ND t eq_refl) E). split.
            + intros R. eapply r_metadata; [left; reflexivity|exact R].
            + intros R. inversion R as [k0 HK NK|v0 HI HN|t0 e0 HI HR|t0 k0 HI|t0 e0 HI]; subst.
              * apply has_one in HK as ->. destruct NK. cbn. auto.
              * destruct HI as [Q|[]]. injection Q as <-. destruct (HN t eq_refl).
              * destruct HI as [Q|[]]. injection Q as <-. exact HR.
              * destruct HI as [Q|[]]; discriminate Q.
              * destruct HI as [Q|[]]; discriminate Q. }
      all: left; eexists; (split; [reflexivity|]); split; [intros [(t' & Q & U)|(t' & k & Q & _)]; discriminate Q|]; intros e; split;
        [intros [<-|[]]; eapply r_no_table; [left; reflexivity|discriminate]|];
        intros R; inversion R as [k0 HK NK|v0 HI HN|t0 e0 HI HR|t0 k0 HI|t0 e0 HI]; subst;
        [apply has_one in HK as ->; destruct NK; cbn; auto|left; reflexivity|destruct HI as [Q|[]]; discriminate Q..]. }
    destruct (String.eqb_spec k "versions") as [->|N2].
    { left. eexists. split; [reflexivity|]. split; [intros [(t' & Q & U)|(t' & k & Q & _)]; discriminate Q|]. intros e. split.
      - destruct v as [s|b|n|l|t]; cbn [lint_versions]; try (intros []). intros He. apply in_flat_map in He as ([k v] & Hk & He).
        apply when_in in He as [W ->]. cbn [fst] in *. eapply r_versions_key; [left; reflexivity| |].
        + apply (in_map fst) in Hk. exact Hk.
        + intros Q. apply negb_true_iff in W. apply known_iff in Q. congruence.
      - intros R. inversion R as [k0 HK NK|v0 HI HN|t0 e0 HI HR|t0 k0 HI HK NK|t0 e0 HI]; subst; try (destruct HI as [Q|[]]; discriminate Q).
        + apply has_one in HK as ->. destruct NK. cbn. auto.
        + destruct HI as [Q|[]]. injection Q as ->. cbn [lint_versions]. apply in_map_iff in HK as ([k v] & <- & HK).
          apply in_flat_map. exists (k, v). split; [exact HK|]. apply when_in. split; [|reflexivity]. apply negb_true_iff. cbn [fst] in *.
          destruct (known ["patched"; "unaffected"] k) eqn:Kn; [|reflexivity]. apply known_iff in Kn. contradiction. }
    destruct (String.eqb_spec k "affected") as [->|N3].
    { destruct v as [s|b|n|l|t].
      5:{ destruct (affected_outcome t) as [(es & E & N & L)|[E (k & Hk & U)]].
          2:{ right. split; [exact E|]. right. exists t, k. auto. }
          left. exists es. split; [exact E|]. split.
          - intros [(t' & Q & U)|(t' & k & Q & Hk & U)]; [discriminate Q|]. injection Q as <-. exact (N k Hk U).
          - intros e. rewrite L. split.
            + intros R. eapply r_affected; [left; reflexivity|exact R].
            + intros R. inversion R as [k0 HK NK|v0 HI HN|t0 e0 HI HR|t0 k0 HI|t0 e0 HI HR]; subst; try (destruct HI as [Q|[]]; discriminate Q).
              * apply has_one in HK as ->. destruct NK. cbn. auto.
              * destruct HI as [Q|[]]. injection Q as <-. exact HR. }
      all: left; eexists; (split; [reflexivity|]); split; [intros [(t' & Q & U)|(t' & k & Q & _)]; discriminate Q|]; intros e; split;
        [intros []|]; intros R; inversion R as [k0 HK NK|v0 HI HN|t0 e0 HI HR|t0 k0 HI|t0 e0 HI]; subst; try (destruct HI as [Q|[]]; discriminate Q);
        apply has_one in HK as ->; destruct NK; cbn; auto. }
    left. eexists. split; [reflexivity|]. split; [intros [(t' & Q & U)|(t' & k' & Q & _)]; congruence|]. intros e. split.
    - intros [<-|[]]. apply r_section; [apply has_one; reflexivity|]. intros [Q|[Q|[Q|[]]]]; congruence.
    - intros R. inversion R as [k0 HK NK|v0 HI HN|t0 e0 HI HR|t0 k0 HI|t0 e0 HI]; subst; try (destruct HI as [Q|[]]; congruence).
      apply has_one in HK as ->. left. reflexivity.
  Qed.
  Lemma reports_one doc e : reports adv draft doc e <-> exists k v, In (k, v) doc /\ reports adv draft [(k, v)] e.
  Proof.
    split.
    - intros R. destruct R as [k HK NK|v HI HN|t e HI HR|t k HI HK NK|t e HI HR].
      + apply in_map_iff in HK as ([k' v] & <- & HK). exists k', v. split; [exact HK|]. apply r_section; [apply has_one; reflexivity|exact NK].
      + exists "advisory", v. split; [exact HI|]. eapply r_no_table; [left; reflexivity|exact HN].
      + exists "advisory", (TTab t). split; [exact HI|]. eapply r_metadata; [left; reflexivity|exact HR].
      + exists "versions", (TTab t). split; [exact HI|]. eapply r_versions_key; [left; reflexivity|exact HK|exact NK].
      + exists "affected", (TTab t). split; [exact HI|]. eapply r_affected; [left; reflexivity|exact HR].
    - intros (k & v & Hi & R). inversion R as [k0 HK NK|v0 HI HN|t0 e0 HI HR|t0 k0 HI HK NK|t0 e0 HI HR]; subst;
        try (destruct HI as [Q|[]]; injection Q as -> ->).
      + apply has_one in HK as ->. apply r_section; [|exact NK]. apply (in_map fst) in Hi. exact Hi.
      + eapply r_no_table; eassumption.
      + eapply r_metadata; eassumption.
      + eapply r_versions_key; eassumption.
      + eapply r_affected; eassumption.
  Qed.
  Lemma upsets_one doc : upsets adv doc <-> exists kv, In kv doc /\ top_upsets kv.
  Proof.
    split.
    - intros U. destruct U as [t HI HK Hn|t HI HK Hn|t k HI HK Hk Hn|t af rs HI HK Ha Hp].
      + eexists. split; [exact HI|]. left. exists t. split; [reflexivity|]. left. auto.
      + eexists. split; [exact HI|]. left. exists t. split; [reflexivity|]. right. auto.
      + eexists. split; [exact HI|]. right. exists t, k. split; [reflexivity|]. split; [exact HK|]. left. auto.
      + eexists. split; [exact HI|]. right. exists t, "functions". split; [reflexivity|]. split; [exact HK|]. right. eauto.
    - intros (kv & HI & [(t & -> & [[HK Hn]|[HK Hn]])|(t & k & -> & HK & [[Hk Hn]|[-> (af & rs & Ha & Hp)]])]).
      + eapply u_informational; eassumption.
      + eapply u_date; eassumption.
      + eapply u_affected; eassumption.
      + eapply u_path; eassumption.
  Qed.
  Lemma document_outcome doc : (forall k t, In (k, TTab t) doc -> NoDup (map fst t)) ->
    (exists es, lint_advisory adv draft doc = Ok es /\ ~ upsets adv doc /\ forall e, In e es <-> reports adv draft doc e) \/
    (lint_advisory adv draft doc = Panic /\ upsets adv doc).
  Proof.
    intros ND. unfold lint_advisory.
    assert (G : (exists es, omap (lint_top adv draft) doc = Ok es /\ (forall kv, In kv doc -> ~ top_upsets kv) /\
                  forall e, In e (List.concat es) <-> exists k v, In (k, v) doc /\ reports adv draft [(k, v)] e) \/
                (omap (lint_top adv draft) doc = Panic /\ exists kv, In kv doc /\ top_upsets kv)).
    { induction doc as [|[k v] ks IH]; cbn [omap].
      { left. exists []. split; [reflexivity|]. split; [intros k []|]. intros e. split; [intros []|intros (k & v & [] & _)]. }
      destruct (top_outcome k v) as [(l & -> & N & L)|[-> U]]; cbn [obind].
      { intros t ->. apply (ND k). left. reflexivity. }
      2:{ right. split; [reflexivity|]. eexists. split; [left; reflexivity|exact U]. }
      destruct IH as [(es & -> & N' & L')|[-> (k' & Hk & U)]]; cbn [obind]; [intros k' t Hk; apply (ND k'); right; exact Hk| |
        right; split; [reflexivity|exists k'; split; [right; exact Hk|exact U]]].
      left. eexists. split; [reflexivity|]. split; [intros k' [<-|Hk]; auto|]. intros e. cbn [List.concat]. rewrite in_app_iff, L, L'. split.
      - intros [H|(k' & v' & Hk & H)]; [exists k, v; split; [left; reflexivity|exact H]|exists k', v'; split; [right; exact Hk|exact H]].
      - intros (k' & v' & [Q|Hk] & H); [injection Q as <- <-; left; exact H|right; eauto]. }
    destruct G as [(es & -> & N & L)|[-> U]]; cbn [obind].
    - left. eexists. split; [reflexivity|]. split; [intros U; apply upsets_one in U as (kv & Hk & U); exact (N kv Hk U)|].
      intros e. rewrite L, reports_one. reflexivity.
    - right. split; [reflexivity|]. apply upsets_one. exact U.
  Qed.
End Tables.

(** *** The findings outside the text are these and no others. *)
Theorem C85_findings : forall x toml text draft l p doc,
  lint_string x toml text draft = Ok l -> parts_parse text = Ok p -> toml (pt_front p) = Some doc -> distinct_keys doc ->
  full_from_str x toml text = Ok (l_advisory l) /\
  forall e, le_section e <> Some "markdown" -> (In e (l_errors l) <-> reports (l_advisory l) draft doc e).
Proof.
  intros x toml text draft l p doc L P T [_ ND]. unfold lint_string in L.
  destruct (full_from_str x toml text) as [adv| |] eqn:F; cbn [obind] in L; [|discriminate L..]. rewrite P in L. cbn [obind] in L. rewrite T in L.
  destruct (document_outcome adv draft doc ND) as [(es & E & _ & R)|[E _]]; rewrite E in L; cbn [obind] in L; [|discriminate L].
  injection L as <-. cbn [l_advisory l_errors]. split; [reflexivity|]. intros e Ne. rewrite in_app_iff, R. split; [|auto].
  intros [H|H]; [|exact H]. destruct Ne. unfold lint_markdown in H. destruct (has_char "@" (pt_markdown p)); [|destruct H].
  apply mention_errors_in in H as (i & li & u & _ & _ & ->). reflexivity.
Qed.
Print Assumptions C85_findings.

(** *** When the linter gives a result, reports an error, crashes. *)
Theorem C85_outcome : forall x toml text draft p,
  parts_parse text = Ok p -> (forall doc, toml (pt_front p) = Some doc -> distinct_keys doc) ->
  (lint_string x toml text draft = Panic <->
     full_from_str x toml text = Panic \/
     exists adv doc, full_from_str x toml text = Ok adv /\ toml (pt_front p) = Some doc /\ upsets adv doc) /\
  (lint_string x toml text draft = Err <->
     full_from_str x toml text = Err \/ (exists adv, full_from_str x toml text = Ok adv) /\ toml (pt_front p) = None).
Proof.
  intros x toml text draft p P ND. unfold lint_string. rewrite P.
  destruct (full_from_str x toml text) as [adv| |]; cbn [obind].
  2:{ split; split; auto; try discriminate. intros [Q|(a & d & Q & _)]; discriminate Q. }
  2:{ split; split; auto; try discriminate. intros [Q|[[a Q] _]]; discriminate Q. }
  destruct (toml (pt_front p)) as [doc|] eqn:T.
  2:{ split; split; try discriminate; auto.
      - intros [Q|(a & d & _ & Q & _)]; discriminate Q.
      - intros _. right. split; [eauto|reflexivity]. }
  destruct (document_outcome adv draft doc (proj2 (ND doc eq_refl))) as [(es & E & N & R)|[E U]]; rewrite E; cbn [obind].
  - split; split; try discriminate.
    + intros [Q|(a & d & Q & Q' & U)]; [discriminate Q|]. injection Q as <-. injection Q' as <-. destruct (N U).
    + intros [Q|[_ Q]]; discriminate Q.
  - split; split; try discriminate; auto.
    + intros _. right. exists adv, doc. auto.
    + intros [Q|[_ Q]]; discriminate Q.
Qed.
Print Assumptions C85_outcome.

(** *** A document with its header crashes the linter only if its date has no year. *)
Theorem C85_headed_crashes : forall x toml text draft adv doc markdown,
  full_from_str x toml text = Ok adv -> headed text toml doc markdown -> distinct_keys doc ->
  (lint_string x toml text draft = Panic <-> forall y, date_year (m_date (f_meta adv)) <> Ok y).
Proof.
  intros x toml text draft adv doc markdown F (p & P & S & T & ->) [ND1 ND2]. apply starts_with_spec in S.
  change (starts_with HEADER (pt_front p) = true) in S. destruct (full_linted _ _ _ _ _ _ F P S T) as [(mt & M1 & M2) AF _].
  destruct (C85_outcome x toml text draft p P) as [C _].
  { intros d Hd. rewrite T in Hd. injection Hd as <-. split; assumption. }
  rewrite C. clear C. split.
  - intros [Q|(a & d & Q & Q' & U)]; [congruence|]. rewrite F in Q. injection Q as <-. rewrite T in Q'. injection Q' as <-.
    destruct U as [t HI HK Hn|t HI HK Hn|t k HI HK Hk Hn|t af rs HI HK Ha Hp]; [|exact Hn|..]; exfalso.
    + apply (in_tget _ _ _ ND1) in HI. assert (t = mt) as -> by congruence. apply tget_key in HK as [v HK].
      destruct (dm_informational _ _ _ M2) as [[N _]|(s & _ & N)]; congruence.
    + apply (in_tget _ _ _ ND1) in HI. destruct AF as [[N _]|(t' & af & A1 & A2 & _)]; congruence.
    + apply (in_tget _ _ _ ND1) in HI. destruct AF as [[N _]|(t' & af' & A1 & A2 & [A3])]; [congruence|].
      assert (af' = af) as -> by congruence. destruct A3 as (t'' & E & _ & _ & A3).
      apply (in_map fst) in Hp. cbn [fst] in Hp. destruct A3 as [[_ A3]|(ft & _ & A3 & _)]; [rewrite A3 in Hp; destruct Hp|].
      apply A3 in Hp as (k' & _ & Hp). apply C53_parse_iff in Hp as (_ & L & _). cbn in L. lia.
  - intros H. right. exists adv, doc. split; [exact F|]. split; [exact T|].
    apply (u_date adv doc mt); [apply tget_in; exact M1| |exact H]. apply tget_key. eexists. exact (dm_date _ _ _ M2).
Qed.
Print Assumptions C85_headed_crashes.

(** A document with many faults: the findings are those of the specification. *)
Definition faulty_front : string := "[advisory]" ++ newline ++ "faulty = 1".
Definition faulty_doc : ttable :=
  [("advisory", TTab [("id", TStr "RUSTSEC-2023-0001"); ("package", TStr "my-crate"); ("date", TStr "2024-01-02");
                      ("categories", TArr [TStr "mischief"]); ("url", TStr "http://a.b/c"); ("license", TStr "MIT"); ("yanked", TBool true);
                      ("collection", TStr "crates"); ("informational", TStr "news"); ("faulty", TBool true)]);
   ("affected", TTab [("functions", TTab [("other::read", TArr [])]); ("arch", TArr [TStr "z80"]); ("os", TArr [TStr ""])]);
   ("versions", TTab [("patched", TArr [TStr ">= 1"]); ("broken", TArr [])]); ("extra", TBool true)].
Definition faulty_toml (s : string) : option ttable := if String.eqb s faulty_front then Some faulty_doc else None.
Definition faulty_text : string := layout faulty_front ("# " ++ ex_title ++ newline ++ ex_desc "Alice").
Example C85_nonvacuous : exists l p, lint_string ex_externals faulty_toml faulty_text (Some true) = Ok l /\ parts_parse faulty_text = Ok p /\
  faulty_toml (pt_front p) = Some faulty_doc /\ distinct_keys faulty_doc /\ List.length (l_errors l) = 14%nat /\
  In (bad_value "advisory" "date" "year in advisory ID does not match date") (l_errors l).
Proof.
  destruct (is_ok_iff (fun l => Nat.eqb (List.length (l_errors l)) 14) (lint_string ex_externals faulty_toml faulty_text (Some true))) as (l & L & E);
    [vm_compute; reflexivity|]. exists l.
  destruct (is_ok_iff (fun p => String.eqb (pt_front p) faulty_front) (parts_parse faulty_text)) as (p & P & Ep); [vm_compute; reflexivity|].
  exists p. split; [exact L|]. split; [exact P|]. apply String.eqb_eq in Ep.
  assert (T : faulty_toml (pt_front p) = Some faulty_doc) by (rewrite Ep; unfold faulty_toml; rewrite String.eqb_refl; reflexivity).
  assert (D : distinct_keys faulty_doc).
  { split; [repeat constructor; cbn; intuition discriminate|].
    intros k t [Q|[Q|[Q|[Q|[]]]]]; try discriminate Q; injection Q; intros <- _; repeat constructor; cbn; intuition discriminate. }
  split; [exact T|]. split; [exact D|]. split; [apply Nat.eqb_eq; exact E|].
  destruct (C85_findings _ _ _ _ _ _ _ L P T D) as [F R]. apply R; [discriminate|].
  assert (Y : m_id (f_meta (l_advisory l)) = mkId KRustSec (Some 2023%N) "RUSTSEC-2023-0001" /\ m_date (f_meta (l_advisory l)) = "2024-01-02").
  { assert (X : match full_from_str ex_externals faulty_toml faulty_text with
                | Ok a => m_id (f_meta a) = mkId KRustSec (Some 2023%N) "RUSTSEC-2023-0001" /\ m_date (f_meta a) = "2024-01-02"
                | _ => False end) by (vm_compute; split; reflexivity).
    rewrite F in X. exact X. }
  destruct Y as [Yi Yd].
  eapply r_metadata; [left; reflexivity|]. apply (r_date_year (l_advisory l) (Some true) _ 2023%N 2024%N).
  - exists [], (TStr "RUSTSEC-2023-0001"), [("package", TStr "my-crate")], (TStr "2024-01-02"). eexists. reflexivity.
  - rewrite Yi. split; [reflexivity|]. split; discriminate.
  - rewrite Yd. reflexivity.
  - discriminate.
Qed.
Example C85_crash_nonvacuous : exists adv p doc, full_from_str ex_externals (bare_toml dotted_line dotted_keys) (bare_text dotted_line) = Ok adv /\
  parts_parse (bare_text dotted_line) = Ok p /\ bare_toml dotted_line dotted_keys (pt_front p) = Some doc /\ upsets adv doc.
Proof.
  destruct (is_ok_iff (fun a => match f_affected a with None => true | _ => false end) (full_from_str ex_externals (bare_toml dotted_line dotted_keys) (bare_text dotted_line)))
    as (a & A & Ea); [vm_compute; reflexivity|].
  destruct (is_ok_iff (fun p => String.eqb (pt_front p) (bare_front dotted_line)) (parts_parse (bare_text dotted_line))) as (p & P & Ep); [vm_compute; reflexivity|].
  apply String.eqb_eq in Ep. exists a, p. eexists. split; [exact A|]. split; [exact P|]. rewrite Ep. unfold bare_toml at 1. rewrite String.eqb_refl. split; [reflexivity|].
  apply (u_affected a _ [("arch", TArr [TStr "x86"])] "arch"); [cbn; auto 10|left; reflexivity|cbn; auto|]. destruct (f_affected a); [discriminate Ea|reflexivity].
Qed.

(** ** Files *)
(** A file is linted as its text if its name is a non-empty name followed by `.md` and it can be read; otherwise linting fails, without
    crashing.  Its advisory may have the placeholder identifier exactly if the name begins with it and a point. *)
Theorem C85_file : forall x toml name content,
  ((exists stem, stem <> "" /\ name = stem ++ ".md") -> forall text, content = Some text -> exists draft, lint_file x toml name content = lint_string x toml text (Some draft) /\
     (draft = true <-> exists rest, name = "RUSTSEC-0000-0000." ++ rest)) /\
  (~ (exists stem, stem <> "" /\ name = stem ++ ".md") \/ content = None -> lint_file x toml name content = Err).
Proof.
  intros x toml name content. unfold lint_file.
  assert (M : has_md_extension name = true <-> exists stem, stem <> "" /\ name = stem ++ ".md").
  { unfold has_md_extension. pose proof (strip_suffix_spec ".md" name) as S. destruct (strip_suffix ".md" name) as [stem|].
    - assert (E : name = stem ++ ".md") by (apply S; reflexivity). rewrite negb_true_iff, String.eqb_neq. split; [intros N; exists stem; auto|]. intros (stem' & N & E'). apply S in E'. injection E' as ->. exact N.
    - split; [discriminate|]. intros (stem & _ & E). apply S in E. discriminate. }
  split.
  - intros E text ->. rewrite (proj2 M E). exists (is_draft_name name). split; [reflexivity|]. apply starts_with_spec.
  - intros [N| ->]; [destruct (has_md_extension name); [destruct (N (proj1 M eq_refl))|reflexivity]|]. destruct (has_md_extension name); reflexivity.
Qed.
Print Assumptions C85_file.
