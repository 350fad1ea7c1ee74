(** C85: the findings of the advisory linter, one by one, and what makes it crash. *)
From Coq Require Import List NArith Ascii String Bool Arith Lia.
From Verif Require Import Base StrLib IdModel IdSpec IdProofs PkgModel DbModel UrlModel CvssTextProofs PartsModel
  PartsSpec PlatData PropsPlat ScanModel AssignModel AdvModel LintModel LintSpec LintProofs LintProofs2 PropsLint LintFullSpec PropsCrash.
Import ListNotations.
Local Open Scope string_scope.
Local Infix "++" := String.append (right associativity, at level 60).

Lemma when_in b e e' : In e' (when b e) <-> b = true /\ e' = e.
Proof. destruct b; cbn; split; [intros [<-|[]]; auto|intros [_ ->]; auto|intros []|intros [H _]; discriminate H]. Qed.
Lemma underscores_path s : underscores s = path_name s.
Proof. induction s as [|a s IH]; [reflexivity|]. cbn [underscores path_name]. rewrite IH. reflexivity. Qed.

Section Meta.
  Context (adv : full_advisory) (draft : option bool).
  Notation m := (f_meta adv).

  (** The year the linter remembers after an entry. *)
  Definition id_says : option N :=
    match id_kind_of (m_id m) with KCve | KOther => None | _ => id_year (m_id m) end.
  Definition date_says : option N := match date_year (m_date m) with Ok y => Some y | _ => None end.
  Definition or_else (a b : option N) : option N := match a with Some _ => a | None => b end.
  Definition after (year : option N) (k : string) : option N :=
    if String.eqb k "id" then or_else year id_says else if String.eqb k "date" then or_else year date_says else year.
  Definition after_all (t : ttable) (year : option N) : option N := fold_left (fun y kv => after y (fst kv)) t year.
  Lemma id_says_iff y : id_says = Some y <-> compared_year (m_id m) y.
  Proof.
    unfold id_says, compared_year. destruct (id_kind_of (m_id m)); split; try discriminate; intros H; try tauto;
      try (split; [exact H|split; discriminate]); destruct H as (_ & A & B); congruence.
  Qed.
  Lemma date_says_iff y : date_says = Some y <-> date_year (m_date m) = Ok y.
  Proof. unfold date_says. destruct (date_year (m_date m)); split; try discriminate; congruence. Qed.

  (** What one entry gives, in a given state; crashes aside. *)
  Definition entry_reports (year : option N) (k : string) (v : tval) (e : lint_error) : Prop :=
    (exists y1 y2, k = "id" /\ year = Some y2 /\ id_says = Some y1 /\ y1 <> y2 /\ e = bad_value "advisory" "id" "year in advisory ID does not match date") \/
    (exists y1 y2, k = "date" /\ year = Some y2 /\ date_says = Some y1 /\ y1 <> y2 /\ e = bad_value "advisory" "date" "year in advisory ID does not match date") \/
    (~ In e [bad_value "advisory" "id" "year in advisory ID does not match date"; bad_value "advisory" "date" "year in advisory ID does not match date"]
     /\ reports_metadata adv draft [(k, v)] e).
  Lemma has_one k k' (v : tval) : has_key k [(k', v)] <-> k = k'.
  Proof. unfold has_key. cbn. intuition congruence. Qed.
  Lemma before_one k1 k2 k v : ~ before k1 k2 [(k, v)].
  Proof. intros (a & w & b & w' & c & E). destruct a as [|? [|? ?]]; try discriminate E. injection E as _ _ E. destruct b; discriminate E. Qed.

  Ltac no_reports :=
    match goal with
    | H : reports_metadata _ _ [_] _ |- _ =>
        let k0 := fresh "k0" in
        inversion H as [? HK|HK|? ? HB|? ? HB|? HK|HK|? HK|? HK|HK|? HK|k0 HK NK]; subst;
        try (apply has_one in HK; discriminate HK); try (destruct (before_one _ _ _ _ HB));
        try (destruct HK as [HK|[]]; discriminate HK); try (apply has_one in HK; subst k0; destruct NK; cbn; tauto)
    end.
  Lemma entry_spec year k v es y' : lint_entry adv draft year (k, v) = Ok (es, y') ->
    y' = after year k /\ forall e, In e es <-> entry_reports year k v e.
  Proof.
    unfold lint_entry, after. intros H.
    assert (Sep : forall e, ~ In e [bad_value "advisory" "id" "year in advisory ID does not match date"; bad_value "advisory" "date" "year in advisory ID does not match date"] ->
      (reports_metadata adv draft [(k, v)] e -> entry_reports year k v e)) by (intros; right; right; auto).
    destruct (String.eqb_spec k "id") as [->|N1].
    { set (e1 := match draft with
                 | Some d => when (negb (Bool.eqb (is_placeholder (m_id m)) d))
                               (value_error "advisory" "id" "advisory ID draft status does not match file name")
                 | None => []
                 end) in *.
      assert (E1 : forall e, In e e1 <-> exists d, draft = Some d /\ (d = true <-> id_string (m_id m) <> "RUSTSEC-0000-0000") /\
        e = bad_value "advisory" "id" "advisory ID draft status does not match file name").
      { intros e. unfold e1. destruct draft as [d|]; [|split; [intros []|intros (d & D & _); discriminate D]].
        rewrite when_in, negb_true_iff, eqb_false_iff. unfold is_placeholder.
        destruct (String.eqb_spec (id_string (m_id m)) placeholder) as [Ei|Ei].
        - split.
          + intros [Nd ->]. exists d. split; [reflexivity|]. split; [|reflexivity]. split; [intros ->; congruence|intros X; destruct (X Ei)].
          + intros (d0 & D & X & ->). injection D as <-. split; [|reflexivity]. intros <-. destruct (proj1 X eq_refl Ei).
        - split.
          + intros [Nd ->]. exists d. split; [reflexivity|]. split; [|reflexivity]. split; [intros _; exact Ei|intros _; destruct d; congruence].
          + intros (d0 & D & X & ->). injection D as <-. split; [|reflexivity]. intros <-. discriminate (proj2 X Ei). }
      assert (Draft : forall e, In e e1 -> entry_reports year "id" v e).
      { intros e He. apply E1 in He as (d & D & X & ->). apply Sep; [intros [Q|[Q|[]]]; discriminate Q|].
        eapply r_draft; [apply has_one; reflexivity|exact D|exact X]. }
      assert (Inv : forall e, ~ In e [bad_value "advisory" "id" "year in advisory ID does not match date"; bad_value "advisory" "date" "year in advisory ID does not match date"] ->
         reports_metadata adv draft [("id", v)] e -> In e e1 \/ id_kind_of (m_id m) = KOther /\ e = bad_value "advisory" "id" "unknown advisory ID type").
      { intros e Ne Hr. no_reports.
        - left. apply E1. eauto.
        - right. auto. }
      destruct (id_kind_eqb (id_kind_of (m_id m)) KOther) eqn:KO.
      - assert (Ko : id_kind_of (m_id m) = KOther) by (destruct (id_kind_of (m_id m)); (reflexivity||discriminate KO)).
        injection H as <- <-. assert (Is : id_says = None) by (unfold id_says; rewrite Ko; reflexivity).
        split; [unfold or_else; rewrite Is; destruct year; reflexivity|]. intros e. rewrite in_app_iff. split.
        + intros [He|[<-|[]]]; [exact (Draft e He)|]. apply Sep; [intros [Q|[Q|[]]]; discriminate Q|].
          apply r_kind; [apply has_one; reflexivity|exact Ko].
        + intros [(y1 & y2 & _ & _ & Q & _)|[(y1 & y2 & Q & _)|[Ne Hr]]]; [congruence|discriminate Q|].
          destruct (Inv e Ne Hr) as [He|[_ ->]]; [left; exact He|right; left; reflexivity].
      - assert (Ko : id_kind_of (m_id m) <> KOther) by (intros Q; rewrite Q in KO; discriminate KO).
        assert (Back : forall e, ~ In e [bad_value "advisory" "id" "year in advisory ID does not match date"; bad_value "advisory" "date" "year in advisory ID does not match date"] ->
         reports_metadata adv draft [("id", v)] e -> In e e1) by (intros e Ne Hr; destruct (Inv e Ne Hr) as [He|[Q _]]; [exact He|congruence]).
        assert (Quiet : id_says = None -> es = e1 -> forall e, In e es <-> entry_reports year "id" v e).
        { intros Is -> e. split; [apply Draft|]. intros [(y1 & y2 & _ & _ & Q & _)|[(y1 & y2 & Q & _)|[Ne Hr]]]; [congruence|discriminate Q|apply Back; assumption]. }
        destruct (id_year (m_id m)) as [y1|] eqn:Y.
        2:{ injection H as <- <-. assert (Is : id_says = None) by (unfold id_says; rewrite Y; destruct (id_kind_of (m_id m)); reflexivity).
            split; [unfold or_else; rewrite Is; destruct year; reflexivity|apply Quiet; auto]. }
        destruct (id_kind_eqb (id_kind_of (m_id m)) KCve) eqn:KC.
        { assert (Kc : id_kind_of (m_id m) = KCve) by (destruct (id_kind_of (m_id m)); (reflexivity||discriminate KC)).
          injection H as <- <-. assert (Is : id_says = None) by (unfold id_says; rewrite Kc; reflexivity).
          split; [unfold or_else; rewrite Is; destruct year; reflexivity|apply Quiet; auto]. }
        assert (Is : id_says = Some y1) by (unfold id_says; destruct (id_kind_of (m_id m)); (exact Y||congruence||discriminate KC)).
        destruct year as [y2|]; injection H as <- <-; (split; [cbn [or_else]; rewrite ?Is; reflexivity|]); intros e.
        + rewrite in_app_iff, when_in, negb_true_iff, N.eqb_neq. split.
          * intros [He|[Ny ->]]; [exact (Draft e He)|]. left. exists y1, y2. auto 10.
          * intros [(z1 & z2 & _ & Q2 & Q & Nz & ->)|[(z1 & z2 & Q & _)|[Ne Hr]]]; [|discriminate Q|left; apply Back; assumption].
            right. split; [congruence|reflexivity].
        + split; [apply Draft|]. intros [(z1 & z2 & _ & Q2 & _)|[(z1 & z2 & Q & _)|[Ne Hr]]]; [discriminate Q2|discriminate Q|apply Back; assumption]. }
    destruct (String.eqb_spec k "categories") as [->|N2].
    { injection H as <- <-. split; [reflexivity|]. intros e. rewrite in_map_iff. split.
      - intros (c & <- & Hc). apply filter_In in Hc as [Hc Oc]. destruct c; try discriminate Oc. apply Sep; [intros [Q|[Q|[]]]; discriminate Q|].
        eapply r_category; [apply has_one; reflexivity|exact Hc].
      - intros [(y1 & y2 & Q & _)|[(y1 & y2 & Q & _)|[Ne Hr]]]; [discriminate Q..|]. no_reports.
        eexists. split; [reflexivity|]. apply filter_In. split; [eassumption|reflexivity]. }
    destruct (String.eqb_spec k "collection") as [->|N3].
    { injection H as <- <-. split; [reflexivity|]. intros e. split.
      - intros [<-|[]]. apply Sep; [intros [Q|[Q|[]]]; discriminate Q|]. apply r_collection. apply has_one. reflexivity.
      - intros [(y1 & y2 & Q & _)|[(y1 & y2 & Q & _)|[Ne Hr]]]; [discriminate Q..|]. no_reports. left. reflexivity. }
    destruct (String.eqb_spec k "informational") as [->|N4].
    { destruct (m_informational m) as [inf|] eqn:Inf; [|discriminate H].
      assert (R : forall e, entry_reports year "informational" v e <-> exists s, inf = IOther s /\ e = bad_value "advisory" "informational" "unknown informational advisory type").
      { intros e. split.
        - intros [(y1 & y2 & Q & _)|[(y1 & y2 & Q & _)|[Ne Hr]]]; [discriminate Q..|]. no_reports.
          match goal with Q : m_informational m = Some (IOther ?z) |- _ => exists z; split; [congruence|reflexivity] end.
        - intros (s & -> & ->). apply Sep; [intros [Q|[Q|[]]]; discriminate Q|]. eapply r_informational; [apply has_one; reflexivity|exact Inf]. }
      split; [destruct inf; injection H as _ <-; reflexivity|]. intros e. rewrite R.
      destruct inf as [| | |s]; injection H as <- _.
      1-3: split; [intros []|intros (s' & Q & _); discriminate Q].
      split; [intros [Q|[]]; exists s; auto|intros (s' & _ & ->); left; reflexivity]. }
    destruct (String.eqb_spec k "url") as [->|N5].
    { injection H as <- <-. split; [reflexivity|]. intros e. split.
      - intros He. destruct v as [u| | | |]; try (destruct He; fail). apply when_in in He as [W ->].
        apply Sep; [intros [Q|[Q|[]]]; discriminate Q|]. apply (r_url adv draft [("url", TStr u)] u); [left; reflexivity|].
        intros P. unfold has_prefix in P. apply starts_with_spec in P. rewrite P in W. discriminate W.
      - intros [(y1 & y2 & Q & _)|[(y1 & y2 & Q & _)|[Ne Hr]]]; [discriminate Q..|]. no_reports.
        destruct HK as [HK|[]]; injection HK as ->. apply when_in. split; [|reflexivity]. apply negb_true_iff.
        match goal with |- starts_with ?p ?u = false => destruct (starts_with p u) eqn:S; [|reflexivity] end.
        apply starts_with_spec in S. contradiction. }
    destruct (String.eqb_spec k "date") as [->|N6].
    { destruct (date_year (m_date m)) as [y1| |] eqn:Dy; cbn [obind] in H; [|discriminate H..].
      assert (Ds : date_says = Some y1) by (apply date_says_iff; exact Dy).
      assert (Back : forall e, ~ In e [bad_value "advisory" "id" "year in advisory ID does not match date"; bad_value "advisory" "date" "year in advisory ID does not match date"] ->
         reports_metadata adv draft [("date", v)] e -> False).
      { intros e Ne Hr. no_reports. }
      destruct year as [y2|]; injection H as <- <-; (split; [cbn [or_else]; rewrite ?Ds; reflexivity|]); intros e.
      - rewrite when_in, negb_true_iff, N.eqb_neq. split.
        + intros [Ny ->]. right. left. exists y1, y2. auto 10.
        + intros [(z1 & z2 & Q & _)|[(z1 & z2 & _ & Q2 & Q & Nz & ->)|[Ne Hr]]]; [discriminate Q| |destruct (Back e Ne Hr)].
          split; [congruence|reflexivity].
      - split; [intros []|]. intros [(z1 & z2 & Q & _)|[(z1 & z2 & _ & Q2 & _)|[Ne Hr]]]; [discriminate Q|discriminate Q2|destruct (Back e Ne Hr)]. }
    destruct (String.eqb_spec k "yanked") as [->|N7].
    { injection H as <- <-. split; [reflexivity|]. intros e. rewrite when_in. split.
      - intros [W ->]. apply Sep; [intros [Q|[Q|[]]]; discriminate Q|]. apply r_yanked; [apply has_one; reflexivity|].
        destruct (m_withdrawn m); [discriminate W|reflexivity].
      - intros [(y1 & y2 & Q & _)|[(y1 & y2 & Q & _)|[Ne Hr]]]; [discriminate Q..|]. no_reports.
        match goal with Q : m_withdrawn m = None |- _ => rewrite Q end. auto. }
    destruct (String.eqb_spec k "license") as [->|N8].
    { injection H as <- <-. split; [reflexivity|]. intros e. split.
      - intros He. destruct v as [u| | | |]; try (destruct He; fail). apply when_in in He as [W ->].
        apply Sep; [intros [Q|[Q|[]]]; discriminate Q|]. apply (r_license adv draft [("license", TStr u)] u); [left; reflexivity|].
        intros P. apply license_known in P. congruence.
      - intros [(y1 & y2 & Q & _)|[(y1 & y2 & Q & _)|[Ne Hr]]]; [discriminate Q..|]. no_reports.
        destruct HK as [HK|[]]; injection HK as ->. apply when_in. split; [|reflexivity].
        match goal with |- ?b = true => destruct b eqn:B; [reflexivity|] end. apply license_known in B. contradiction. }
    destruct (known SILENT k) eqn:Kn.
    { injection H as <- <-. split; [reflexivity|]. intros e. split; [intros []|].
      apply known_iff in Kn. intros [(y1 & y2 & Q & _)|[(y1 & y2 & Q & _)|[Ne Hr]]]; [congruence|congruence|].
      exfalso. cbn in Kn. decompose [or] Kn; subst; try contradiction; no_reports. }
    injection H as <- <-. split; [reflexivity|].
    assert (Nk : ~ In k ("collection" :: ADVISORY_KEYS)).
    { intros Hi. assert (~ In k SILENT) as Ns by (intros Q; apply known_iff in Q; congruence). cbn in Hi, Ns.
      decompose [or] Hi; subst; try contradiction; apply Ns; auto 20. }
    intros e. split.
    - intros [<-|[]]. apply Sep; [intros [Q|[Q|[]]]; discriminate Q|]. apply r_key; [apply has_one; reflexivity|exact Nk].
    - intros [(y1 & y2 & Q & _)|[(y1 & y2 & Q & _)|[Ne Hr]]]; [congruence|congruence|].
      inversion Hr as [? HK|HK|? ? HB|? ? HB|? HK|HK|? HK|? HK|HK|? HK|k0 HK NK]; subst;
        try (apply has_one in HK; congruence); try (destruct (before_one _ _ _ _ HB)); try (destruct HK as [HK|[]]; congruence).
      apply has_one in HK. subst k0. left. reflexivity.
  Qed.
End Meta.
