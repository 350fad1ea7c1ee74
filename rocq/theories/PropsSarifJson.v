(** C84: the SARIF document. *)
From Coq Require Import List NArith ZArith Ascii String Bool Arith Lia SpecFloat.
From Verif Require Import Base StrLib SemverModel OsvModel IdModel PkgModel DbModel VerText UrlModel CvssText CvssFloat CvssSpec CvssScoreSpec Cvss2 Cvss3 Cvss4 Cvss4Spec
  PropsCvssText PropsCvss2 PropsCvss3 PropsCvss4 SeverityModel PropsSeverity PartsModel AdvModel MtimeModel OsvAdvModel AuditModel SarifModel ReportJsonModel
  JsonSpec PropsOsvAdv3 ReportJsonSpec PropsReportJson4 SarifJsonModel SarifJsonSpec.
Import ListNotations.
Local Open Scope string_scope.

(** ** Scores are not negative zeros *)
Definition nonneg (x : f64) : bool := match x with S754_zero s | S754_infinity s | S754_finite s _ _ => negb s | S754_nan => true end.
Lemma aux_nonneg m e l : nonneg (binary_round_aux 53 1024 false m e l) = true.
Proof.
  unfold binary_round_aux. destruct (shr_fexp _ _ _ _ _) as [r1 e1]. destruct (shr_fexp _ _ _ _ _) as [r2 e2].
  destruct (shr_m r2); [reflexivity| |reflexivity]. destruct (_ <=? _)%Z; reflexivity.
Qed.
Lemma normalize_nonneg m e : (0 <= m)%Z -> nonneg (binary_normalize 53 1024 m e false) = true.
Proof.
  intros H. destruct m as [|m|m]; [reflexivity| |lia]. cbn [binary_normalize]. unfold binary_round. destruct (shl_align _ _ _) as [mz ez]. apply aux_nonneg.
Qed.
Lemma fint_nonneg n : (0 <= n)%Z -> nonneg (fint n) = true.
Proof. apply normalize_nonneg. Qed.
Lemma fdiv_nonneg a b : nonneg a = true -> nonneg b = true -> nonneg (fdiv a b) = true.
Proof.
  unfold fdiv, SFdiv. destruct a as [s|s| |s m e], b as [t|t| |t n f]; cbn [nonneg]; intros A B; try reflexivity; destruct s, t; try discriminate; try reflexivity.
  destruct (SFdiv_core_binary _ _ _ _ _ _) as [[q e'] l]. apply aux_nonneg.
Qed.
Lemma fadd_nonneg a b : nonneg a = true -> nonneg b = true -> nonneg (fadd a b) = true.
Proof.
  unfold fadd, SFadd. destruct a as [s|s| |s m e], b as [t|t| |t n f]; cbn [nonneg]; intros A B; try reflexivity; destruct s, t; try discriminate; try reflexivity.
  apply normalize_nonneg. cbn [cond_Zopp]. lia.
Qed.
Lemma ffloor_nonneg a : nonneg a = true -> nonneg (ffloor a) = true.
Proof.
  unfold ffloor. destruct a as [s|s| |s m e]; try (intros H; exact H). intros H. destruct (Z.leb_spec 0 e); [exact H|]. cbv zeta.
  destruct (Z.eqb_spec ((if s then - Z.pos m else Z.pos m) / 2 ^ (- e)) 0); [exact H|].
  apply fint_nonneg. destruct s; [discriminate|]. apply Z.div_pos; [lia|]. apply Z.pow_pos_nonneg; lia.
Qed.
Lemma as_u64_nonneg x : (0 <= as_u64 x)%Z.
Proof.
  destruct x as [s|s| |[] m e]; cbn [as_u64]; try (destruct s); try lia. destruct (Z.leb_spec 0 e).
  - pose proof (Z.pow_pos_nonneg 2 e ltac:(lia) ltac:(lia)). lia.
  - pose proof (Z.pow_pos_nonneg 2 (- e) ltac:(lia) ltac:(lia)). pose proof (Z.div_pos (Z.pos m) (2 ^ (- e)) ltac:(lia) ltac:(lia)). lia.
Qed.
Lemma roundup3_nonneg x : nonneg (roundup3 x) = true.
Proof.
  unfold roundup3. pose proof (as_u64_nonneg (fmul x lit_100000)). destruct (_ =? _)%Z.
  - apply fdiv_nonneg; [apply fint_nonneg; assumption|reflexivity].
  - apply fdiv_nonneg; [|reflexivity]. apply fadd_nonneg; [|reflexivity]. apply ffloor_nonneg, fdiv_nonneg; [apply fint_nonneg; assumption|reflexivity].
Qed.
Lemma base2_nonneg_all : forallb (fun i => forallb (fun e => match base_of2 (fst e) (fst i) with S754_zero true => false | _ => true end) expls) (nub fq_eqb impacts) = true.
Proof. vm_cast_no_check (eq_refl true). Qed.
Lemma score2_zero v : vector2 v -> score2 v <> S754_zero true.
Proof.
  intros V E. pose proof base2_nonneg_all as T. rewrite forallb_forall in T. specialize (T _ (nub_in fq_eqb _ _ fq_eqb_eq (impact_in v V))).
  rewrite forallb_forall in T. specialize (T _ (expl_in v V)). cbn [fst] in T. unfold score2 in E.
  destruct (base_of2 (exploitability2 v) (impact2 v)) as [[]|s| |s m e]; try discriminate; revert E; unfold fmax; destruct (flt _ _); discriminate.
Qed.
(** ** The text of a score *)
Lemma texts_table : (fun l => forallb (fun p => String.eqb (fmt1 (snd p)) (score_text (fst p))) l) tenths_up_to_10 = true.
Proof. vm_cast_no_check (eq_refl true). Qed.
Lemma fmt1_tenths n x : (0 <= n <= 100)%Z -> tenths n x -> x <> S754_zero true -> fmt1 x = score_text n.
Proof.
  intros R T N. pose proof texts_table as H. cbv beta in H. rewrite forallb_forall in H. specialize (H _ (tenths_in n R)). cbn [fst snd] in H. apply String.eqb_eq in H.
  destruct (feq_cases _ _ T) as [->|(s & t & -> & E)]; [exact H|]. destruct s; [destruct (N eq_refl)|].
  assert (n = 0%Z \/ n <> 0%Z) as [->|Nz] by lia; [reflexivity|]. exfalso.
  pose proof (tenths_dec_le n 0 R ltac:(lia)) as L. rewrite E in L. assert (D : dec 0 10 = S754_zero false) by (vm_compute; reflexivity). rewrite D in L.
  destruct t; cbn in L; symmetry in L; apply Z.leb_le in L; lia.
Qed.
Lemma score_printed pow s c : accurate pow -> cvss_parse s = Ok c ->
  exists n x, published_score c n /\ cvss_score pow c = Ok x /\ fmt1 x = score_text n.
Proof.
  intros A P. destruct (vector_scored pow s c A P) as (n & x & _ & Sn & R & E & T & _). exists n, x. split; [exact Sn|]. split; [exact E|].
  apply fmt1_tenths; [exact R|exact T|]. intros Z. subst x. apply C46_dispatch in P. destruct c as [v|b|b|v]; cbn [cvss_score] in E.
  - apply C42_stable in P as (V & _). injection E as E. exact (score2_zero v V E).
  - injection E as E. pose proof (f_equal nonneg E) as K. unfold score3, combine3 in K. cbv zeta in K. rewrite roundup3_nonneg in K. discriminate.
  - injection E as E. pose proof (f_equal nonneg E) as K. unfold score3, combine3 in K. cbv zeta in K. rewrite roundup3_nonneg in K. discriminate.
  - destruct (C43_stable _ _ P) as (V & K & _). destruct (all_scores4 v V K) as (m & y & Ey & _ & Rm & -> & _). rewrite E in Ey. injection Ey as Ey.
    pose proof (f_equal nonneg Ey) as B. unfold dec in B. rewrite fdiv_nonneg in B; [discriminate|apply fint_nonneg; lia|reflexivity].
Qed.

(** ** One step per finding *)
Section Steps.
  Context (pow : f64 -> f64) (path : string).
  Definition rule_json (f : finding) : outcome json :=
    match f with
    | Vulnerable v => sj_rule_of_advisory pow (jv_advisory v) true
    | Warned w => match jw_advisory w with Some m => sj_rule_of_advisory pow m false | None => Ok (sj_rule_of_kind (jw_kind w)) end
    end.
  Definition result_json (f : finding) : json := match f with Vulnerable v => sj_result_of_vuln path v | Warned w => sj_result_of_warning path w end.
  Fixpoint steps (fs : list finding) (st : sj_state) : outcome sj_state :=
    match fs with
    | [] => Ok st
    | f :: fs => let? st := sj_push (rule_of f) (rule_json f) (result_json f) st in steps fs st
    end.
  Lemma steps_app fs gs : forall st, steps (fs ++ gs) st = let? st := steps fs st in steps gs st.
  Proof. induction fs as [|f fs IH]; intros st; [reflexivity|]. cbn [app steps]. destruct (sj_push _ _ _ st); cbn [obind]; [apply IH|reflexivity|reflexivity]. Qed.
  Lemma vulns_steps vs : forall st, sj_vulns pow path vs st = steps (map Vulnerable vs) st.
  Proof. induction vs as [|v vs IH]; intros st; [reflexivity|]. cbn [sj_vulns map steps]. cbn [rule_of rule_json result_json]. destruct (sj_push _ _ _ st); cbn [obind]; [apply IH|reflexivity|reflexivity]. Qed.
  Lemma warnings_steps k ws : forall st, (forall w, In w ws -> jw_kind w = k) -> sj_warnings pow path k ws st = steps (map Warned ws) st.
  Proof.
    induction ws as [|w ws IH]; intros st H; [reflexivity|]. cbn [sj_warnings map steps]. cbn [rule_of rule_json result_json]. rewrite (H w (or_introl eq_refl)).
    change (kind_text k) with (warning_kind_str k).
    destruct (sj_push _ _ _ st); cbn [obind]; [apply IH; intros q I; apply H; right; exact I|reflexivity|reflexivity].
  Qed.
  Lemma kinds_steps l : forall st, (forall k ws w, In (k, ws) l -> In w ws -> jw_kind w = k) -> sj_kinds pow path l st = steps (flat_map (fun e => map Warned (snd e)) l) st.
  Proof.
    induction l as [|[k ws] l IH]; intros st H; [reflexivity|]. cbn [sj_kinds flat_map snd]. rewrite steps_app, (warnings_steps k) by (intros w I; exact (H k ws w (or_introl eq_refl) I)).
    destruct (steps _ st); cbn [obind]; [|reflexivity|reflexivity]. apply IH. intros k' ws' w I. apply H. right. exact I.
  Qed.
  Definition unseen (seen : list string) (f : finding) : bool := negb (existsb (String.eqb (rule_of f)) seen).
  Definition made_rule (f : finding) : json := match rule_json f with Ok j => j | _ => JNull end.
  Lemma filter_filter {A} (p q : A -> bool) l : filter p (filter q l) = filter (fun a => p a && q a) l.
  Proof. induction l as [|a l IH]; [reflexivity|]. cbn [filter]. destruct (q a) eqn:Q; cbn [filter]; rewrite ?IH; destruct (p a); reflexivity. Qed.
  Lemma filter_ext_in' {A} (p q : A -> bool) l : (forall a, p a = q a) -> filter p l = filter q l.
  Proof. intros H. induction l as [|a l IH]; [reflexivity|]. cbn [filter]. rewrite H, IH. reflexivity. Qed.
  Lemma steps_made fs : forall rules seen results, (forall f, In f fs -> exists j, rule_json f = Ok j) ->
    exists seen', steps fs (rules, seen, results) = Ok ((rules ++ map made_rule (filter (unseen seen) (firsts fs)))%list, seen', (results ++ map result_json fs)%list).
  Proof.
    induction fs as [|f fs IH]; intros rules seen results H.
    - exists seen. cbn. rewrite !app_nil_r. reflexivity.
    - assert (H' : forall g, In g fs -> exists j, rule_json g = Ok j) by (intros g I; apply H; right; exact I).
      cbn [steps firsts map filter]. unfold sj_push. destruct (existsb (String.eqb (rule_of f)) seen) eqn:X.
      + cbn [obind]. destruct (IH rules seen (results ++ [result_json f])%list H') as [seen' E]. exists seen'. rewrite E, <- app_assoc.
        replace (unseen seen f) with false by (unfold unseen; rewrite X; reflexivity). rewrite filter_filter. do 5 f_equal.
        apply filter_ext_in'. intros g. unfold unseen. destruct (String.eqb_spec (rule_of g) (rule_of f)) as [->|]; [rewrite X; reflexivity|]. rewrite andb_true_r. reflexivity.
      + destruct (H f (or_introl eq_refl)) as [j Ej]. rewrite Ej. cbn [obind].
        destruct (IH (rules ++ [j])%list (rule_of f :: seen) (results ++ [result_json f])%list H') as [seen' E]. exists seen'. rewrite E, <- !app_assoc.
        replace (unseen seen f) with true by (unfold unseen; rewrite X; reflexivity). cbn [map app]. unfold made_rule at 2. rewrite Ej, filter_filter. do 5 f_equal. f_equal.
        apply filter_ext_in'. intros g. unfold unseen. cbn [existsb]. destruct (String.eqb_spec (rule_of g) (rule_of f)) as [->|]; cbn [orb negb]; [rewrite andb_false_r; reflexivity|]. rewrite andb_true_r. reflexivity.
  Qed.
End Steps.
Lemma firsts_in f l : In f (firsts l) -> In f l.
Proof. induction l as [|g l IH]; [intros []|]. cbn [firsts]. intros [<-|H]; [left; reflexivity|]. apply filter_In in H as [H _]. right. exact (IH H). Qed.

(** ** Rules and results in words *)
Lemma no_member_one t k : jentries k t = [] -> no_member (JObj t) [k].
Proof. intros E v (t' & w & Et & O & _). injection Et as <-. apply jentries_one in O. rewrite E in O. discriminate. Qed.
Lemma no_member_two t k u k' : jentries k t = [JObj u] -> jentries k' u = [] -> no_member (JObj t) [k; k'].
Proof. intros E E' v (t' & w & Et & O & R). injection Et as <-. apply jentries_one in O. rewrite E in O. injection O as <-. exact (no_member_one u k' E' v R). Qed.
Ltac at1 := apply reach_one; reflexivity.
Ltac at2 := eapply reach_two; reflexivity.
Lemma advisory_rule_said pow b f m j : accurate pow -> (forall c, m_cvss m = Some c -> exists s, cvss_parse s = Ok c) ->
  sj_rule_of_advisory pow m b = Ok j -> advisory_of f = Some m -> rule_of f = id_string (m_id m) -> (b = match f with Vulnerable _ => true | Warned _ => false end) -> says_rule f j.
Proof.
  intros A Hs E Ea Er Eb. unfold sj_rule_of_advisory in E.
  assert (S : exists o, (match m_cvss m with Some c => exists n, published_score c n /\ o = Some (score_text n) | None => o = None end) /\
    j = sj_rule (id_string (m_id m)) (m_title m) (if String.eqb (m_description m) "" then None else Some (m_description m)) (if b then LError else LWarning)
      (option_map (fun u => sj_text ("For more information, see: " ++ url_string u)
        (Some ("For more information, see: [" ++ id_string (m_id m) ++ "](" ++ url_string u ++ ")"))) (m_url m))
      (sj_tags b) "very-high" (if b then None else Some "warning") o).
  { destruct (m_cvss m) as [c|].
    - destruct (Hs c eq_refl) as [s P]. destruct (score_printed pow s c A P) as (n & x & Pn & Ex & Tx). rewrite Ex in E. cbn [obind] in E. injection E as <-.
      exists (Some (fmt1 x)). split; [exists n; split; [exact Pn|f_equal; exact Tx]|reflexivity].
    - cbn [obind] in E. injection E as <-. exists None. split; reflexivity. }
  destruct S as (o & So & ->). clear E. unfold sj_rule.
  constructor.
  - rewrite Er. destruct (String.eqb _ ""), (m_url m), b, o; at1.
  - rewrite Er. destruct (String.eqb _ ""), (m_url m), b, o; at1.
  - replace (level_of f) with (level_str (if b then LError else LWarning)) by (rewrite Eb; destruct f; reflexivity). destruct (String.eqb _ ""), (m_url m), b, o; at2.
  - replace (match f with Vulnerable _ => "vulnerability" | Warned _ => "warning" end) with (if b then "vulnerability" else "warning") by (rewrite Eb; destruct f; reflexivity).
    destruct (String.eqb _ ""), (m_url m), b, o; at2.
  - destruct f; rewrite Eb; destruct (String.eqb _ ""), (m_url m), o; first [at2|eapply no_member_two; reflexivity].
  - rewrite Ea. constructor.
    + destruct (String.eqb _ ""), (m_url m), b, o; at2.
    + destruct (String.eqb_spec (m_description m) "") as [Ed|Nd].
      * split; [intros N; contradiction|]. intros _. destruct (m_url m), b, o; apply no_member_one; reflexivity.
      * split; [|intros K; contradiction]. intros _. destruct (m_url m), b, o; at2.
    + destruct (m_url m) as [u|].
      * split; destruct (String.eqb _ ""), b, o; at2.
      * destruct (String.eqb _ ""), b, o; apply no_member_one; reflexivity.
    + destruct (String.eqb _ ""), (m_url m), b, o; at2.
    + destruct (m_cvss m) as [c|].
      * destruct So as (n & Pn & ->). exists n. split; [exact Pn|]. destruct (String.eqb _ ""), (m_url m), b; at2.
      * subst o. destruct (String.eqb _ ""), (m_url m), b; eapply no_member_two; reflexivity.
Qed.
Lemma yanked_rule_said w : jw_advisory w = None -> jw_kind w = WYanked -> says_rule (Warned w) (sj_rule_of_kind WYanked).
Proof.
  intros Ea Ek. constructor; cbn [rule_of level_of advisory_of]; rewrite ?Ea, ?Ek; try at1; try at2.
  constructor; try at2; try (apply no_member_one; reflexivity). eapply no_member_two; reflexivity.
Qed.
Lemma reach_three t k u k' w k'' v : jentries k t = [JObj u] -> jentries k' u = [JObj w] -> jentries k'' w = [v] -> reach (JObj t) [k; k'; k''] v.
Proof. intros E E' E''. exists t, (JObj u). split; [reflexivity|]. split; [apply jentries_one; exact E|]. exact (reach_two u k' k'' w v E' E''). Qed.
Lemma append_nil s : (s ++ "")%string = s.
Proof. induction s as [|c s IH]; [reflexivity|]. cbn. rewrite IH. reflexivity. Qed.
Lemma append_assoc' a b c : ((a ++ b) ++ c)%string = (a ++ (b ++ c))%string.
Proof. induction a as [|x a IH]; [reflexivity|]. cbn. rewrite IH. reflexivity. Qed.
Lemma result_said path f : says_result path f (result_json path f).
Proof.
  destruct f as [v|w].
  - constructor.
    + eexists. split; reflexivity.
    + at1.
    + replace (message_of _) with (p_name (jv_package v) ++ " " ++ print_version (p_version (jv_package v)) ++ " is vulnerable to " ++ id_string (m_id (jv_advisory v)) ++ " (" ++ m_title (jv_advisory v) ++ ")") by (cbn [message_of]; unfold named; rewrite !append_assoc'; reflexivity). at2.
    + at1.
    + eexists. split; [at1|]. split; eapply reach_three; reflexivity.
    + at2.
  - constructor.
    + eexists. split; reflexivity.
    + at1.
    + cbn [result_json message_of]. unfold sj_result_of_warning, named. cbv zeta. eapply reach_two; [reflexivity|]. rewrite !append_assoc'. destruct (jw_advisory w); [|rewrite append_nil]; reflexivity.
    + at1.
    + eexists. split; [at1|]. split; eapply reach_three; reflexivity.
    + at2.
Qed.

Lemma forall2_map {A B} (P : A -> B -> Prop) g l : (forall a, In a l -> P a (g a)) -> Forall2 P l (map g l).
Proof. induction l as [|a l IH]; intros H; cbn [map]; constructor; [apply H; left; reflexivity|apply IH; intros b I; apply H; right; exact I]. Qed.
(** ** C84: the document of a report whose warnings are filed under their kinds and whose scores were read from texts is written; it
    has one run of the tool, with one result for each finding, in order, and one rule for each first finding with its rule. *)
Theorem C84_document : forall pow path pkg r, accurate pow -> well_filed r -> scores_read r ->
  exists j rules results, sarif_log pow path pkg r = Ok j /\ says_run j pkg rules results /\
    Forall2 (says_result path) (all_findings r) results /\ Forall2 says_rule (firsts (all_findings r)) rules.
Proof.
  intros pow path pkg r A W Hs.
  assert (R : forall f, In f (all_findings r) -> exists j, rule_json pow f = Ok j /\ says_rule f j).
  { intros f I. assert (Adv : forall m b, advisory_of f = Some m -> rule_of f = id_string (m_id m) -> b = match f with Vulnerable _ => true | Warned _ => false end ->
      exists j, sj_rule_of_advisory pow m b = Ok j /\ says_rule f j).
    { intros m b Ea Er Eb. assert (E : exists j, sj_rule_of_advisory pow m b = Ok j).
      { unfold sj_rule_of_advisory. destruct (m_cvss m) as [c|] eqn:C; [|eexists; reflexivity]. destruct (Hs f m c I Ea C) as [s P].
        destruct (score_printed pow s c A P) as (n & x & _ & Ex & _). rewrite Ex. eexists. reflexivity. }
      destruct E as [j E]. exists j. split; [exact E|]. apply (advisory_rule_said pow b f m j A); auto. intros c C. exact (Hs f m c I Ea C). }
    destruct f as [v|w]; cbn [rule_json].
    - apply Adv; reflexivity.
    - cbn [advisory_of rule_of] in Adv. destruct (jw_advisory w) as [m|] eqn:E; [apply Adv; reflexivity|].
      assert (K : jw_kind w = WYanked).
      { unfold all_findings in I. apply in_app_or in I as [I|I]; [apply in_map_iff in I as (? & [=] & _)|].
        apply in_flat_map in I as ([k ws] & I1 & I2). cbn [snd] in I2. apply in_map_iff in I2 as (w' & [= ->] & I2). destruct (W k ws w I1 I2) as [-> Y]. exact (Y E). }
      rewrite K. eexists. split; [reflexivity|]. apply yanked_rule_said; assumption. }
  unfold sarif_log. rewrite vulns_steps.
  assert (M : forall f, In f (all_findings r) -> exists j, rule_json pow f = Ok j) by (intros f I; destruct (R f I) as (j & E & _); eauto).
  destruct (steps_made pow path (all_findings r) [] [] [] M) as [seen E]. unfold all_findings in E at 1. rewrite steps_app in E.
  destruct (steps pow path (map Vulnerable (fr_list r)) ([], [], [])) as [st| |]; try discriminate. cbn [obind] in *.
  rewrite kinds_steps by (intros k ws w I1 I2; apply (W k ws w I1 I2)). rewrite E. cbn [obind app].
  assert (F : filter (unseen []) (firsts (all_findings r)) = firsts (all_findings r)).
  { generalize (firsts (all_findings r)). intros l. induction l as [|f l IH]; [reflexivity|]. cbn [filter unseen existsb negb]. rewrite IH. reflexivity. }
  rewrite F. do 3 eexists. split; [reflexivity|]. split; [|split].
  - split; [at1|]. split; [at1|]. eexists. split; [at1|]. repeat (split; [eapply reach_three; reflexivity|]). at1.
  - apply forall2_map. intros f _. apply result_said.
  - apply forall2_map. intros f I. destruct (R f (firsts_in _ _ I)) as (j & Ej & Sj). unfold made_rule. rewrite Ej. exact Sj.
Qed.
Print Assumptions C84_document.
(** Rules: no id is declared twice, and the ids declared are those results refer to. *)
Lemma firsts_names l s : In s (map rule_of (firsts l)) <-> In s (map rule_of l).
Proof.
  induction l as [|f l IH]; [reflexivity|]. cbn [firsts map In]. destruct (string_dec (rule_of f) s) as [E|N]; [split; left; exact E|].
  rewrite <- IH. split; (intros [K|K]; [contradiction|right]).
  - apply in_map_iff in K as (g & <- & K). apply filter_In in K as [K _]. apply in_map. exact K.
  - apply in_map_iff in K as (g & <- & K). apply in_map. apply filter_In. split; [exact K|]. destruct (String.eqb_spec (rule_of g) (rule_of f)); [congruence|reflexivity].
Qed.
Lemma firsts_unique l : NoDup (map rule_of (firsts l)).
Proof.
  induction l as [|f l IH]; [constructor|]. cbn [firsts map]. constructor.
  - intros K. apply in_map_iff in K as (g & E & K). apply filter_In in K as [_ K]. rewrite E, String.eqb_refl in K. discriminate.
  - revert IH. generalize (firsts l). intros m H. induction m as [|g m IH]; [constructor|]. cbn [map] in H. apply NoDup_cons_iff in H as [H1 H2]. cbn [filter].
    destruct (negb _); [|exact (IH H2)]. cbn [map]. constructor; [|exact (IH H2)]. intros K. apply H1. apply in_map_iff in K as (h & <- & K). apply filter_In in K as [K _]. apply in_map. exact K.
Qed.
Lemma ids_of (P : finding -> json -> Prop) k l js : (forall f j, P f j -> reach j [k] (JStr (rule_of f))) -> Forall2 P l js -> Forall2 (fun j s => reach j [k] (JStr s)) js (map rule_of l).
Proof. intros H F. induction F as [|f j l js Pf F IH]; cbn [map]; constructor; [exact (H f j Pf)|exact IH]. Qed.
Theorem C84_rule_ids : forall pow path pkg r j, accurate pow -> well_filed r -> scores_read r -> sarif_log pow path pkg r = Ok j ->
  exists rules results declared used, says_run j pkg rules results /\
    Forall2 (fun ru s => reach ru ["id"] (JStr s)) rules declared /\ Forall2 (fun re s => reach re ["ruleId"] (JStr s)) results used /\
    NoDup declared /\ forall s, In s declared <-> In s used.
Proof.
  intros pow path pkg r j A W Hs E. destruct (C84_document pow path pkg r A W Hs) as (j' & rules & results & E' & Sr & F1 & F2). rewrite E in E'. injection E' as <-.
  exists rules, results, (map rule_of (firsts (all_findings r))), (map rule_of (all_findings r)). split; [exact Sr|]. split; [|split; [|split; [apply firsts_unique|intros s; apply firsts_names]]].
  - apply (ids_of says_rule); [|exact F2]. intros f ru K. apply K.
  - apply (ids_of (says_result path)); [|exact F1]. intros f re K. apply K.
Qed.
Print Assumptions C84_rule_ids.
(** Where a result points: [Cargo.lock] for every lockfile, whatever it is called; the executable for an executable. *)
Theorem C84_location : forall pow pkg what r, accurate pow -> well_filed r -> scores_read r ->
  exists j rules results, print_sarif pow pkg (presented_path what) r = Ok j /\ says_run j pkg rules results /\
    Forall2 (says_result (match what with ALockfile _ => "Cargo.lock" | ABinary p => p end)) (all_findings r) results.
Proof.
  intros pow pkg what r A W Hs. destruct (C84_document pow (match what with ALockfile _ => "Cargo.lock" | ABinary p => p end) pkg r A W Hs) as (j & rules & results & E & S & F & _).
  exists j, rules, results. split; [|split; assumption]. rewrite <- E. destruct what; reflexivity.
Qed.
Print Assumptions C84_location.
(** So results do not point at the lockfile that was audited. *)
Theorem C84_points_at_lockfile_refuted : exists file r, well_filed r /\ scores_read r /\ all_findings r <> [] /\
  forall pow pkg j rules results re, print_sarif pow pkg (presented_path (ALockfile file)) r = Ok j -> says_run j pkg rules results -> In re results ->
    forall l, reach re ["locations"] (JArr [l]) -> ~ reach l ["physicalLocation"; "artifactLocation"; "uri"] (JStr file).
Proof.
  exists "other/Cargo.lock".
  set (p := mkPkg "old" (mkVersion 0 3 0 [] []) None None [] None).
  exists (mkFullReport (mkDbInfo 0 None None) 1 (mkSettings [] [] None [] []) false 0 [] [(WYanked, [mkJWarning WYanked p None None None])]).
  split. { intros k ws w [[= <- <-]|[]] [<-|[]]. split; [reflexivity|auto]. }
  split. { intros f m c [<-|[]] [=]. } split; [discriminate|].
  intros pow pkg j rules results re E (_ & _ & run & Er & _ & _ & _ & _ & Es) I l Rl Ru. injection E as <-.
  pose proof (reach_fun ["runs"] _ _ _ Er ltac:(at1)) as K. injection K as ->.
  pose proof (reach_fun ["results"] _ _ _ Es ltac:(at1)) as K. injection K as ->. destruct I as [<-|[]].
  pose proof (reach_fun _ _ _ _ Rl ltac:(at1)) as K. injection K as ->.
  pose proof (reach_fun _ _ _ _ Ru ltac:(eapply reach_three; reflexivity)) as K. discriminate.
Qed.
Print Assumptions C84_points_at_lockfile_refuted.
