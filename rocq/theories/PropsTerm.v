(** C86: the terminal report. *)
From Coq Require Import List NArith ZArith Ascii String Bool Arith Lia Floats.SpecFloat Permutation.
From Verif Require Import Base StrLib SemverModel OsvModel OsvSpec IdModel PkgModel DbModel DbSpec VerText UrlModel CvssText CvssFloat CvssScoreSpec Cvss2 Cvss3 Cvss4 PropsCvss3 PropsCvss2 PropsCvss4 ScanModel PropsScan PartsModel
  AdvModel MtimeModel OsvAdvModel SortProofs LockModel LockSpec TreeModel TreeSpec TreeProofs PropsTree LockCliModel LockCliSpec PropsLockCli2 AuditModel AuditSpec AuditProofs SarifModel ReportJsonModel ReportJsonSpec SeverityModel PropsSeverity
  SarifJsonModel SarifJsonSpec PropsSarifJson TermModel TermSpec.
Import ListNotations.
Local Open Scope string_scope.

(** ** Labelled lines *)
Definition with_label (label : string) (ls : list printed) : list string :=
  flat_map (fun x => match x with Attr _ l s => if String.eqb l label then [s] else [] | _ => [] end) ls.
Lemma with_label_in label ls s : In s (with_label label ls) <-> exists c, In (Attr c label s) ls.
Proof.
  unfold with_label. rewrite in_flat_map. split.
  - intros (x & I & K). destruct x as [c l t|c|t|t|t|u t]; try destruct K. destruct (String.eqb_spec l label) as [->|]; [|destruct K]. destruct K as [->|[]]. eauto.
  - intros (c & I). exists (Attr c label s). split; [exact I|]. rewrite String.eqb_refl. left. reflexivity.
Qed.
Lemma with_label_app label a b : with_label label (a ++ b) = (with_label label a ++ with_label label b)%list.
Proof. apply flat_map_app. Qed.
Lemma with_label_none label ls : with_label label ls = [] -> omits ls label.
Proof. intros E c s I. assert (K : In s (with_label label ls)) by (apply with_label_in; eauto). rewrite E in K. destruct K. Qed.
Lemma with_label_one label ls s : with_label label ls = [s] -> states ls label s.
Proof.
  intros E. assert (K : In s (with_label label ls)) by (rewrite E; left; reflexivity). apply with_label_in in K as (c & I). apply in_split in I as (a & b & ->).
  exists a, b, c. split; [reflexivity|]. rewrite with_label_app in E. cbn [with_label flat_map] in E. rewrite String.eqb_refl in E. cbn [app] in E.
  fold (with_label label b) in E. apply (app_eq_unit) in E as [[E1 E2]|[_ E2]]; [|discriminate].
  injection E2 as E2. apply (with_label_none label). rewrite with_label_app, E1, E2. reflexivity.
Qed.
Definition opt (c : color) (label : string) (o : option string) : list printed := match o with Some s => [Attr c label s] | None => [] end.
Definition shape (c : color) (crate version warning title date id url severity solution affects : option string) : list printed :=
  (opt c "Crate:    " crate ++ opt c "Version:  " version ++ opt c "Warning:  " warning ++ opt c "Title:    " title ++ opt c "Date:     " date ++
   opt c "ID:       " id ++ opt c "URL:      " url ++ opt c "Severity: " severity ++ opt c "Solution: " solution ++ opt c "Affected: " affects)%list.
Lemma opt_same c label o : with_label label (opt c label o) = match o with Some s => [s] | None => [] end.
Proof. destruct o; cbn [opt with_label flat_map]; [rewrite String.eqb_refl|]; reflexivity. Qed.
Lemma opt_other c label k o : String.eqb k label = false -> with_label label (opt c k o) = [].
Proof. intros E. destruct o; cbn [opt with_label flat_map]; [rewrite E|]; reflexivity. Qed.
Lemma of_opt ls label o : with_label label ls = match o with Some s => [s] | None => [] end -> states_if ls label o.
Proof. destruct o; [apply with_label_one|apply with_label_none]. Qed.
Ltac labelled := apply of_opt; unfold shape; rewrite !with_label_app, ?opt_same; repeat rewrite opt_other by reflexivity; cbn [app]; rewrite ?app_nil_r; reflexivity.
Section Shape.
  Context (c : color) (o1 o2 o3 o4 o5 o6 o7 o8 o9 o10 : option string).
  Local Notation sh := (shape c o1 o2 o3 o4 o5 o6 o7 o8 o9 o10).
  Lemma shape_crate : states_if sh "Crate:    " o1. Proof. labelled. Qed.
  Lemma shape_version : states_if sh "Version:  " o2. Proof. labelled. Qed.
  Lemma shape_warning : states_if sh "Warning:  " o3. Proof. labelled. Qed.
  Lemma shape_title : states_if sh "Title:    " o4. Proof. labelled. Qed.
  Lemma shape_date : states_if sh "Date:     " o5. Proof. labelled. Qed.
  Lemma shape_id : states_if sh "ID:       " o6. Proof. labelled. Qed.
  Lemma shape_url : states_if sh "URL:      " o7. Proof. labelled. Qed.
  Lemma shape_severity : states_if sh "Severity: " o8. Proof. labelled. Qed.
  Lemma shape_solution : states_if sh "Solution: " o9. Proof. labelled. Qed.
  Lemma shape_affected : states_if sh "Affected: " o10. Proof. labelled. Qed.
  Lemma shape_attrs : Forall (fun x => exists label s, x = Attr c label s) sh.
  Proof.
    unfold shape. repeat (apply Forall_app; split).
    all: unfold opt; match goal with |- Forall _ (match ?o with _ => _ end) => destruct o end; constructor; [|constructor]; eexists _, _; reflexivity.
  Qed.
  Lemma shape_order : subsequence (map (fun x => match x with Attr _ l _ => l | _ => "" end) sh) label_order.
  Proof.
    unfold shape, label_order. rewrite !map_app.
    assert (K : forall label o rest tail, subsequence rest tail ->
      subsequence (map (fun x => match x with Attr _ l _ => l | _ => "" end) (opt c label o) ++ rest)%list (label :: tail)).
    { intros label [t|] rest tail S; cbn [opt map app]; [apply sub_take|apply sub_skip]; exact S. }
    repeat (apply K). rewrite <- (app_nil_r (map _ (opt c "Affected: " o10))). apply K. constructor.
  Qed.
End Shape.

(** ** Scores *)
Lemma shown_table : (fun l => forallb (fun p => match show_f64 (snd p) with Ok s => String.eqb s (short_score (fst p)) | _ => false end) l) tenths_up_to_10 = true.
Proof. vm_cast_no_check (eq_refl true). Qed.
Lemma show_tenths n x : (0 <= n <= 100)%Z -> tenths n x -> x <> S754_zero true -> show_f64 x = Ok (short_score n).
Proof.
  intros R T N. pose proof shown_table as H. cbv beta in H. rewrite forallb_forall in H. specialize (H _ (tenths_in n R)). cbn [fst snd] in H.
  destruct (feq_cases _ _ T) as [->|(s & t & -> & E)].
  - destruct (show_f64 _) as [u| |]; try discriminate. apply String.eqb_eq in H. subst u. reflexivity.
  - destruct s; [destruct (N eq_refl)|]. assert (n = 0%Z \/ n <> 0%Z) as [->|Nz] by lia; [reflexivity|]. exfalso.
    pose proof (tenths_dec_le n 0 R ltac:(lia)) as L. rewrite E in L. assert (D : dec 0 10 = S754_zero false) by (vm_compute; reflexivity). rewrite D in L.
    destruct t; cbn in L; symmetry in L; apply Z.leb_le in L; lia.
Qed.
Lemma severity_text s c n : severity_band s = band_in c n -> severity_str s = band_text (band_in c n).
Proof. intros <-. destruct s; reflexivity. Qed.
Lemma score_shown pow t c : accurate pow -> cvss_parse t = Ok c ->
  exists n x s, published_score c n /\ cvss_score pow c = Ok x /\ cvss_severity pow c = Ok s /\ show_f64 x = Ok (short_score n) /\ severity_str s = band_text (band_in c n).
Proof.
  intros A P. destruct (vector_scored pow t c A P) as (n & x & s & Pn & R & Ex & T & Es & B).
  destruct (score_printed pow t c A P) as (m & y & Pm & Ey & Ty). rewrite Ex in Ey. injection Ey as <-.
  rewrite (published_unique c m n Pm Pn) in Ty. exists n, x, s. split; [exact Pn|]. split; [exact Ex|]. split; [exact Es|]. split; [|exact (severity_text s c n B)].
  apply show_tenths; [exact R|exact T|]. intros ->. assert (K : n = 0%Z).
  { assert (n = 0%Z \/ n <> 0%Z) as [->|Nz] by lia; [reflexivity|]. exfalso. destruct (feq_cases _ _ T) as [E|(s' & t' & _ & E)].
    - pose proof (tenths_dec_le n 0 R ltac:(lia)) as L. assert (D : dec 0 10 = S754_zero false) by (vm_compute; reflexivity). rewrite D in L. rewrite <- E in L. cbn in L. symmetry in L. apply Z.leb_le in L. lia.
    - pose proof (tenths_dec_le n 0 R ltac:(lia)) as L. rewrite E in L. assert (D : dec 0 10 = S754_zero false) by (vm_compute; reflexivity). rewrite D in L.
      destruct t'; cbn in L; symmetry in L; apply Z.leb_le in L; lia. }
  rewrite K in Ty. discriminate.
Qed.

(** ** Advisories *)
Lemma address_shown m : address m (shown_url m).
Proof.
  unfold address, shown_url. destruct (m_license m) eqn:L; (split; [|split; [|split]]); intros K; try discriminate; try (destruct (K eq_refl)).
  all: try (intros u E; rewrite E; reflexivity). all: try (intros E; rewrite E; reflexivity).
Qed.
Definition severity_said (m : metadata) (o : option string) : Prop :=
  match m_cvss m with
  | Some c => exists n, published_score c n /\ o = Some (short_score n ++ " (" ++ band_text (band_in c n) ++ ")")
  | None => o = None
  end.
Lemma metadata_ok pow c m : accurate pow -> (forall v, m_cvss m = Some v -> exists s, cvss_parse s = Ok v) ->
  exists o, severity_said m o /\
    metadata_lines pow c m = Ok ([Attr c "Title:    " (m_title m); Attr c "Date:     " (m_date m); Attr c "ID:       " (id_string (m_id m))] ++
      opt c "URL:      " (shown_url m) ++ opt c "Severity: " o)%list.
Proof.
  intros A Hs. unfold metadata_lines, severity_said. destruct (m_cvss m) as [v|].
  - destruct (Hs v eq_refl) as [t P]. destruct (score_shown pow t v A P) as (n & x & s & Pn & Ex & Es & Tx & Ts). rewrite Ex, Es. cbn [obind]. rewrite Tx. cbn [obind]. rewrite Ts.
    eexists. split; [exists n; split; [exact Pn|reflexivity]|]. reflexivity.
  - exists None. split; [reflexivity|]. reflexivity.
Qed.
Lemma states_advisory_shape c m o1 o2 o3 sv o9 o10 : severity_said m sv ->
  states_advisory (shape c o1 o2 o3 (Some (m_title m)) (Some (m_date m)) (Some (id_string (m_id m))) (shown_url m) sv o9 o10) m.
Proof.
  intros S. set (ls := shape _ _ _ _ _ _ _ _ _ _ _). constructor.
  - exact (shape_title c o1 o2 o3 (Some (m_title m)) _ _ _ _ _ _).
  - exact (shape_date c o1 o2 o3 _ (Some (m_date m)) _ _ _ _ _).
  - exact (shape_id c o1 o2 o3 _ _ (Some (id_string (m_id m))) _ _ _ _).
  - exists (shown_url m). split; [apply address_shown|]. apply shape_url.
  - unfold severity_said in S. destruct (m_cvss m) as [v|].
    + destruct S as (n & Pn & E). exists n. split; [exact Pn|]. pose proof (shape_severity c o1 o2 o3 (Some (m_title m)) (Some (m_date m)) (Some (id_string (m_id m))) (shown_url m) sv o9 o10) as K.
      fold ls in K. rewrite E in K. exact K.
    + pose proof (shape_severity c o1 o2 o3 (Some (m_title m)) (Some (m_date m)) (Some (id_string (m_id m))) (shown_url m) sv o9 o10) as K. fold ls in K. rewrite S in K. exact K.
Qed.

(** ** Affected functions *)
Lemma filter_map_fst {A B} (h : A * B -> bool) (q : A -> bool) l : filter q (map fst (filter h l)) = map fst (filter (fun x => h x && q (fst x)) l).
Proof.
  induction l as [|x l IH]; [reflexivity|]. cbn [filter]. destruct (h x); cbn [map filter andb]; [|exact IH]. destruct (q (fst x)); cbn [map]; rewrite IH; reflexivity.
Qed.
Lemma symbol_hit ss p : existsb (symbol_matches (map strip_generics p)) ss = true <-> exists s, In s ss /\ names_symbol p s.
Proof.
  pose proof (C54_filter_exact ss [p] p) as K. unfold symbol_filter in K. cbn [filter] in K. destruct (existsb _ ss); cbn [In] in K.
  - split; [|reflexivity]. intros _. apply K. left. reflexivity.
  - split; [discriminate|]. intros H. destruct (proj2 K). split; [left; reflexivity|exact H].
Qed.
Definition paths_named (a : option affected) : Prop := forall af p reqs, a = Some af -> In (p, reqs) (af_functions af) -> p <> [].
Lemma paths_printed fs : (forall p, In p fs -> p <> []) -> omap path_string fs = Ok (map joined fs).
Proof.
  induction fs as [|p fs IH]; intros H; [reflexivity|]. cbn [omap map]. destruct p as [|s r] eqn:Ep; [destruct (H [] (or_introl eq_refl) eq_refl)|].
  rewrite path_string_joined. cbn [obind]. rewrite IH by (intros q Iq; apply H; right; exact Iq). reflexivity.
Qed.
Definition affected_said (symbols : option (list (list string))) (f : finding) (o : option string) : Prop :=
  match symbols with
  | None => o = None
  | Some ss => exists fs, functions_present ss f fs /\ o = match fs with [] => None | _ => Some (String.concat ", " (map joined fs)) end
  end.
Lemma affected_ok c symbols f : paths_named (affected_of f) ->
  exists o, affected_said symbols f o /\ affected_lines c symbols (affected_of f) (p_version (package_of f)) = Ok (opt c "Affected: " o).
Proof.
  intros N. unfold affected_lines, affected_said. destruct symbols as [ss|]; [|exists None; split; reflexivity].
  set (fs := symbol_filter ss (functions_hit (affected_of f) (p_version (package_of f)))).
  assert (P : functions_present ss f fs).
  { unfold fs, symbol_filter, functions_hit, functions_present. destruct (affected_of f) as [af|].
    - rewrite filter_map_fst. eexists. split; [reflexivity|]. intros a p reqs E I. injection E as <-. cbn [fst snd]. rewrite andb_true_iff, symbol_hit, existsb_exists. reflexivity.
    - exists (fun _ => true). split; [reflexivity|]. intros a p reqs E. discriminate. }
  assert (Ne : forall p, In p fs -> p <> []).
  { intros p I. destruct P as (keep & E & _). rewrite E in I. apply in_map_iff in I as ([q reqs] & <- & I). apply filter_In in I as [I _].
    destruct (affected_of f) as [af|] eqn:Ea; [|destruct I]. exact (N af q reqs eq_refl I). }
  exists (match fs with [] => None | _ => Some (String.concat ", " (map joined fs)) end). split; [exists fs; split; [exact P|reflexivity]|].
  clearbody fs. destruct fs as [|p0 fs0]; [reflexivity|]. rewrite (paths_printed (p0 :: fs0) Ne). reflexivity.
Qed.

(** ** Blocks *)
Lemma newer_spec checks cur rs l : filter_newer checks rs cur = Ok l ->
  exists newer, (forall r, In r rs -> permits_newer checks r cur = Ok (newer r)) /\ l = filter newer rs.
Proof.
  intros H. exists (fun r => match permits_newer checks r cur with Ok b => b | _ => false end). revert l H.
  induction rs as [|r rs IH]; intros l H; cbn [filter_newer] in H; [injection H as <-; split; [intros r []|reflexivity]|].
  destruct (permits_newer checks r cur) as [b| |] eqn:E; try discriminate. cbn [obind] in H.
  destruct (filter_newer checks rs cur) as [m| |] eqn:Em; try discriminate. cbn [obind] in H. destruct (IH m eq_refl) as [I1 I2]. split.
  - intros q [<-|I]; [rewrite E; reflexivity|exact (I1 q I)].
  - cbn [filter]. rewrite E. destruct b; injection H as <-; rewrite <- I2; reflexivity.
Qed.
Section Block.
  Context (checks : bool) (pow : f64 -> f64) (print_req : version_req -> string) (cf : config) (symbols : option (list (list string))).
  Definition solvable (v : json_vuln) : Prop := checks = true -> small_version (p_version (jv_package v)) /\ below_u64_max (unaffected (jv_versions v)).
  Lemma solution_said v : solvable v -> exists s, advised checks print_req v s /\ solution_text checks print_req v = Ok s.
  Proof.
    intros S. unfold solution_text, advised. destruct (patched (jv_versions v)) as [|r rs].
    - destruct (filter_newer_ok checks (unaffected (jv_versions v)) (p_version (jv_package v))) as (l & E); [intros H; apply (S H)|intros H; apply (S H)|].
      rewrite E. cbn [obind]. destruct (newer_spec checks _ _ l E) as (newer & N1 & N2).
      eexists. split; [|reflexivity]. split; [intros K; destruct (K eq_refl)|]. intros _. exists newer. split; [exact N1|]. rewrite <- N2. destruct l; reflexivity.
    - eexists. split; [|reflexivity]. split; [reflexivity|discriminate].
  Qed.
  Lemma vulnerability_block v : accurate pow -> solvable v -> paths_named (jv_affected v) ->
    (forall c, m_cvss (jv_advisory v) = Some c -> exists s, cvss_parse s = Ok c) ->
    exists a f, vulnerability_lines checks pow print_req v = Ok a /\ affected_lines Red symbols (jv_affected v) (p_version (jv_package v)) = Ok f /\
      block checks print_req cf symbols (Vulnerable v) (a ++ f).
  Proof.
    intros A S N Hs. destruct (metadata_ok pow Red (jv_advisory v) A Hs) as (sv & Sv & Em). destruct (solution_said v S) as (s & Ad & Es).
    destruct (affected_ok Red symbols (Vulnerable v) N) as (af & Af & Ef). cbn [affected_of package_of] in Ef.
    unfold vulnerability_lines. rewrite Em. cbn [obind]. rewrite Es. cbn [obind]. eexists _, _. split; [reflexivity|]. split; [exact Ef|].
    match goal with |- block _ _ _ _ _ ?x => assert (E : x = shape Red (Some (p_name (jv_package v))) (Some (print_version (p_version (jv_package v)))) None
      (Some (m_title (jv_advisory v))) (Some (m_date (jv_advisory v))) (Some (id_string (m_id (jv_advisory v)))) (shown_url (jv_advisory v)) sv (Some s) af) end.
    { unfold shape, package_lines. cbn [opt app]. rewrite <- !app_assoc. cbn [app]. reflexivity. }
    rewrite E. clear E. constructor; cbn [package_of advisory_of].
    - exists Red. split; [apply shape_attrs|]. split; intros _; [exact Logic.I|reflexivity].
    - eexists. split; [reflexivity|]. apply shape_order.
    - exact (shape_crate _ (Some _) _ _ _ _ _ _ _ _ _).
    - exact (shape_version _ _ (Some _) _ _ _ _ _ _ _ _).
    - exact (shape_warning _ _ _ None _ _ _ _ _ _ _).
    - apply states_advisory_shape. exact Sv.
    - exists s. split; [exact Ad|]. exact (shape_solution _ _ _ _ _ _ _ _ _ (Some s) _).
    - unfold affected_said in Af. match goal with |- context [shape ?a ?b ?c ?d ?e ?f ?g ?h ?i ?j ?k] => pose proof (shape_affected a b c d e f g h i j k) as K end.
      destruct symbols as [ss|]; [|rewrite Af in K at 2; exact K]. destruct Af as (fs & P & Eo). exists fs. split; [exact P|]. rewrite Eo in K at 2. destruct fs; exact K.
  Qed.
  Lemma warning_block w : accurate pow -> paths_named (jw_affected w) ->
    (forall m c, jw_advisory w = Some m -> m_cvss m = Some c -> exists s, cvss_parse s = Ok c) ->
    exists a f, let c := warning_color (kind_mem (jw_kind w) (denied_kinds cf)) in
      warning_lines pow c w = Ok a /\ affected_lines c symbols (jw_affected w) (p_version (jw_package w)) = Ok f /\ block checks print_req cf symbols (Warned w) (a ++ f).
  Proof.
    intros A N Hs. set (c := warning_color (kind_mem (jw_kind w) (denied_kinds cf))). destruct (affected_ok c symbols (Warned w) N) as (af & Af & Ef). cbn [affected_of package_of] in Ef.
    assert (C : c = Red <-> jw_kind w <> WNotice /\ denies cf (jw_kind w)).
    { unfold c. rewrite <- kind_mem_denied. destruct (kind_mem _ _); cbn [warning_color]; split; congruence. }
    assert (M : exists o4 o5 o6 o7 o8 ls, (match jw_advisory w with Some m => metadata_lines pow c m | None => Ok [] end) = Ok ls /\
      ls = (opt c "Title:    " o4 ++ opt c "Date:     " o5 ++ opt c "ID:       " o6 ++ opt c "URL:      " o7 ++ opt c "Severity: " o8)%list /\
      forall o1 o2 o3 o9 o10, match jw_advisory w with Some m => states_advisory (shape c o1 o2 o3 o4 o5 o6 o7 o8 o9 o10) m | None => omits_advisory (shape c o1 o2 o3 o4 o5 o6 o7 o8 o9 o10) end).
    { destruct (jw_advisory w) as [m|].
      - destruct (metadata_ok pow c m A (fun v => Hs m v eq_refl)) as (sv & Sv & Em). eexists (Some (m_title m)), (Some (m_date m)), (Some (id_string (m_id m))), (shown_url m), sv, _.
        split; [exact Em|]. split; [reflexivity|]. intros. apply states_advisory_shape. exact Sv.
      - exists None, None, None, None, None, []. split; [reflexivity|]. split; [reflexivity|]. intros. constructor.
        + apply (shape_title c o1 o2 o3 None None None None None o9 o10).
        + apply (shape_date c o1 o2 o3 None None None None None o9 o10).
        + apply (shape_id c o1 o2 o3 None None None None None o9 o10).
        + apply (shape_url c o1 o2 o3 None None None None None o9 o10).
        + apply (shape_severity c o1 o2 o3 None None None None None o9 o10). }
    destruct M as (o4 & o5 & o6 & o7 & o8 & ls & Em & El & Ad). unfold warning_lines. rewrite Em. cbn [obind]. eexists _, _. cbv zeta. split; [reflexivity|]. split; [exact Ef|].
    match goal with |- block _ _ _ _ _ ?x => assert (E : x = shape c (Some (p_name (jw_package w))) (Some (print_version (p_version (jw_package w)))) (Some (warning_kind_str (jw_kind w)))
      o4 o5 o6 o7 o8 None af) end.
    { rewrite El. unfold shape, package_lines. cbn [opt app]. rewrite <- !app_assoc. cbn [app]. reflexivity. }
    rewrite E. clear E El. constructor; cbn [package_of advisory_of].
    - exists c. split; [apply shape_attrs|exact C].
    - eexists. split; [reflexivity|]. apply shape_order.
    - exact (shape_crate _ (Some _) _ _ _ _ _ _ _ _ _).
    - exact (shape_version _ _ (Some _) _ _ _ _ _ _ _ _).
    - replace (kind_text (jw_kind w)) with (warning_kind_str (jw_kind w)) by (destruct (jw_kind w); reflexivity). exact (shape_warning _ _ _ (Some _) _ _ _ _ _ _ _).
    - apply Ad.
    - exact (shape_solution _ _ _ _ _ _ _ _ _ None _).
    - unfold affected_said in Af. match goal with |- context [shape ?a ?b ?c ?d ?e ?f ?g ?h ?i ?j ?k] => pose proof (shape_affected a b c d e f g h i j k) as K end.
      destruct symbols as [ss|]; [|rewrite Af in K at 2; exact K]. destruct Af as (fs & P & Eo). exists fs. split; [exact P|]. rewrite Eo in K at 2. destruct fs; exact K.
  Qed.
End Block.
