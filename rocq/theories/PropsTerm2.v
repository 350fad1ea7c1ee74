(** C86: the terminal report, continued: trees, the whole report, the summary. *)
From Coq Require Import List NArith ZArith Ascii String Bool Arith Lia Permutation.
From Verif Require Import Base StrLib SemverModel OsvModel OsvSpec IdModel PkgModel DbModel DbSpec VerText UrlModel CvssText CvssFloat CvssScoreSpec Cvss3 PropsCvss3 ScanModel PropsScan PartsModel
  AdvModel MtimeModel OsvAdvModel SortProofs LockModel LockSpec TreeModel TreeSpec TreeProofs PropsTree LockCliModel LockCliSpec PropsLockCli2 AuditModel AuditSpec AuditProofs SarifModel ReportJsonModel ReportJsonSpec SeverityModel PropsSeverity
  SarifJsonModel SarifJsonSpec PropsSarifJson TermModel TermSpec PropsTerm.
Import ListNotations.
Local Open Scope string_scope.

(** ** Trees *)
Lemma shown_before p drawn : dep_mem (dep_of_package p) (map dep_of_package drawn) = true <-> exists q, In q drawn /\ names_package (dep_of_package p) q.
Proof.
  unfold dep_mem. rewrite existsb_exists. split.
  - intros (d & I & E). apply in_map_iff in I as (q & <- & I). exists q. split; [exact I|]. apply dep_cmp_eq. destruct (dep_cmp _ _); congruence.
  - intros (q & I & E). exists (dep_of_package q). split; [apply in_map; exact I|]. apply dep_cmp_eq in E. rewrite E. reflexivity.
Qed.
Lemma tree_step cf c l t p drawn : locked l -> distinct_packages l -> tree_new l = Ok t -> In p (lk_packages l) ->
  ((exists q, In q drawn /\ names_package (dep_of_package p) q) /\ tree_lines cf c t p (map dep_of_package drawn) = Ok ([], map dep_of_package drawn)) \/
  (~ (exists q, In q drawn /\ names_package (dep_of_package p) q) /\ exists tr, tree_lines cf c t p (map dep_of_package drawn) = Ok (tr, map dep_of_package (p :: drawn)) /\
     (cf_show_tree cf = false -> tr = []) /\ (cf_show_tree cf = true -> dependents_drawn l p tr)).
Proof.
  intros L D T Hp. unfold tree_lines. destruct (dep_mem (dep_of_package p) (map dep_of_package drawn)) eqn:M.
  - left. split; [apply shown_before; exact M|reflexivity].
  - right. split; [rewrite <- shown_before, M; discriminate|]. destruct (cf_show_tree cf); cbn [negb].
    + apply In_nth_error in Hp as (i & Hi). rewrite (tree_nodes l t T), (parent_index l p i L D Hi).
      destruct (C37_render_terminates_and_expands_once l t i Incoming L D T) as (R & all & E & Ro & S & _); [apply nth_error_Some; rewrite Hi; discriminate|].
      rewrite E. eexists. split; [reflexivity|]. split; [discriminate|]. intros _. exists c, (neighbours t Incoming), i, R, all.
      split; [intros a b; apply (C37_neighbours l t a b L D T)|]. split; [exact Hi|]. split; [exact Ro|]. split; [exact S|].
      destruct (C36_edges_are_the_listed_dependencies l t 0 0 L D T) as [EP _]. rewrite EP. reflexivity.
    + eexists. split; [reflexivity|]. split; [reflexivity|discriminate].
Qed.
Lemma reported_app checks print_req cf symbols l d fs ls d' gs ms d'' :
  reported checks print_req cf symbols l d fs ls d' -> reported checks print_req cf symbols l d' gs ms d'' ->
  reported checks print_req cf symbols l d (fs ++ gs) (ls ++ ms) d''.
Proof.
  intros H K. induction H as [d|d f fs ls rest last B E H IH|d f fs ls tree rest last B N H1 H2 H IH].
  - exact K.
  - change ((f :: fs) ++ gs)%list with (f :: (fs ++ gs))%list. replace ((ls ++ [Plain ""] ++ rest) ++ ms)%list with (ls ++ [Plain ""] ++ (rest ++ ms))%list by (rewrite <- !app_assoc; reflexivity).
    apply rp_again; auto.
  - change ((f :: fs) ++ gs)%list with (f :: (fs ++ gs))%list. replace ((ls ++ tree ++ [Plain ""] ++ rest) ++ ms)%list with (ls ++ tree ++ [Plain ""] ++ (rest ++ ms))%list by (rewrite <- !app_assoc; reflexivity).
    apply rp_first; auto.
Qed.

(** ** The report *)
(** A report that can be printed for the lockfile: its packages are listed there, its scores and function paths were read from texts,
    and its version numbers are not the largest ones if overflow is checked. *)
Record presentable (checks : bool) (l : lockfile) (r : full_report) : Prop := {
  pt_packages : forall f, In f (all_findings r) -> In (package_of f) (lk_packages l);
  pt_scores : scores_read r;
  pt_paths : forall f, In f (all_findings r) -> paths_named (affected_of f);
  pt_small : forall v, In v (fr_list r) -> solvable checks v }.
Section Report.
  Context (checks : bool) (pow : f64 -> f64) (print_req : version_req -> string) (cf : config) (symbols : option (list (list string))) (l : lockfile) (t : tree).
  Context (Ac : accurate pow) (L : locked l) (D : distinct_packages l) (T : tree_new l = Ok t).
  Lemma vulnerabilities_ok vs : (forall v, In v vs -> In (jv_package v) (lk_packages l) /\ solvable checks v /\ paths_named (jv_affected v) /\
      forall c, m_cvss (jv_advisory v) = Some c -> exists s, cvss_parse s = Ok c) ->
    forall drawn, exists out last, vulnerabilities_text checks pow print_req cf t symbols vs (map dep_of_package drawn) = Ok (out, map dep_of_package last) /\
      reported checks print_req cf symbols l drawn (map Vulnerable vs) out last.
  Proof.
    induction vs as [|v vs IH]; intros H drawn; [exists [], drawn; split; [reflexivity|constructor]|].
    destruct (H v (or_introl eq_refl)) as (Hp & Hs & Hn & Hc). destruct (vulnerability_block checks pow print_req cf symbols v Ac Hs Hn Hc) as (a & f & Ea & Ef & B).
    cbn [vulnerabilities_text]. rewrite Ea, Ef. cbn [obind].
    destruct (tree_step cf Red l t (jv_package v) drawn L D T Hp) as [[X E]|[X (tr & E & K1 & K2)]]; rewrite E; cbn [obind fst snd].
    - destruct (IH (fun w Hw => H w (or_intror Hw)) drawn) as (out & last & E2 & R). rewrite E2. cbn [obind fst snd app]. eexists _, last. split; [reflexivity|].
      rewrite app_assoc. exact (rp_again checks print_req cf symbols l drawn (Vulnerable v) _ _ _ _ B X R).
    - destruct (IH (fun w Hw => H w (or_intror Hw)) (jv_package v :: drawn)) as (out & last & E2 & R). rewrite E2. cbn [obind fst snd]. eexists _, last. split; [reflexivity|].
      rewrite app_assoc. exact (rp_first checks print_req cf symbols l drawn (Vulnerable v) _ _ tr _ _ B X K1 K2 R).
  Qed.
  Lemma warnings_ok ws : (forall w, In w ws -> In (jw_package w) (lk_packages l) /\ paths_named (jw_affected w) /\
      forall m c, jw_advisory w = Some m -> m_cvss m = Some c -> exists s, cvss_parse s = Ok c) ->
    forall drawn, exists out last, warnings_text pow cf t symbols ws (map dep_of_package drawn) = Ok (out, map dep_of_package last) /\
      reported checks print_req cf symbols l drawn (map Warned ws) out last.
  Proof.
    induction ws as [|w ws IH]; intros H drawn; [exists [], drawn; split; [reflexivity|constructor]|].
    destruct (H w (or_introl eq_refl)) as (Hp & Hn & Hc). destruct (warning_block checks pow print_req cf symbols w Ac Hn Hc) as (a & f & Ea & Ef & B).
    cbn [warnings_text]. cbv zeta. rewrite Ea. cbn [obind]. rewrite Ef. cbn [obind]. set (c := warning_color _).
    destruct (tree_step cf c l t (jw_package w) drawn L D T Hp) as [[X E]|[X (tr & E & K1 & K2)]]; rewrite E; cbn [obind fst snd].
    - destruct (IH (fun w Hw => H w (or_intror Hw)) drawn) as (out & last & E2 & R). rewrite E2. cbn [obind fst snd app]. eexists _, last. split; [reflexivity|].
      rewrite app_assoc. exact (rp_again checks print_req cf symbols l drawn (Warned w) _ _ _ _ B X R).
    - destruct (IH (fun w Hw => H w (or_intror Hw)) (jw_package w :: drawn)) as (out & last & E2 & R). rewrite E2. cbn [obind fst snd]. eexists _, last. split; [reflexivity|].
      rewrite app_assoc. exact (rp_first checks print_req cf symbols l drawn (Warned w) _ _ tr _ _ B X K1 K2 R).
  Qed.
End Report.

(** ** The last lines *)
Lemma count_fold cf m : forall n, fold_left (fun n kw => if kind_mem (fst kw) (denied_kinds cf)
    then (fst n + List.length (snd kw), snd n) else (fst n, snd n + List.length (snd kw))) m n =
  (fst n + fst (count_denied cf m), snd n + snd (count_denied cf m)).
Proof.
  unfold count_denied. induction m as [|[k ws] m IH]; intros [a b]; cbn [fold_left fst snd]; [f_equal; lia|].
  rewrite IH. rewrite (IH (if kind_mem k (denied_kinds cf) then _ else _)). destruct (kind_mem k (denied_kinds cf)); cbn [fst snd]; f_equal; lia.
Qed.
Lemma counts_said cf r : well_filed r -> counted cf r (fst (count_denied cf (fr_warnings r))) (snd (count_denied cf (fr_warnings r))).
Proof.
  unfold counted, well_filed. generalize (fr_warnings r). intros m. induction m as [|[k ws] m IH]; intros W.
  - exists [], []. split; [intros w []|]. split; [intros w []|]. split; [constructor|]. split; reflexivity.
  - destruct (IH (fun k' ws' w I1 I2 => W k' ws' w (or_intror I1) I2)) as (fw & hw & F & Hh & P & Ef & Eh).
    assert (Kk : forall w, In w ws -> jw_kind w = k) by (intros w I; apply (W k ws w (or_introl eq_refl) I)).
    assert (C : count_denied cf ((k, ws) :: m) = if kind_mem k (denied_kinds cf) then (List.length ws + List.length fw, List.length hw) else (List.length fw, List.length ws + List.length hw)).
    { unfold count_denied at 1. cbn [fold_left fst snd]. rewrite count_fold. destruct (kind_mem k (denied_kinds cf)); cbn [fst snd]; f_equal; lia. }
    rewrite C. pose proof (kind_mem_denied cf k) as Kd. cbn [flat_map snd]. destruct (kind_mem k (denied_kinds cf)).
    + exists (ws ++ fw)%list, hw. split; [|split; [|split; [|split]]].
      * intros w I. apply in_app_or in I as [I|I]; [rewrite (Kk w I); apply Kd; reflexivity|exact (F w I)].
      * exact Hh.
      * rewrite <- app_assoc. apply Permutation_app_head. exact P.
      * cbn [fst]. rewrite app_length. reflexivity.
      * reflexivity.
    + exists fw, (ws ++ hw)%list. split; [|split; [|split; [|split]]].
      * exact F.
      * intros w I. apply in_app_or in I as [I|I]; [rewrite (Kk w I); intros K; apply Kd in K; discriminate|exact (Hh w I)].
      * etransitivity; [apply Permutation_app_head; exact P|]. rewrite !app_assoc. apply Permutation_app_tail. apply Permutation_app_comm.
      * reflexivity.
      * cbn [snd]. rewrite app_length. reflexivity.
Qed.
Lemma count_one : count_text 1 = "1".
Proof. vm_compute. reflexivity. Qed.
Lemma summary_said cf r path : well_filed r -> well_counted r -> summary cf r path (summary_text cf r path).
Proof.
  intros W [Ec Ef]. exists (fr_count r), (fst (count_denied cf (fr_warnings r))), (snd (count_denied cf (fr_warnings r))).
  split; [exact Ec|]. split; [apply counts_said; exact W|]. unfold summary_text. cbv zeta. generalize (count_denied cf (fr_warnings r)). intros [a b]. cbn [fst snd].
  assert (V : (if fr_found r then [StatusErr (if Nat.eqb (fr_count r) 1 then "1 vulnerability found" ++ in_path path "!" else count_text (fr_count r) ++ " vulnerabilities found" ++ in_path path "!")] else []) =
    match fr_count r with 0 => [] | 1 => [StatusErr ("1 vulnerability found" ++ ending path "!")] | _ => [StatusErr (number_text (fr_count r) ++ " vulnerabilities found" ++ ending path "!")] end).
  { destruct (fr_count r) as [|[|n]] eqn:En.
    - destruct (fr_found r); [|reflexivity]. exfalso. destruct (fr_list r); [apply (proj1 Ef eq_refl); reflexivity|discriminate].
    - destruct (fr_found r); [reflexivity|]. exfalso. destruct (fr_list r); [discriminate|]. assert (false = true) by (apply Ef; discriminate). discriminate.
    - destruct (fr_found r); [reflexivity|]. exfalso. destruct (fr_list r); [discriminate|]. assert (false = true) by (apply Ef; discriminate). discriminate. }
  rewrite V. f_equal. unfold warning_word, number_text. fold (count_text a). fold (count_text b).
  destruct a as [|[|a]], b as [|[|b]]; cbn [Nat.ltb Nat.leb orb Nat.eqb negb app]; rewrite ?count_one; unfold count_text; reflexivity.
Qed.

(** Everything a report contains is printed, in order and with all its particulars; the summary counts it. *)
Theorem C86_report : forall checks pow print_req cf l r path drawn, accurate pow -> locked l -> distinct_packages l -> closed l -> presentable checks l r ->
  well_filed r -> well_counted r ->
  forall read_symbol binary, exists notice symbols out last tail,
    symbols_of read_symbol binary r = (notice, symbols) /\
    print_terminal checks pow print_req read_symbol binary cf r l path (map dep_of_package drawn) = Ok ((notice ++ out ++ tail)%list, map dep_of_package last) /\
    reported checks print_req cf symbols l drawn (all_findings r) out last /\ summary cf r path tail.
Proof.
  intros checks pow print_req cf l r path drawn Ac L D C P W Wc rs binary. destruct (C36_built_iff_resolvable l L D) as (B & _). destruct (B C) as (t & T).
  destruct (symbols_of rs binary r) as [notice symbols] eqn:Es. destruct P as [P1 P2 P3 P4].
  destruct (vulnerabilities_ok checks pow print_req cf symbols l t Ac L D T (fr_list r)) with (drawn := drawn) as (o1 & d1 & E1 & R1).
  { intros v I. assert (If : In (Vulnerable v) (all_findings r)) by (apply in_or_app; left; apply in_map; exact I).
    split; [exact (P1 _ If)|]. split; [exact (P4 v I)|]. split; [exact (P3 _ If)|]. intros c Ec. exact (P2 _ _ c If eq_refl Ec). }
  destruct (warnings_ok checks pow print_req cf symbols l t Ac L D T (flat_map snd (fr_warnings r))) with (drawn := d1) as (o2 & d2 & E2 & R2).
  { intros w I. assert (If : In (Warned w) (all_findings r)).
    { apply in_or_app. right. apply in_flat_map in I as (e & I1 & I2). apply in_flat_map. exists e. split; [exact I1|]. apply in_map. exact I2. }
    split; [exact (P1 _ If)|]. split; [exact (P3 _ If)|]. intros m c Em Ec. exact (P2 _ m c If Em Ec). }
  exists notice, symbols, (o1 ++ o2)%list, d2, (summary_text cf r path). split; [reflexivity|]. split; [|split; [|apply summary_said; assumption]].
  - unfold print_terminal. rewrite T, Es, E1. cbn [obind fst snd]. rewrite E2. cbn [obind fst snd]. do 2 f_equal. rewrite <- app_assoc. reflexivity.
  - replace (all_findings r) with (map Vulnerable (fr_list r) ++ map Warned (flat_map snd (fr_warnings r)))%list; [exact (reported_app _ _ _ _ _ _ _ _ _ _ _ _ R1 R2)|].
    unfold all_findings. f_equal. rewrite flat_map_concat_map, concat_map, map_map, <- flat_map_concat_map. reflexivity.
Qed.
Print Assumptions C86_report.
