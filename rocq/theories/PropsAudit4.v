(** Property theorem C63: what the terminal output of `cargo audit` shows. *)
From Coq Require Import List NArith Ascii String Bool Arith Lia.
From Verif Require Import Base SemverModel OsvModel OsvSpec OsvProofs4 StrLib VerText IdModel PkgModel DbModel DbSpec DbProofs DbProofs2
  PropsDb UrlModel UrlSpec UrlProofs LockModel LockSpec TreeModel TreeSpec TreeProofs PropsTree PlatData PlatModel PropsPlat IndexModel IndexSpec PropsIndex
  AuditModel AuditSpec AuditProofs PropsAudit.
Import ListNotations.
Local Open Scope string_scope.

(** What is on the screen. *)
Definition shown_vulns (o : list item) : list vulnerability := flat_map (fun x => match x with OutVuln v _ => [v] | _ => [] end) o.
Definition shown_warnings (o : list item) : list (warning * bool) := flat_map (fun x => match x with OutWarning w b => [(w, b)] | _ => [] end) o.
(** The packages (as numbers) at the root of the trees shown. *)
Definition shown_trees (o : list item) : list nat :=
  flat_map (fun x => match x with OutTree ((_, n) :: _) => [n] | OutTree [] => [] | _ => [] end) o.
Definition shown_counts (o : list item) : list item :=
  filter (fun x => match x with OutVulnCount _ | OutDenied _ | OutAllowed _ => true | _ => false end) o.

Lemma shown_vulns_app a b : shown_vulns (a ++ b) = (shown_vulns a ++ shown_vulns b)%list.
Proof. apply flat_map_app. Qed.
Lemma shown_warnings_app a b : shown_warnings (a ++ b) = (shown_warnings a ++ shown_warnings b)%list.
Proof. apply flat_map_app. Qed.
Lemma shown_trees_app a b : shown_trees (a ++ b) = (shown_trees a ++ shown_trees b)%list.
Proof. apply flat_map_app. Qed.
Lemma shown_counts_app a b : shown_counts (a ++ b) = (shown_counts a ++ shown_counts b)%list.
Proof. apply filter_app. Qed.

Lemma render_root t n dir ls : render t n dir = Some ls -> exists r, ls = ([], n) :: r.
Proof.
  unfold render. cbn [print_node memb existsb].
  destruct (print_all _ _ _ _) as [[o v]|]; cbn [option_map fst]; intros H; [|discriminate]. injection H as <-. eauto.
Qed.

(** The trees shown while going through the packages [ps], having shown those in [d] before. *)
Inductive steps (l : lockfile) (show : bool) : list package -> displayed -> list nat -> displayed -> Prop :=
| st_nil d : steps l show [] d [] d
| st_skip p ps d rs d' : dep_mem (dep_of_package p) d = true -> steps l show ps d rs d' -> steps l show (p :: ps) d rs d'
| st_show p ps d i rs d' : dep_mem (dep_of_package p) d = false -> nth_error (lk_packages l) i = Some p ->
    steps l show ps (dep_of_package p :: d) rs d' ->
    steps l show (p :: ps) d (if show then i :: rs else rs) d'.
Lemma steps_app l show ps qs d rs d' rs' d'' : steps l show ps d rs d' -> steps l show qs d' rs' d'' ->
  steps l show (ps ++ qs) d (rs ++ rs')%list d''.
Proof.
  intros H K. induction H as [d|p ps d rs d' M S IH|p ps d i rs d' M N S IH]; cbn [app].
  - exact K.
  - apply st_skip; auto.
  - replace ((if show then i :: rs else rs) ++ rs')%list with (if show then i :: (rs ++ rs') else (rs ++ rs'))%list by (destruct show; reflexivity).
    apply st_show; auto.
Qed.
Lemma print_tree_steps c l t p d o d' : locked l -> distinct_packages l -> tree_new l = Ok t -> In p (lk_packages l) ->
  print_tree c t p d = Ok (o, d') ->
  steps l (cf_show_tree c) [p] d (shown_trees o) d' /\ shown_vulns o = [] /\ shown_warnings o = [] /\ shown_counts o = [].
Proof.
  intros L D T Hp. unfold print_tree. destruct (dep_mem (dep_of_package p) d) eqn:M.
  - intros H. injection H as <- <-. split; [|auto]. apply st_skip; [exact M|constructor].
  - apply In_nth_error in Hp as (i & Hi).
    assert (N : t_nodes t = add_nodes 0 (lk_packages l) []).
    { unfold tree_new in T. destruct (omap _ (lk_packages l)); try discriminate. injection T as <-. reflexivity. }
    rewrite N, (parent_index l p i L D Hi). destruct (cf_show_tree c); cbn [negb].
    + destruct (render t i Incoming) as [ls|] eqn:R; [|discriminate]. intros H. injection H as <- <-.
      apply render_root in R as (r & ->). split; [|auto]. cbn. apply (st_show l true p [] d i []); [exact M|exact Hi|constructor].
    + intros H. injection H as <- <-. split; [|auto]. apply (st_show l false p [] d i []); [exact M|exact Hi|constructor].
Qed.
Lemma print_vulns_steps checks c l t vs : locked l -> distinct_packages l -> tree_new l = Ok t ->
  forall d o d', (forall v, In v vs -> In (v_package v) (lk_packages l)) -> print_vulns checks c t vs d = Ok (o, d') ->
  steps l (cf_show_tree c) (map v_package vs) d (shown_trees o) d' /\ shown_vulns o = vs /\ shown_warnings o = [] /\ shown_counts o = [].
Proof.
  intros L D T. induction vs as [|v vs IH]; intros d o d' Hp H; cbn [print_vulns] in H.
  - injection H as <- <-. split; [constructor|auto].
  - destruct (solution_of checks v) as [s| |]; try discriminate. cbn [obind] in H.
    destruct (print_tree c t (v_package v) d) as [[o1 d1]| |] eqn:E1; try discriminate. cbn [obind snd] in H.
    destruct (print_vulns checks c t vs d1) as [[o2 d2]| |] eqn:E2; try discriminate. cbn [obind fst snd] in H. injection H as <- <-.
    destruct (print_tree_steps c l t _ _ _ _ L D T (Hp v (or_introl eq_refl)) E1) as (S1 & V1 & W1 & C1).
    destruct (IH _ _ _ (fun x Hx => Hp x (or_intror Hx)) E2) as (S2 & V2 & W2 & C2).
    cbn [map]. split; [|split; [|split]].
    + change (shown_trees (OutVuln v s :: (o1 ++ o2)%list)) with (shown_trees (o1 ++ o2)%list). rewrite shown_trees_app.
      exact (steps_app l _ [v_package v] _ _ _ _ _ _ S1 S2).
    + change (shown_vulns (OutVuln v s :: (o1 ++ o2)%list)) with (v :: shown_vulns (o1 ++ o2)%list). rewrite shown_vulns_app, V1, V2. reflexivity.
    + change (shown_warnings (OutVuln v s :: (o1 ++ o2)%list)) with (shown_warnings (o1 ++ o2)%list). rewrite shown_warnings_app, W1, W2. reflexivity.
    + change (shown_counts (OutVuln v s :: (o1 ++ o2)%list)) with (shown_counts (o1 ++ o2)%list). rewrite shown_counts_app, C1, C2. reflexivity.
Qed.
Lemma print_warnings_steps c l t ws : locked l -> distinct_packages l -> tree_new l = Ok t ->
  forall d o d', (forall w, In w ws -> In (w_package w) (lk_packages l)) -> print_warnings c t ws d = Ok (o, d') ->
  steps l (cf_show_tree c) (map w_package ws) d (shown_trees o) d' /\ shown_vulns o = [] /\
  shown_warnings o = map (fun w => (w, kind_mem (w_kind w) (denied_kinds c))) ws /\ shown_counts o = [].
Proof.
  intros L D T. induction ws as [|w ws IH]; intros d o d' Hp H; cbn [print_warnings] in H.
  - injection H as <- <-. split; [constructor|auto].
  - destruct (print_tree c t (w_package w) d) as [[o1 d1]| |] eqn:E1; try discriminate. cbn [obind snd] in H.
    destruct (print_warnings c t ws d1) as [[o2 d2]| |] eqn:E2; try discriminate. cbn [obind fst snd] in H. injection H as <- <-.
    destruct (print_tree_steps c l t _ _ _ _ L D T (Hp w (or_introl eq_refl)) E1) as (S1 & V1 & W1 & C1).
    destruct (IH _ _ _ (fun x Hx => Hp x (or_intror Hx)) E2) as (S2 & V2 & W2 & C2).
    cbn [map]. set (b := kind_mem (w_kind w) (denied_kinds c)) in *. split; [|split; [|split]].
    + change (shown_trees (OutWarning w b :: (o1 ++ o2)%list)) with (shown_trees (o1 ++ o2)%list). rewrite shown_trees_app.
      exact (steps_app l _ [w_package w] _ _ _ _ _ _ S1 S2).
    + change (shown_vulns (OutWarning w b :: (o1 ++ o2)%list)) with (shown_vulns (o1 ++ o2)%list). rewrite shown_vulns_app, V1, V2. reflexivity.
    + change (shown_warnings (OutWarning w b :: (o1 ++ o2)%list)) with ((w, b) :: shown_warnings (o1 ++ o2)%list). rewrite shown_warnings_app, W1, W2. reflexivity.
    + change (shown_counts (OutWarning w b :: (o1 ++ o2)%list)) with (shown_counts (o1 ++ o2)%list). rewrite shown_counts_app, C1, C2. reflexivity.
Qed.

(** What the steps mean. *)
Lemma steps_meaning l ps d rs d' : distinct_packages l -> steps l true ps d rs d' -> (forall p, In p ps -> In p (lk_packages l)) ->
  NoDup rs /\
  (forall i, In i rs -> exists p, nth_error (lk_packages l) i = Some p /\ In p ps /\ dep_mem (dep_of_package p) d = false) /\
  (forall p, In p ps -> dep_mem (dep_of_package p) d = false -> exists i, In i rs /\ nth_error (lk_packages l) i = Some p).
Proof.
  intros D H. remember true as show. induction H as [d|p ps d rs d' M S IH|p ps d i rs d' M N S IH]; intros Hp.
  - split; [constructor|]. split; [intros i []|intros p []].
  - destruct (IH (fun q Hq => Hp q (or_intror Hq))) as (A & B & C). split; [exact A|]. split.
    + intros i Hi. destruct (B i Hi) as (q & X & Y & Z). exists q. split; [exact X|]. split; [right; exact Y|exact Z].
    + intros q [<-|Hq] K; [congruence|]. exact (C q Hq K).
  - subst show. destruct (IH (fun q Hq => Hp q (or_intror Hq))) as (A & B & C).
    assert (X : forall q, dep_mem (dep_of_package q) (dep_of_package p :: d) = false <->
                  ~ names_package (dep_of_package q) p /\ dep_mem (dep_of_package q) d = false).
    { intros q. unfold dep_mem at 1. cbn [existsb]. fold (dep_mem (dep_of_package q) d). rewrite orb_false_iff, <- dep_cmp_eq.
      destruct (dep_cmp (dep_of_package q) (dep_of_package p)); split; intros [U V]; split; auto; try discriminate; congruence. }
    split; [|split].
    + constructor; [|exact A]. intros K. destruct (B i K) as (q & Q1 & Q2 & Q3). rewrite N in Q1. injection Q1 as <-.
      apply X in Q3 as [Q3 _]. apply Q3, names_self.
    + intros j [<-|Hj].
      * exists p. split; [exact N|]. split; [left; reflexivity|exact M].
      * destruct (B j Hj) as (q & Q1 & Q2 & Q3). exists q. split; [exact Q1|]. split; [right; exact Q2|apply X in Q3; tauto].
    + intros q Hq K.
      assert (Dc : names_package (dep_of_package q) p \/ ~ names_package (dep_of_package q) p).
      { rewrite <- dep_cmp_eq. destruct (dep_cmp _ _); [left; reflexivity|right; discriminate|right; discriminate]. }
      destruct Dc as [Dc|Dc].
      * pose proof (Hp q Hq) as Hl. apply In_nth_error in Hl as (j & Hj). pose proof (D j i q p Hj N Dc) as ->.
        exists i. split; [left; reflexivity|exact Hj].
      * destruct Hq as [<-|Hq]; [exfalso; apply Dc, names_self|]. destruct (C q Hq (proj2 (X q) (conj Dc K))) as (j & J1 & J2).
        exists j. split; [right; exact J1|exact J2].
Qed.
Lemma steps_none l ps d rs d' : steps l false ps d rs d' -> rs = [].
Proof. intros H. remember false as show. induction H; auto. subst show. auto. Qed.

Lemma with_get_count (P : warning -> bool) ws : List.length (filter snd (map (fun w => (w, P w)) ws)) = List.length (filter P ws).
Proof. induction ws as [|w ws IH]; [reflexivity|]. cbn. destruct (P w); cbn; rewrite IH; reflexivity. Qed.

(** The report [r] as the terminal shows it, given that every finding is about a package of the lockfile. *)
Lemma print_report_shows checks c r l o d : locked l -> distinct_packages l -> cf_format c = FTerminal ->
  (forall v, In v (vi_list (r_vulns r)) -> In (v_package v) (lk_packages l)) ->
  (forall k w, In w (winfo_get k (r_warnings r)) -> In (w_package w) (lk_packages l)) ->
  print_report checks c r l [] = Ok (o, d) ->
  shown_vulns o = vi_list (r_vulns r) /\
  shown_warnings o = map (fun w => (w, kind_mem (w_kind w) (denied_kinds c))) (ordered_warnings (r_warnings r)) /\
  shown_counts o = ((if vi_found (r_vulns r) then [OutVulnCount (vi_count (r_vulns r))] else [])
      ++ (if Nat.ltb 0 (denied_in c (r_warnings r)) then [OutDenied (denied_in c (r_warnings r))] else [])
      ++ (if Nat.ltb 0 (allowed_in c (r_warnings r)) then [OutAllowed (allowed_in c (r_warnings r))] else []))%list /\
  steps l (cf_show_tree c) (map v_package (vi_list (r_vulns r)) ++ map w_package (ordered_warnings (r_warnings r)))%list [] (shown_trees o) d.
Proof.
  intros L D F HV HW H. unfold print_report in H. rewrite F in H. destruct (tree_new l) as [t| |] eqn:T; try discriminate.
  destruct (print_vulns checks c t (vi_list (r_vulns r)) []) as [[o1 d1]| |] eqn:E1; try discriminate. cbn [obind snd] in H.
  destruct (print_warnings c t (ordered_warnings (r_warnings r)) d1) as [[o2 d2]| |] eqn:E2; try discriminate. cbn [obind fst snd] in H.
  rewrite count_warnings_eq in H. cbn [fst snd] in H.
  destruct (print_vulns_steps checks c l t _ L D T _ _ _ HV E1) as (S1 & V1 & W1 & C1).
  destruct (print_warnings_steps c l t _ L D T _ _ _ (fun w Hw => match proj1 (ordered_in _ w) Hw with ex_intro _ k K => HW k w K end) E2) as (S2 & V2 & W2 & C2).
  remember ((if vi_found (r_vulns r) then [OutVulnCount (vi_count (r_vulns r))] else [])
      ++ (if Nat.ltb 0 (denied_in c (r_warnings r)) then [OutDenied (denied_in c (r_warnings r))] else [])
      ++ (if Nat.ltb 0 (allowed_in c (r_warnings r)) then [OutAllowed (allowed_in c (r_warnings r))] else []))%list as tl eqn:TL.
  injection H as <- <-.
  assert (X : shown_vulns tl = [] /\ shown_warnings tl = [] /\ shown_trees tl = [] /\ shown_counts tl = tl).
  { subst tl. destruct (vi_found (r_vulns r)), (Nat.ltb 0 (denied_in c (r_warnings r))), (Nat.ltb 0 (allowed_in c (r_warnings r)));
    cbn; auto. }
  destruct X as (X1 & X2 & X3 & X4).
  rewrite !shown_vulns_app, !shown_warnings_app, !shown_trees_app, !shown_counts_app, X1, X2, X3, X4, V1, V2, W1, W2, C1, C2, !app_nil_r.
  split; [reflexivity|]. split; [reflexivity|]. split; [reflexivity|].
  exact (steps_app _ _ _ _ _ _ _ _ _ S1 S2).
Qed.

Lemma winfo_get_missing k m : ~ In k (map fst m) -> winfo_get k m = [].
Proof. induction m as [|[k' ws] m IH]; intros N; [reflexivity|]. cbn in *. destruct (warning_kind_eqb_spec k' k) as [->|]; [tauto|]. apply IH. tauto. Qed.
Lemma filter_all {A} (P : A -> bool) b l : (forall x, In x l -> P x = b) -> filter P l = if b then l else [].
Proof.
  induction l as [|x l IH]; intros H; [destruct b; reflexivity|]. cbn. rewrite (H x (or_introl eq_refl)), IH by (intros; apply H; right; assumption).
  destruct b; reflexivity.
Qed.
Lemma flag_count (P : warning_kind -> bool) m : NoDup (map fst m) -> (forall k w, In w (winfo_get k m) -> w_kind w = k) ->
  List.length (filter (fun w => P (w_kind w)) (ordered_warnings m)) =
  list_sum (map (fun kw => if P (fst kw) then List.length (snd kw) else 0) m).
Proof.
  unfold ordered_warnings. induction m as [|[k ws] m IH]; intros N K; [reflexivity|].
  inversion N as [|? ? N1 N2]; subst. cbn [fst] in N1.
  assert (Kt : forall k w, In w (winfo_get k m) -> w_kind w = k).
  { intros k' w Hw. apply K. cbn. destruct (warning_kind_eqb_spec k k') as [<-|]; [|exact Hw].
    rewrite (winfo_get_missing k m N1) in Hw. destruct Hw. }
  specialize (IH N2 Kt). unfold list_sum in *. cbn [map fold_right fst snd]. rewrite <- IH. clear IH.
  assert (Kh : filter (fun w => P (w_kind w)) ws = if P k then ws else []).
  { apply filter_all. intros w Hw. rewrite (K k w); [reflexivity|]. cbn. destruct (warning_kind_eqb_spec k k); [exact Hw|contradiction]. }
  pose proof (winfo_get_missing k m N1) as M. cbn [kinds_in_order flat_map winfo_get].
  destruct k; cbn [warning_kind_eqb]; rewrite !filter_app, !app_length, Kh, M; cbn [filter List.length];
    match goal with |- context [P ?k] => destruct (P k) end; cbn [List.length]; lia.
Qed.

(** ** C63: in the default output format, `cargo audit` shows exactly the vulnerabilities of the report, in its order;
    every warning of the report and the yanked crates, marked as denied iff they are fatal; counts that agree with what
    is shown; and (if asked to show trees) the tree of each package with a finding exactly once. *)
Theorem C63_terminal_output : forall checks c w truth t db l,
  wd_located w = true -> wd_checkout w c = Some t -> db_open t = Ok db -> wd_lockfile w = Ok l ->
  index_answers c w truth -> printable checks c (db_iter db) l -> cf_format c = FTerminal ->
  exists r out code, report_generate checks db (lk_packages l) (report_settings c) = Ok r /\ run_audit checks c w = (out, code) /\
    shown_vulns out = vi_list (r_vulns r) /\
    (forall x b, In (x, b) (shown_warnings out) ->
       (b = true <-> w_kind x <> WNotice /\ denies c (w_kind x)) /\
       (In x (winfo_get (w_kind x) (r_warnings r)) \/
        exists p, x = mkWarning WYanked p None /\ index_consulted c w /\ In p (lk_packages l) /\ from_crates_io p /\ says (truth (p_name p)) (p_version p) true)) /\
    (forall k x, In x (winfo_get k (r_warnings r)) -> exists b, In (x, b) (shown_warnings out)) /\
    (index_consulted c w -> forall p, In p (lk_packages l) -> from_crates_io p -> says (truth (p_name p)) (p_version p) true ->
       exists q b, In (mkWarning WYanked q None, b) (shown_warnings out) /\ same_release p q) /\
    (forall n, In (OutVulnCount n) out <-> n = List.length (shown_vulns out) /\ n <> 0) /\
    (forall n, In (OutDenied n) out <-> n = List.length (filter snd (shown_warnings out)) /\ n <> 0) /\
    (forall n, In (OutAllowed n) out <-> n = List.length (filter (fun x => negb (snd x)) (shown_warnings out)) /\ n <> 0) /\
    (if cf_show_tree c
     then NoDup (shown_trees out) /\ forall i p, nth_error (lk_packages l) i = Some p ->
       (In i (shown_trees out) <-> (exists v, In v (shown_vulns out) /\ v_package v = p) \/
                                   (exists x b, In (x, b) (shown_warnings out) /\ w_package x = p))
     else shown_trees out = []).
Proof.
  intros checks c w truth t db l Hl Hc Hd Hf I P F.
  destruct (run_audit_spec checks c w truth t db l Hl Hc Hd Hf I P)
    as (r0 & ws & r & out & d & s & b & E & Er & EP & ES & ER & _ & Y1 & Y2 & Y3).
  destruct (P F) as (L & D & _ & _).
  destruct (report_spec checks t db (lk_packages l) (report_settings c) Hd) as (r' & E' & _ & _ & _ & Ec & Ef & [N NK] & _).
  rewrite E in E'. injection E' as <-.
  assert (HV : forall v, In v (vi_list (r_vulns r)) -> In (v_package v) (lk_packages l)).
  { intros v Hv. rewrite Er, with_yanked_vulns in Hv. apply (report_vuln_in checks t _ _ _ _ _ Hd E) in Hv. tauto. }
  assert (HK : forall k x, In x (winfo_get k (r_warnings r)) -> w_kind x = k /\ In (w_package x) (lk_packages l) /\
     (In x (winfo_get k (r_warnings r0)) \/ In x ws)).
  { intros k x Hw. rewrite Er, with_yanked_get in Hw. apply in_app_or in Hw as [Hw|Hw].
    - pose proof Hw as Hw'. apply (report_warning_in checks t _ _ _ _ _ _ Hd E) in Hw as (a & i & Ew & _ & Hp & _).
      split; [rewrite Ew; reflexivity|auto].
    - destruct (warning_kind_eqb_spec WYanked k) as [<-|]; [|destruct Hw]. destruct (Y1 x Hw) as (p & -> & Hp & _). cbn. auto. }
  destruct (print_report_shows checks c r l out d L D F HV (fun k x Hx => proj1 (proj2 (HK k x Hx))) EP) as (SV & SW & SC & ST).
  set (tl := match s with [] => [] | _ => [OutSelf s] end) in *.
  assert (X : shown_vulns tl = [] /\ shown_warnings tl = [] /\ shown_trees tl = [] /\ shown_counts tl = []).
  { unfold tl. destruct s; cbn; auto. }
  destruct X as (X1 & X2 & X3 & X4).
  exists r0, (out ++ tl)%list, (Exit (if b then 1 else 0)%N). split; [exact E|]. split; [exact ER|].
  rewrite shown_vulns_app, shown_warnings_app, shown_trees_app, X1, X2, X3, !app_nil_r.
  split; [rewrite SV, Er, with_yanked_vulns; reflexivity|].
  assert (NR : NoDup (map fst (r_warnings r))) by (rewrite Er; apply with_yanked_nodup, N).
  assert (KM : forall k x, In x (winfo_get k (r_warnings r)) -> w_kind x = k) by (intros k x Hx; apply (HK k x Hx)).
  assert (SWin : forall x b, In (x, b) (shown_warnings out) <-> b = kind_mem (w_kind x) (denied_kinds c) /\ In x (winfo_get (w_kind x) (r_warnings r))).
  { intros x b'. rewrite SW, in_map_iff. split.
    - intros (y & Ey & Hy). injection Ey as <- <-. split; [reflexivity|]. apply ordered_in in Hy as (k & Hy). rewrite (KM k y Hy). exact Hy.
    - intros [-> Hx]. exists x. split; [reflexivity|]. apply ordered_in. eauto. }
  split.
  { intros x b' Hx. apply SWin in Hx as [-> Hx]. split; [apply kind_mem_denied|].
    destruct (HK _ _ Hx) as (_ & _ & [K|K]); [left; exact K|right]. destruct (Y1 x K) as (p & -> & K').
    exists p. split; [reflexivity|]. split; [|exact K']. apply Y3. intros ->. destruct K. }
  split.
  { intros k x Hx. exists (kind_mem (w_kind x) (denied_kinds c)). apply SWin. split; [reflexivity|].
    assert (Hx' : In x (winfo_get k (r_warnings r))) by (rewrite Er, with_yanked_get; apply in_or_app; left; exact Hx).
    rewrite (KM k x Hx'). exact Hx'. }
  split.
  { intros Cn p H1 H2 H3. destruct (Y2 Cn p H1 H2 H3) as (q & Hq & S). exists q, (kind_mem WYanked (denied_kinds c)).
    split; [|exact S]. apply SWin. split; [reflexivity|]. cbn [w_kind]. rewrite Er, with_yanked_get. apply in_or_app. right. exact Hq. }
  assert (CC : forall x, (match x with OutVulnCount _ | OutDenied _ | OutAllowed _ => true | _ => false end) = true ->
     (In x (out ++ tl)%list <-> In x (shown_counts out))).
  { intros x Hx. unfold shown_counts. rewrite filter_In, in_app_iff. split; [|tauto]. intros [K|K]; [auto|].
    unfold tl in K. destruct s; [destruct K|]. destruct K as [<-|[]]. discriminate. }
  assert (A1 : vi_found (r_vulns r) = true <-> vi_list (r_vulns r) <> []) by (rewrite Er, with_yanked_vulns; exact Ef).
  assert (A2 : vi_count (r_vulns r) = List.length (vi_list (r_vulns r))) by (rewrite Er, with_yanked_vulns; exact Ec).
  assert (A3 : denied_in c (r_warnings r) = List.length (filter snd (shown_warnings out))).
  { rewrite SW, with_get_count, (flag_count (fun k => kind_mem k (denied_kinds c)) _ NR KM). reflexivity. }
  assert (A4 : allowed_in c (r_warnings r) = List.length (filter (fun x => negb (snd x)) (shown_warnings out))).
  { rewrite SW. transitivity (List.length (filter (fun x => negb (kind_mem (w_kind x) (denied_kinds c))) (ordered_warnings (r_warnings r)))).
    - rewrite (flag_count (fun k => negb (kind_mem k (denied_kinds c))) _ NR KM). unfold allowed_in. apply (f_equal list_sum). apply map_ext.
      intros kw. destruct (kind_mem (fst kw) (denied_kinds c)); reflexivity.
    - generalize (ordered_warnings (r_warnings r)). intros l0. induction l0 as [|x l0 IH]; [reflexivity|]. cbn.
      destruct (kind_mem (w_kind x) (denied_kinds c)); cbn; rewrite IH; reflexivity. }
  split; [|split; [|split]].
  - intros n. rewrite (CC (OutVulnCount n) eq_refl), SC, SV, <- A2, !in_app_iff. split.
    + intros [K|[K|K]]; [|destruct (Nat.ltb 0 (denied_in c (r_warnings r))); [destruct K as [K|[]]; discriminate|destruct K]
                        |destruct (Nat.ltb 0 (allowed_in c (r_warnings r))); [destruct K as [K|[]]; discriminate|destruct K]].
      destruct (vi_found (r_vulns r)) eqn:V; [|destruct K]. destruct K as [K|[]]. injection K as <-. split; [reflexivity|].
      rewrite A2. pose proof (proj1 A1 eq_refl). destruct (vi_list (r_vulns r)); [contradiction|discriminate].
    + intros [-> K]. left. destruct (vi_found (r_vulns r)) eqn:V; [left; reflexivity|].
      rewrite A2 in K. destruct (vi_list (r_vulns r)) eqn:V'; [cbn in K; congruence|]. assert (false = true) by (apply A1; discriminate). discriminate.
  - intros n. rewrite (CC (OutDenied n) eq_refl), SC, <- A3, !in_app_iff. split.
    + intros [K|[K|K]]; [destruct (vi_found (r_vulns r)); [destruct K as [K|[]]; discriminate|destruct K]| 
                        |destruct (Nat.ltb 0 (allowed_in c (r_warnings r))); [destruct K as [K|[]]; discriminate|destruct K]].
      destruct (Nat.ltb_spec 0 (denied_in c (r_warnings r))); [|destruct K]. destruct K as [K|[]]. injection K as <-. split; [reflexivity|lia].
    + intros [-> K]. right. left. destruct (Nat.ltb_spec 0 (denied_in c (r_warnings r))); [left; reflexivity|lia].
  - intros n. rewrite (CC (OutAllowed n) eq_refl), SC, <- A4, !in_app_iff. split.
    + intros [K|[K|K]]; [destruct (vi_found (r_vulns r)); [destruct K as [K|[]]; discriminate|destruct K]
                        |destruct (Nat.ltb 0 (denied_in c (r_warnings r))); [destruct K as [K|[]]; discriminate|destruct K]|].
      destruct (Nat.ltb_spec 0 (allowed_in c (r_warnings r))); [|destruct K]. destruct K as [K|[]]. injection K as <-. split; [reflexivity|lia].
    + intros [-> K]. right. right. destruct (Nat.ltb_spec 0 (allowed_in c (r_warnings r))); [left; reflexivity|lia].
  - destruct (cf_show_tree c); [|exact (steps_none _ _ _ _ _ ST)].
    destruct (steps_meaning l _ _ _ _ D ST) as (A & B & C).
    { intros p Hp. apply in_app_or in Hp as [Hp|Hp]; apply in_map_iff in Hp as (x & <- & Hx); [exact (HV x Hx)|].
      apply ordered_in in Hx as (k & Hx). apply (HK k x Hx). }
    split; [exact A|]. intros i p Hi.
    assert (Q : In p (map v_package (vi_list (r_vulns r)) ++ map w_package (ordered_warnings (r_warnings r)))%list <->
      (exists v, In v (shown_vulns out) /\ v_package v = p) \/ (exists x b0, In (x, b0) (shown_warnings out) /\ w_package x = p)).
    { rewrite in_app_iff, !in_map_iff, SV. split; (intros [H|H]; [left|right]).
      - destruct H as (v & H1 & H2). eauto.
      - destruct H as (x & H1 & H2). exists x, (kind_mem (w_kind x) (denied_kinds c)). split; [|exact H1].
        rewrite SW, in_map_iff. exists x. auto.
      - destruct H as (v & H1 & H2). eauto.
      - destruct H as (x & b0 & H1 & H2). exists x. split; [exact H2|]. rewrite SW, in_map_iff in H1. destruct H1 as (y & H1 & H3). congruence. }
    rewrite <- Q. split.
    + intros Hi'. destruct (B i Hi') as (q & Hq & Hq' & _). congruence.
    + intros Hp. destruct (C p Hp eq_refl) as (j & Hj & Hj'). apply In_nth_error in Hp as (_ & _).
      assert (j = i) by (apply (D j i p p Hj' Hi), names_self). subst. exact Hj.
Qed.
Print Assumptions C63_terminal_output.
Example C63_nonvacuous : exists out, run_audit false ex_config ex_world = (out, Exit 1) /\
  List.length (shown_vulns out) = 2 /\ List.length (shown_warnings out) = 1 /\ shown_trees out = [1] /\
  In (OutDenied 1) out /\ In (OutVulnCount 2) out.
Proof. eexists. split; [vm_compute; reflexivity|]. vm_compute. repeat split; auto 20. Qed.
