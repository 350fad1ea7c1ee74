(** Property theorems C67: what consumers of the OSV export conclude. *)
From Coq Require Import List NArith ZArith Ascii String Bool Lia.
From Verif Require Import Base StrLib SemverModel OsvModel OsvSpec OsvProofs OsvProofs2 OsvProofs5 OsvProofs6 IdModel IdSpec IdProofs VerText
  PkgModel DbModel CvssText UrlModel ScanModel AdvModel MtimeModel OsvAdvModel OsvAdvSpec OsvAdvProofs PropsMtime.
Import ListNotations.
Local Open Scope string_scope.

(** Inversion of [let? x := e in k = Ok y]. *)
Ltac obinv H :=
  repeat match type of H with
  | obind ?e _ = Ok _ => let E := fresh "E" in destruct e eqn:E; cbn [obind] in H; [|discriminate H|discriminate H]
  end.

Lemma json_range_inv checks vs r : json_range_new checks vs = Ok r ->
  exists rs, unaffected_to_osv_ranges checks (unaffected vs) (patched vs) = Ok rs /\ rs <> [] /\
    r = mkJRange "SEMVER" (List.concat (map range_events rs)).
Proof.
  unfold json_range_new, ranges_for_advisory. destruct (unaffected_to_osv_ranges checks (unaffected vs) (patched vs)) as [rs| |]; cbn [obind]; try discriminate.
  destruct rs as [|x rs]; [discriminate|]. intros [= <-]. exists (x :: rs). repeat split; discriminate.
Qed.
Lemma from_rustsec_inv x cal mt p a o : from_rustsec x cal mt p a = Ok o ->
  exists r rest, json_range_new (x_checks x) (f_versions a) = Ok r /\ o_affected o = [rest] /\
    oa_package rest = package_of (m_package (f_meta a)) /\ oa_ranges rest = Some [r] /\ oa_versions rest = Some [].
Proof. unfold from_rustsec. intros H. obinv H. injection H as <-. do 2 eexists. repeat split. Qed.

Lemma member_affected o : member "affected" (osv_to_json o) = Some (j_list j_affected (o_affected o)).
Proof. unfold osv_to_json. destruct (o_schema o), (o_withdrawn o); reflexivity. Qed.
Lemma range_verdict_of v r rs : Forall osv_wf rs -> r = mkJRange "SEMVER" (List.concat (map range_events rs)) ->
  range_verdict v (j_range r) = Some (evaluate (List.concat (map evs_of rs)) v).
Proof.
  intros W ->. unfold range_verdict, j_range. cbn [member find fst jr_kind jr_events String.eqb Ascii.eqb Bool.eqb].
  unfold j_list. rewrite (read_all rs W), all_some_map. reflexivity.
Qed.

(** A consumer that runs the evaluation algorithm of the OSV schema on the exported document finds exactly the versions
    outside every declared safe range affected; and only for the advisory's own crate on crates.io. *)
Theorem C67_same_verdict : forall x cal mt path a o eco name v,
  let safe := (patched (f_versions a) ++ unaffected (f_versions a))%list in
  reqs_wf safe -> no_silent_overflow (x_checks x) safe -> version_wf v = true ->
  from_rustsec x cal mt path a = Ok o ->
  exists b, osv_verdict (osv_to_json o) eco name v = Some b /\
    (b = true <-> eco = "crates.io" /\ name = m_package (f_meta a) /\ ~ declared_safe safe v).
Proof.
  intros x cal mt path a o eco name v safe W NO V H.
  apply from_rustsec_inv in H as (r & rest & R & A & P & RG & VS). apply json_range_inv in R as (rs & U & NE & ->).
  pose proof (ranges_wf _ _ _ _ W U) as RW. pose proof (osv_export_shape _ _ _ _ W NO U) as SH.
  pose proof (osv_export_complement _ _ _ _ v W NO V U) as CO. fold (pairs rs) in SH, CO.
  unfold osv_verdict. rewrite member_affected, A. cbn [j_list map all_some].
  assert (EV : entry_verdict eco name v (j_affected rest) =
    Some ((String.eqb ECOSYSTEM eco && String.eqb (m_package (f_meta a)) name) && (evaluate (List.concat (map evs_of rs)) v || false))%bool).
  { unfold entry_verdict, j_affected. rewrite P, RG, VS.
    cbn [member find fst String.eqb Ascii.eqb Bool.eqb j_opt j_list map existsb].
    change (range_verdict v (j_range (mkJRange "SEMVER" (List.concat (map range_events rs))))) with
      (range_verdict v (j_range (mkJRange "SEMVER" (List.concat (map range_events rs))))).
    rewrite (range_verdict_of v _ rs RW eq_refl). reflexivity. }
  rewrite EV. cbn [existsb]. eexists. split; [reflexivity|].
  rewrite !orb_false_r, !andb_true_iff, !String.eqb_eq. unfold evaluate. rewrite (timeline_sorted rs RW SH), (timeline_verdict v rs V RW SH), CO.
  unfold ECOSYSTEM. split; [intros [[<- <-] H]; auto|intros (-> & -> & H); auto].
Qed.
Print Assumptions C67_same_verdict.

(** The same verdict as the tool's own. *)
Theorem C67_same_verdict_as_the_tool : forall x cal mt path a o p u v b,
  reqs_wf (p ++ u) -> no_silent_overflow (x_checks x) (p ++ u) -> version_wf v = true ->
  versions_new (x_checks x) p u = Ok (f_versions a) -> from_rustsec x cal mt path a = Ok o ->
  is_vulnerable (x_checks x) (f_versions a) v = Ok b ->
  osv_verdict (osv_to_json o) "crates.io" (m_package (f_meta a)) v = Some b.
Proof.
  intros x cal mt path a o p u v b W NO V N H B.
  destruct (is_vulnerable_correct _ _ _ _ _ W NO V N) as (b' & B' & BI). rewrite B in B'. injection B' as <-.
  assert (F : f_versions a = mkVersions p u).
  { unfold versions_new in N. destruct (unaffected_to_osv_ranges (x_checks x) u p); cbn [obind] in N; try discriminate. congruence. }
  destruct (C67_same_verdict x cal mt path a o "crates.io" (m_package (f_meta a)) v) as (c & E & CI);
    rewrite ?F; cbn [patched unaffected]; auto. rewrite F in CI. cbn [patched unaffected] in CI.
  rewrite E. f_equal. destruct b, c; try reflexivity.
  - apply (proj2 CI). split; [reflexivity|]. split; [reflexivity|]. apply (proj1 BI). reflexivity.
  - symmetry. apply (proj2 BI), (proj1 CI). reflexivity.
Qed.
Print Assumptions C67_same_verdict_as_the_tool.

(** The timeline is written in order, opens with an [introduced] event and alternates: what consumers that do not sort, or
    that pair up the events, rely on. *)
Fixpoint alternating (l : list event) : Prop :=
  match l with
  | [Introduced _] => True
  | Introduced _ :: Fixed _ :: [] => True
  | Introduced _ :: Fixed _ :: r => alternating r
  | _ => False
  end.
Definition event_text (e : event) : string := match e with Introduced v | Fixed v | LastAffected v => v end.
Definition in_order (l : list event) : Prop :=
  exists vs, Forall2 (fun e v => parse_version (event_text e) = Some v) l vs /\ ForallOrdPairs prec_le vs.
Lemma concat_alternating rs : osv_export_ok (pairs rs) -> rs <> [] -> alternating (List.concat (map range_events rs)).
Proof.
  induction rs as [|r rs IH]; intros O N; [congruence|]. apply pairs_inv in O as (L & _ & O). cbn [map List.concat].
  destruct rs as [|r2 rs].
  - unfold range_events. destruct (introduced r), (fixed r); cbn; exact Logic.I.
  - specialize (IH O ltac:(discriminate)). inversion L as [|? ? (f & i & E & _ & _) _]; subst. unfold range_events at 1. rewrite E.
    remember (List.concat (map range_events (r2 :: rs))) as t. destruct t as [|e t]; [destruct IH|].
    destruct (introduced r); cbn [app alternating]; destruct e; try destruct IH; exact IH.
Qed.
Lemma from_pairs v l : from v l -> Forall (prec_le v) (map snd l).
Proof. unfold from. intros F. apply Forall_forall. intros w I. apply in_map_iff in I as (e & <- & E). rewrite Forall_forall in F. exact (F e E). Qed.
Lemma timeline_pairs rs : Forall osv_wf rs -> osv_export_ok (pairs rs) -> ForallOrdPairs prec_le (map snd (List.concat (map evs_of rs))).
Proof.
  induction rs as [|r rs IH]; intros W O; [constructor|]. inversion W as [|? ? W1 W2]; subst. apply pairs_inv in O as (L & I & O).
  cbn [map List.concat]. change (evs_of r) with ((EIntroduced, start_of r) :: match fixed r with Some f => [(EFixed, f)] | None => [] end).
  destruct (fixed r) as [f|] eqn:Ef.
  - assert (FF : from f (List.concat (map evs_of rs))).
    { apply later_from; [|exact O]. intros b B. rewrite Forall_forall in L. destruct (L b B) as (f' & i & E1 & E2 & P).
      injection E1 as <-. exists i. auto. }
    pose proof (start_le_fixed r f W1 ltac:(rewrite Ef; exact I) Ef) as SF. cbn [app map snd].
    constructor; [|constructor; [apply from_pairs, FF|apply IH; auto]].
    constructor; [exact SF|]. apply from_pairs. revert FF. unfold from. rewrite !Forall_forall. intros FF e E. eapply ple_trans; [exact SF|apply FF, E].
  - destruct rs as [|b rs]; [|inversion L as [|? ? (f' & i & E1 & _) _]; subst; discriminate]. constructor; [constructor|constructor].
Qed.
Lemma events_parse rs : Forall osv_wf rs ->
  Forall2 (fun e v => parse_version (event_text e) = Some v) (List.concat (map range_events rs)) (map snd (List.concat (map evs_of rs))).
Proof.
  induction 1 as [|r rs [W1 W2] _ IH]; [constructor|]. cbn [map List.concat]. rewrite map_app. apply Forall2_app; [|exact IH].
  unfold range_events, evs_of, start_of. destruct (introduced r) as [i|], (fixed r) as [f|]; cbn in W1, W2; cbn [app map snd];
    repeat constructor; cbn [event_text]; try apply parse_print_version; try assumption; reflexivity.
Qed.
Theorem C67_timeline : forall x cal mt path a o,
  let safe := (patched (f_versions a) ++ unaffected (f_versions a))%list in
  reqs_wf safe -> no_silent_overflow (x_checks x) safe -> from_rustsec x cal mt path a = Ok o ->
  exists e events, o_affected o = [e] /\ oa_ranges e = Some [mkJRange "SEMVER" events] /\ oa_versions e = Some [] /\
    oa_package e = mkOPkg "crates.io" (m_package (f_meta a)) (Some ("pkg:cargo/" ++ m_package (f_meta a))) /\
    alternating events /\ in_order events.
Proof.
  intros x cal mt path a o safe W NO H. apply from_rustsec_inv in H as (r & rest & R & A & P & RG & VS). apply json_range_inv in R as (rs & U & NE & ->).
  pose proof (ranges_wf _ _ _ _ W U) as RW. pose proof (osv_export_shape _ _ _ _ W NO U) as SH. fold (pairs rs) in SH.
  exists rest. eexists. split; [exact A|]. split; [exact RG|]. split; [exact VS|]. split; [exact P|].
  split; [apply concat_alternating; assumption|]. exists (map snd (List.concat (map evs_of rs))). split; [apply events_parse, RW|apply timeline_pairs; assumption].
Qed.
Print Assumptions C67_timeline.

(** Consumers that order events of equal version differently can disagree: two ranges may touch. *)
Definition touching : list version_req := [[mkComparator OpGreater 1 (Some 0) (Some 0) []; mkComparator OpLess 1 (Some 0) (Some 1) ["0"]]]%N.
Theorem C67_tie_order_refuted : exists e1 e2 e3 v,
  json_range_new false (mkVersions touching []) = Ok (mkJRange "SEMVER" [e1; e2; e3]) /\ event_text e2 = event_text e3 /\
  version_wf v = true /\
  exists k1 k2 k3, all_some (map read_event (map j_event [e1; e2; e3])) = Some [k1; k2; k3] /\
    fold_left (ev_step v) [k1; k2; k3] false = true /\ fold_left (ev_step v) [k1; k3; k2] false = false.
Proof.
  do 3 eexists. exists (mkVersion 2 0 0 [] []). split; [vm_compute; reflexivity|]. split; [reflexivity|]. split; [reflexivity|].
  do 3 eexists. split; [vm_compute; reflexivity|]. split; reflexivity.
Qed.
Print Assumptions C67_tie_order_refuted.

(** ** When there is an export *)
Lemma ranges_empty checks p u : unaffected_to_osv_ranges checks u p = Ok [] -> (p ++ u)%list = [[]].
Proof.
  unfold unaffected_to_osv_ranges.
  destruct (omap (urange_of_req checks) u) as [us| |] eqn:U; cbn [obind]; try discriminate.
  destruct (omap (urange_of_req checks) p) as [ps| |] eqn:P; cbn [obind]; try discriminate.
  unfold ranges_of_uranges. destruct (us ++ ps)%list as [|u0 l0] eqn:EL; [discriminate|]. rewrite <- EL.
  destruct (any_overlap (us ++ ps)) eqn:AO; [discriminate|].
  destruct (sort_ranges (us ++ ps)) as [s| |] eqn:S; cbn [obind]; try discriminate.
  apply sort_ranges_perm in S. destruct s as [|r l]; [discriminate|].
  destruct (first_range checks r) as [f| |] eqn:F; cbn [obind]; try discriminate.
  destruct (gaps checks r l) as [g| |] eqn:G; cbn [obind]; try discriminate. intros H. injection H as H. apply app_eq_nil in H as [-> ->].
  assert (L : l = []).
  { destruct l as [|r1 l]; [reflexivity|]. cbn [gaps] in G. destruct (gap_range checks r r1); cbn [obind] in G; try discriminate.
    destruct (gaps checks r1 l); cbn [obind] in G; discriminate. }
  subst l. apply Permutation.Permutation_sym, Permutation.Permutation_length_1_inv in S.
  assert (ST : u_start r = Unbounded).
  { unfold first_range in F. destruct (u_start r) as [|v|v]; [reflexivity| |discriminate]. destruct (increment checks v); discriminate. }
  assert (EN : u_end r = Unbounded).
  { cbn [gaps] in G. unfold last_range in G. destruct (u_end r) as [|v|v]; [reflexivity|discriminate|]. destruct (increment checks v); discriminate. }
  assert (REQ : forall q, urange_of_req checks q = Ok r -> q = []).
  { intros q E. destruct q as [|c q]; [reflexivity|exfalso]. unfold urange_of_req in E. destruct (Nat.ltb 2 (List.length (c :: q))) eqn:L2; [discriminate|].
    destruct (comp_loop checks (List.length (c :: q)) (Unbounded, Unbounded) (c :: q)) as [[s e]| |] eqn:CL; cbn [obind] in E; try discriminate.
    unfold urange_new in E. cbn [fst snd] in E. destruct (less_or_equal s e); [|discriminate]. injection E as <-. cbn in ST, EN. subst s e.
    assert (MONO : forall n cs s e s' e', comp_loop checks n (s, e) cs = Ok (s', e') -> (s <> Unbounded \/ e <> Unbounded) -> (s' <> Unbounded \/ e' <> Unbounded)).
    { intros n. induction cs as [|c0 cs IH]; cbn [comp_loop]; intros s e s' e' H O; [injection H as <- <-; exact O|].
      destruct (comp_step checks n (s, e) c0) as [[s1 e1]| |] eqn:CS; cbn [obind] in H; try discriminate. apply (IH _ _ _ _ H).
      unfold comp_step in CS. destruct (c_op c0); destruct s, e; cbn [is_unbounded] in CS;
        repeat match type of CS with context [if ?b then _ else _] => destruct b end; try discriminate;
        repeat match type of CS with context [obind ?b _] => destruct b; cbn [obind] in CS end; try discriminate;
        injection CS as <- <-; try (left; discriminate); try (right; discriminate); exact O. }
    cbn [comp_loop] in CL. destruct (comp_step checks (List.length (c :: q)) (Unbounded, Unbounded) c) as [[s1 e1]| |] eqn:CS; cbn [obind] in CL; try discriminate.
    destruct (MONO _ _ _ _ _ _ CL) as [X|X]; [|exact (X eq_refl)|exact (X eq_refl)].
    unfold comp_step in CS. cbn [is_unbounded] in CS. destruct (c_op c);
      repeat match type of CS with context [if ?b then _ else _] => destruct b end; try discriminate;
        repeat match type of CS with context [obind ?b _] => destruct b; cbn [obind] in CS end; try discriminate;
      injection CS as <- <-; try (left; discriminate); right; discriminate. }
  assert (ON : forall l, omap (urange_of_req checks) l = Ok [] -> l = []).
  { intros l E. destruct l as [|q l]; [reflexivity|]. cbn [omap] in E. destruct (urange_of_req checks q); cbn [obind] in E; try discriminate.
    destruct (omap (urange_of_req checks) l); discriminate. }
  assert (ONE : forall l, omap (urange_of_req checks) l = Ok [r] -> l = [[]]).
  { intros l E. destruct l as [|q l]; [discriminate|]. cbn [omap] in E. destruct (urange_of_req checks q) as [w| |] eqn:Q; cbn [obind] in E; try discriminate.
    destruct (omap (urange_of_req checks) l) as [ws| |] eqn:PP; cbn [obind] in E; try discriminate. injection E as -> ->. rewrite (REQ q Q), (ON l PP). reflexivity. }
  apply app_eq_unit in S as [[-> ->]|[-> ->]].
  - rewrite (ON _ U), (ONE _ P). reflexivity.
  - rewrite (ON _ P), (ONE _ U). reflexivity.
Qed.
Lemma ranges_star checks p u : (p ++ u)%list = [[]] -> unaffected_to_osv_ranges checks u p = Ok [].
Proof. intros E. apply app_eq_unit in E as [[-> ->]|[-> ->]]; reflexivity. Qed.

(** The text of a date begins with three numbers separated by dashes. *)
Definition dashed (d : string) : Prop := exists y m dd ny nm nd rest,
  split_on "-" d = y :: m :: dd :: rest /\ u32_numeral y ny /\ u32_numeral m nm /\ u32_numeral dd nd.
Lemma component_cases i d : (exists p n, nth_error (split_on "-" d) i = Some p /\ u32_numeral p n /\ date_component i d = Ok n) \/
  (date_component i d = Panic /\ forall p n, nth_error (split_on "-" d) i = Some p -> ~ u32_numeral p n).
Proof.
  unfold date_component. destruct (nth_error (split_on "-" d) i) as [p|]; [|right; split; [reflexivity|discriminate]].
  destruct (parse_u32 p) as [n|] eqn:E.
  - left. exists p, n. apply parse_u32_iff in E. auto.
  - right. split; [reflexivity|]. intros q n [= <-] U. apply parse_u32_iff in U. congruence.
Qed.
Lemma date_cases d : (dashed d /\ exists s, date_to_rfc3339 d = Ok s) \/ (~ dashed d /\ date_to_rfc3339 d = Panic).
Proof.
  unfold date_to_rfc3339, date_year, date_month, date_day.
  destruct (component_cases 0 d) as [(p0 & n0 & E0 & U0 & C0)|[C0 X0]]; rewrite C0; cbn [obind];
    [|right; split; [|reflexivity]; intros (y & m & dd & ny & nm & nd & rest & E & A & B & C); apply (X0 y ny); [rewrite E; reflexivity|exact A]].
  destruct (component_cases 1 d) as [(p1 & n1 & E1 & U1 & C1)|[C1 X1]]; rewrite C1; cbn [obind];
    [|right; split; [|reflexivity]; intros (y & m & dd & ny & nm & nd & rest & E & A & B & C); apply (X1 m nm); [rewrite E; reflexivity|exact B]].
  destruct (component_cases 2 d) as [(p2 & n2 & E2 & U2 & C2)|[C2 X2]]; rewrite C2; cbn [obind];
    [|right; split; [|reflexivity]; intros (y & m & dd & ny & nm & nd & rest & E & A & B & C); apply (X2 dd nd); [rewrite E; reflexivity|exact C]].
  left. split; [|eexists; reflexivity]. destruct (split_on "-" d) as [|y [|m [|dd rest]]] eqn:SD; [discriminate E0|discriminate E1|discriminate E2|]. cbn in E0, E1, E2.
  injection E0 as ->. injection E1 as ->. injection E2 as ->. exists p0, p1, p2, n0, n1, n2, rest. rewrite SD. auto.
Qed.

(** The export of an advisory that loads is defined exactly when: both links are URLs, the file has a last modification time
    in the years 0 to 9999, the dates are written with dashes, and the advisory does not declare every version safe.
    Otherwise it panics. *)
Definition exportable (x : externals) (cal : Z -> Z * N * N) (mt : mod_times) (path : string) (a : full_advisory) : Prop :=
  let m := f_meta a in
  (exists u, url_parse (x_norm x) ("https://crates.io/crates/" ++ m_package m) = Some u) /\
  (exists u, url_parse (x_norm x) ("https://rustsec.org/advisories/" ++ id_string (m_id m) ++ ".html") = Some u) /\
  (exists t, for_path mt path = Ok t /\ (0 <= fst (fst (cal (t / 86400))) <= 9999)%Z) /\
  dashed (m_date m) /\ (forall d, m_withdrawn m = Some d -> dashed d) /\
  (patched (f_versions a) ++ unaffected (f_versions a))%list <> [[]].
Theorem C67_exported_exactly : forall x cal mt path a p u, versions_new (x_checks x) p u = Ok (f_versions a) ->
  (exportable x cal mt path a <-> exists o, from_rustsec x cal mt path a = Ok o) /\
  (~ exportable x cal mt path a <-> from_rustsec x cal mt path a = Panic).
Proof.
  intros x cal mt path a p u N.
  assert (X : (exportable x cal mt path a /\ exists o, from_rustsec x cal mt path a = Ok o) \/
              (~ exportable x cal mt path a /\ from_rustsec x cal mt path a = Panic)).
  { assert (F : f_versions a = mkVersions p u /\ exists rs, unaffected_to_osv_ranges (x_checks x) u p = Ok rs).
    { unfold versions_new in N. destruct (unaffected_to_osv_ranges (x_checks x) u p) as [rs| |]; cbn [obind] in N; try discriminate. injection N as <-. eauto. }
    destruct F as [F [rs U]]. unfold exportable, from_rustsec, url_unwrap.
    destruct (url_parse (x_norm x) ("https://crates.io/crates/" ++ m_package (f_meta a))) as [u1|]; cbn [obind];
      [|right; split; [intros ((? & ?) & _); discriminate|reflexivity]].
    destruct (url_parse (x_norm x) ("https://rustsec.org/advisories/" ++ id_string (m_id (f_meta a)) ++ ".html")) as [u2|]; cbn [obind];
      [|right; split; [intros (_ & (? & ?) & _); discriminate|reflexivity]].
    assert (FP : (exists t, for_path mt path = Ok t) \/ for_path mt path = Panic).
    { unfold for_path. destruct (lookup path (mt_mtimes mt)) as [t|]; [|auto]. destruct (valid_time t); eauto. }
    destruct FP as [[t FP]|FP]; rewrite FP; cbn [obind]; [|right; split; [intros (_ & _ & (? & ? & _) & _); discriminate|reflexivity]].
    unfold rfc3339 at 1 2. unfold clock at 1 2. destruct (cal (t / 86400)%Z) as [[y m] d] eqn:C.
    destruct (Z.leb 0 y && Z.leb y 9999)%bool eqn:Y; cbn [obind];
      [|right; split; [intros (_ & _ & (t' & T & L) & _); injection T as <-; rewrite C in L; cbn in L; apply andb_false_iff in Y as [Y|Y]; apply Z.leb_gt in Y; lia|reflexivity]].
    destruct (date_cases (m_date (f_meta a))) as [[D [s DS]]|[D DS]]; rewrite DS; cbn [obind]; [|right; split; [intros (_ & _ & _ & ? & _); contradiction|reflexivity]].
    rewrite F. cbn [patched unaffected]. unfold json_range_new, ranges_for_advisory. cbn [patched unaffected]. rewrite U. cbn [obind].
    destruct rs as [|r0 rs]; cbn [obind].
    { right. split; [|reflexivity]. intros (_ & _ & _ & _ & _ & H). apply H. apply (ranges_empty _ _ _ U). }
    assert (NS : (p ++ u)%list <> [[]]) by (intros E; apply (ranges_star (x_checks x)) in E; congruence).
    apply andb_true_iff in Y as [Y1 Y2]. apply Z.leb_le in Y1, Y2.
    destruct (m_withdrawn (f_meta a)) as [w|].
    - destruct (date_cases w) as [[DW [sw DSW]]|[DW DSW]]; rewrite DSW; cbn [obind].
      + left. split; [|eexists; reflexivity]. repeat apply conj; eauto. { exists t. rewrite C. cbn. auto. } intros d0 [= <-]. exact DW.
      + right. split; [|reflexivity]. intros (_ & _ & _ & _ & H & _). exact (DW (H w eq_refl)).
    - cbn [obind]. left. split; [|eexists; reflexivity]. repeat apply conj; eauto. { exists t. rewrite C. cbn. auto. } discriminate. }
  destruct X as [[E [o O]]|[E O]]; rewrite O.
  - split; split; intros H; eauto; try discriminate; contradiction.
  - split; split; intros H; auto; try contradiction. destruct H; discriminate.
Qed.
Print Assumptions C67_exported_exactly.

(** ISO dates come out as noon of the day written. *)
Lemma print_padded w s : digits s -> String.length s = w -> pad_left w (print_dec (value s)) = s.
Proof.
  intros D <-. assert (K : forall s, digits s -> (String.length (print_dec (value s)) <= String.length s)%nat).
  { clear. intros s D. destruct (Nat.le_gt_cases (String.length (print_dec (value s))) (String.length s)) as [H|H]; [exact H|exfalso].
    pose proof (value_lt s (proj2 D)) as V. pose proof (print_dec_nlz (value s)) as Z. pose proof (print_dec_is_digits (value s)) as PD. pose proof (print_dec_value (value s)) as PV.
    destruct (print_dec (value s)) as [|c r]; [cbn in H; lia|]. apply nlz_cons in Z as [Z|Z].
    - pose proof (proj2 PD) as P2. cbn [str_forall] in P2. apply andb_true_iff in P2 as [P2 P3].
      pose proof (value_ge c r P2 Z P3) as G. rewrite PV in G. cbn [String.length] in H.
      assert (10 ^ N.of_nat (String.length s) <= 10 ^ N.of_nat (String.length r))%N by (apply N.pow_le_mono_r; lia). lia.
    - subst r. cbn in H. destruct s; [apply (proj1 D); reflexivity|cbn in H; lia]. }
  specialize (K s D).
  assert (ZD : forall k, str_forall is_dig (zeros k) = true) by (induction k; [reflexivity|exact IHk]).
  assert (ZL : forall k, String.length (zeros k) = k) by (induction k as [|k IH]; [reflexivity|cbn; rewrite IH; reflexivity]).
  apply value_inj; unfold pad_left.
  - rewrite str_forall_app, ZD. exact (proj2 (print_dec_is_digits _)).
  - exact (proj2 D).
  - rewrite slength_app, ZL. lia.
  - assert (ZV : forall k t, value (zeros k ++ t) = value t) by (intros k t; induction k as [|k IH]; [reflexivity|exact IH]).
    rewrite ZV. apply print_dec_value.
Qed.
Theorem C67_published : forall ys ms ds, digits ys -> digits ms -> digits ds ->
  String.length ys = 4 -> String.length ms = 2 -> String.length ds = 2 -> (2000 <= value ys)%N ->
  date_to_rfc3339 (iso_date ys ms ds) = Ok (iso_date ys ms ds ++ "T12:00:00Z").
Proof.
  intros ys ms ds DY DM DD LY LM LD Y.
  assert (U : forall s, digits s -> (String.length s <= 4)%nat -> u32_numeral s (value s)).
  { intros s D L. exists s. split; [left; reflexivity|]. split; [exact D|]. split; [reflexivity|]. pose proof (value_lt s (proj2 D)) as V.
    assert (10 ^ N.of_nat (String.length s) <= 10 ^ 4)%N by (apply N.pow_le_mono_r; lia). change (10 ^ 4)%N with 10000%N in H. lia. }
  destruct (iso_components ys ms ds (value ys) (value ms) (value ds)) as (A & B & C); [apply U; auto; lia..|].
  unfold date_to_rfc3339. rewrite A, B, C. cbn [obind]. rewrite (print_padded 2 ms DM LM), (print_padded 2 ds DD LD). f_equal.
  pose proof (print_padded 4 ys DY LY) as P. unfold pad_left in P.
  assert (L : String.length (print_dec (value ys)) = 4).
  { assert (LE : (String.length (print_dec (value ys)) <= 4)%nat).
    { rewrite <- P in LY at 1. rewrite slength_app in LY. lia. }
    pose proof (value_lt (print_dec (value ys)) (proj2 (print_dec_is_digits _))) as V. rewrite print_dec_value in V.
    destruct (Nat.le_gt_cases 4 (String.length (print_dec (value ys)))) as [G|G]; [lia|exfalso].
    assert (10 ^ N.of_nat (String.length (print_dec (value ys))) <= 10 ^ 3)%N by (apply N.pow_le_mono_r; lia). change (10 ^ 3)%N with 1000%N in H. lia. }
  rewrite L in P. cbn [Nat.sub zeros append] in P. rewrite P. unfold iso_date.
  rewrite !sapp_assoc. reflexivity.
Qed.
Print Assumptions C67_published.

(** ** Cases *)
Definition req_of (s : string) : option version_req :=
  if String.eqb s "*" then Some []
  else if String.eqb s "< 0.9.0" then Some [mkComparator OpLess 0 (Some 9) (Some 0) []]%N
  else if String.eqb s ">= 1.2.3, < 2.0.0" then Some [mkComparator OpGreaterEq 1 (Some 2) (Some 3) []; mkComparator OpLess 2 (Some 0) (Some 0) []]%N
  else if String.eqb s "> 2.1.0" then Some [mkComparator OpGreater 2 (Some 1) (Some 0) []]%N
  else None.
Definition civil_of (s : string) : option (Z * N * N) :=
  if String.eqb s "2024-03-09" then Some (2024, 3%N, 9%N)%Z else if String.eqb s "20240309" then Some (2024, 3%N, 9%N)%Z else None.
Definition ext : externals := mkExt civil_of (fun s => Some s) req_of false.
Definition doc (date : string) (patched : list string) : ttable :=
  [("advisory", TTab [("id", TStr "RUSTSEC-2024-0001"); ("package", TStr "my-crate"); ("date", TStr date);
                      ("aliases", TArr [TStr "CVE-2024-12345"]); ("categories", TArr [TStr "memory-corruption"]);
                      ("cvss", TStr "CVSS:3.1/AV:N/AC:L/PR:N/UI:N/S:U/C:H/I:N/A:N"); ("url", TStr "https://github.com/a/b/issues/7")]);
   ("affected", TTab [("functions", TTab [("my_crate::read", TArr [TStr "< 0.9.0"])])]);
   ("versions", TTab [("patched", TArr (map TStr patched)); ("unaffected", TArr [TStr "< 0.9.0"])])].
Definition doc_star : ttable :=
  [("advisory", TTab [("id", TStr "RUSTSEC-2024-0001"); ("package", TStr "my-crate"); ("date", TStr "2024-03-09")]);
   ("versions", TTab [("patched", TArr [TStr "*"])])].
Definition times_of : mod_times := match mod_times_new ex_db ex_walk with Ok m => m | _ => mkTimes [] [] end.

(** An advisory can load although its export panics: a date without dashes, a requirement every version meets, a file a
    merge added. *)
Theorem C67_never_panics_refuted :
  (exists a, decode_advisory ext (doc "20240309" ["> 2.1.0"]) = Ok a /\ from_rustsec ext gregorian times_of "a" a = Panic) /\
  (exists a, decode_advisory ext doc_star = Ok a /\ from_rustsec ext gregorian times_of "a" a = Panic) /\
  (exists a, decode_advisory ext (doc "2024-03-09" ["> 2.1.0"]) = Ok a /\ from_rustsec ext gregorian times_of "d" a = Panic /\
     exists o, from_rustsec ext gregorian times_of "a" a = Ok o).
Proof.
  split; [|split]; eexists; (split; [vm_compute; reflexivity|]); [vm_compute; reflexivity|vm_compute; reflexivity|].
  split; [vm_compute; reflexivity|]. eexists. vm_compute. reflexivity.
Qed.
Print Assumptions C67_never_panics_refuted.

Example C67_nonvacuous : exists a o, decode_advisory ext (doc "2024-03-09" [">= 1.2.3, < 2.0.0"; "> 2.1.0"]) = Ok a /\
  reqs_wf (patched (f_versions a) ++ unaffected (f_versions a))%list /\
  no_silent_overflow (x_checks ext) (patched (f_versions a) ++ unaffected (f_versions a))%list /\
  from_rustsec ext gregorian times_of "a" a = Ok o /\
  map (fun r => (or_kind r, url_string (or_url r))) (o_references o) =
    [(RPackage, "https://crates.io/crates/my-crate"); (RAdvisory, "https://rustsec.org/advisories/RUSTSEC-2024-0001.html");
     (RReport, "https://github.com/a/b/issues/7")] /\
  o_modified o = "2024-01-01T11:06:40Z" /\ o_published o = "2024-03-09T12:00:00Z" /\
  map (fun v => osv_verdict (osv_to_json o) "crates.io" "my-crate" v)
    [mkVersion 0 8 9 [] []; mkVersion 0 9 0 [] []; mkVersion 1 2 3 ["rc"; "1"] []; mkVersion 1 2 3 [] []; mkVersion 2 1 0 [] []; mkVersion 2 1 1 ["0"] []]%N
    = [Some false; Some true; Some true; Some false; Some true; Some false].
Proof.
  do 2 eexists. split; [vm_compute; reflexivity|].
  split; [intros r Hr; repeat (destruct Hr as [<-|Hr]; [reflexivity|]); destruct Hr|].
  split.
  { right. intros r c Hr Hc.
    repeat (destruct Hr as [<-|Hr]; [repeat (destruct Hc as [<-|Hc]; [repeat split; intros ? E; inversion E; reflexivity|]); destruct Hc|]).
    destruct Hr. }
  split; [vm_compute; reflexivity|]. repeat split; vm_compute; reflexivity.
Qed.
