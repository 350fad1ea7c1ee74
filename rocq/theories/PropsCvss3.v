(** C39, C40: CVSS v3 scores. *)
From Coq Require Import List NArith ZArith QArith Qround Ascii String Bool Lia Lqa SpecFloat.
From Verif Require Import Base StrLib CvssText CvssSpec CvssTextProofs CvssFloat Cvss3 CvssScoreSpec PropsCvssText.
Import ListNotations.
Local Open Scope string_scope.
Local Open Scope Z_scope.

(** Any implementation of [powf(_, 15.0)] whose result is at most two units in
    the last place from the correctly rounded one. *)
Definition accurate (pow : f64 -> f64) : Prop := forall x, near (pow x) (pow15 x).

(** ** Enumerating vectors *)
Fixpoint product {A} (ls : list (list A)) : list (list A) :=
  match ls with [] => [[]] | l :: r => flat_map (fun x => map (cons x) (product r)) l end.
Lemma product_in {A} (ls : list (list A)) v : In v (product ls) <-> Forall2 (@In A) v ls.
Proof.
  revert v. induction ls as [|l ls IH]; intros v; cbn [product].
  - split; [intros [<-|[]]; constructor|intros H; inversion H; left; reflexivity].
  - rewrite in_flat_map. split.
    + intros (x & I & J). apply in_map_iff in J as (w & <- & J). constructor; [exact I|apply IH; exact J].
    + intros H. inversion H as [|x ? w ? I J]; subst. exists x. split; [exact I|]. apply in_map. apply IH. exact J.
Qed.
Definition choices (sch : schema) : list (list (option string)) := map (fun m => map Some (map fst (snd m))) sch.
Definition choices_opt (sch : schema) : list (list (option string)) := map (fun m => None :: map Some (map fst (snd m))) sch.
Lemma slots_choices sch v : NoDup (names sch) -> List.length v = List.length sch ->
  (forall n x, field sch v n = Some x -> has_value sch n x) -> Forall2 (@In _) v (choices_opt sch).
Proof.
  revert v. induction sch as [|[m toks] sch IH]; intros v ND L LEG; destruct v as [|c v]; try discriminate; [constructor|].
  cbn in ND. inversion_clear ND as [|? ? N1 N2]. cbn in L. cbn [choices_opt map snd]. constructor.
  - destruct c as [x|]; [|left; reflexivity]. right. apply in_map. destruct (LEG m x) as (t & I & J); [cbn [field]; rewrite String.eqb_refl; reflexivity|].
    destruct I as [E|I]; [injection E as <-; exact J|exfalso; apply N1; apply in_map_iff; exists (m, t); auto].
  - apply IH; [exact N2|lia|]. intros n x H. assert (NM : n <> m) by (intros ->; rewrite field_out in H by exact N1; discriminate).
    destruct (LEG n x) as (t & I & J); [cbn [field]; destruct (String.eqb_spec n m); [contradiction|exact H]|].
    destruct I as [E|I]; [congruence|]. exists t. auto.
Qed.
Lemma complete_choices sch v : NoDup (names sch) -> Forall2 (@In _) v (choices_opt sch) -> complete (names sch) (field sch v) -> Forall2 (@In _) v (choices sch).
Proof.
  revert v. induction sch as [|[m toks] sch IH]; intros v ND H K; cbn in H; inversion H as [|c ? w ? I J]; subst; [constructor|].
  cbn in ND. inversion_clear ND as [|? ? N1 N2]. constructor.
  - destruct I as [<-|I]; [|exact I]. exfalso. apply (K m); [left; reflexivity|]. cbn [field]. rewrite String.eqb_refl. reflexivity.
  - apply IH; [exact N2|exact J|]. intros n I' E. apply (K n); [right; exact I'|]. cbn [field]. destruct (String.eqb_spec n m) as [->|]; [contradiction|exact E].
Qed.
Lemma slots3_choices b : vector3 b -> In (slots3 b) (product (choices_opt sch3)).
Proof.
  intros (_ & L & LEG). apply product_in. apply slots_choices; [exact nd3|exact L|]. intros n x H. apply (table_spec sch3 metrics_v3 tab3). exact (LEG n x H).
Qed.
Lemma slots3_complete b : vector3 b -> complete required_v3 (metric3 b) -> In (slots3 b) (product (choices sch3)).
Proof. intros V K. apply product_in. apply complete_choices; [exact nd3|apply product_in; apply slots3_choices; exact V|exact K]. Qed.

(** ** The computation *)
Definition rating_band (r : rating) : band :=
  match r with RNone => BNone | RLow => BLow | RMedium => BMedium | RHigh => BHigh | RCritical => BCritical end.
Definition band_eqb (r b : band) : bool :=
  match r, b with BNone, BNone | BLow, BLow | BMedium, BMedium | BHigh, BHigh | BCritical, BCritical => true | _, _ => false end.
Lemma band_eqb_eq r b : band_eqb r b = true -> r = b.
Proof. destruct r; destruct b; cbn; congruence. Qed.
(** C, I and A are all None (or not given). *)
Definition no_impact (a : assignment) : Prop := forall n, In n ["C"; "I"; "A"] -> a n = Some "N" \/ a n = None.
Definition no_impact_b (a : assignment) : bool :=
  forallb (fun n => match a n with Some x => String.eqb x "N" | None => true end) ["C"; "I"; "A"].
Lemma no_impact_iff a : no_impact_b a = true <-> no_impact a.
Proof.
  unfold no_impact_b, no_impact. rewrite forallb_forall. split; intros H n I; specialize (H n I); destruct (a n) as [x|]; auto.
  - apply String.eqb_eq in H. subst. auto.
  - destruct H as [H|H]; [injection H as ->; reflexivity|discriminate].
Qed.

(** The first five metrics determine the exploitability, the last three the impact. *)
Definition left_part : Type := bool * (f64 * Q).
Definition right_part : Type := (f64 * Q) * bool.
Definition left_of (v : slots) : left_part := (scope_changed3 v, (exploitability3 v, exploitability_v3 (field sch3 v))).
Definition right_of (v : slots) : right_part := ((impact3 v, iss_v3 (field sch3 v)), no_impact_b (field sch3 v)).
Definition left_eqb (x y : left_part) : bool := Bool.eqb (fst x) (fst y) && fq_eqb (snd x) (snd y).
Definition right_eqb (x y : right_part) : bool := fq_eqb (fst x) (fst y) && Bool.eqb (snd x) (snd y).
Lemma left_eqb_eq x y : left_eqb x y = true -> x = y.
Proof. destruct x, y. intros H. apply andb_true_iff in H as [A B]. apply eqb_prop in A. apply fq_eqb_eq in B. cbn in *. congruence. Qed.
Lemma right_eqb_eq x y : right_eqb x y = true -> x = y.
Proof. destruct x, y. intros H. apply andb_true_iff in H as [A B]. apply eqb_prop in B. apply fq_eqb_eq in A. cbn in *. congruence. Qed.
Definition lefts : list left_part :=
  nub left_eqb (map (fun v => left_of (v ++ [None; None; None])%list) (product (firstn 5 (choices_opt sch3)))).
Definition rights : list right_part :=
  nub right_eqb (map (fun v => right_of ([None; None; None; None; None] ++ v)%list) (product (skipn 5 (choices_opt sch3)))).
Lemma parts_in v : In v (product (choices_opt sch3)) -> In (left_of v) lefts /\ In (right_of v) rights.
Proof.
  rewrite product_in. intros H. unfold choices_opt, sch3 in H. cbn [map] in H.
  repeat match goal with H : Forall2 _ ?v (_ :: _) |- _ => let H' := fresh in inversion H as [|? ? ? ? ? H']; subst; clear H end.
  match goal with H : Forall2 _ ?v [] |- _ => inversion H; subst; clear H end.
  split; (apply nub_in; [first [exact left_eqb_eq|exact right_eqb_eq]|]); apply in_map_iff;
  match goal with |- exists x, _ = _ [?a; ?b; ?c; ?d; ?e; ?f; ?g; ?h] /\ In _ (product (?k _ _)) =>
    match k with @firstn _ => exists [a; b; c; d; e] | @skipn _ => exists [f; g; h] end end;
    (split; [reflexivity|]); apply product_in; unfold choices_opt, sch3; cbn [map firstn skipn];
    repeat (apply Forall2_cons; [assumption|]); apply Forall2_nil.
Qed.
(** The impacts that a power within two units can lead to, and the exact one. *)
Definition impacts_of (changed : bool) (r : right_part) : list f64 * Q :=
  let '((i, q), _) := r in
  (if changed then nub sf_eqb (map (fun p => scoped3 (fun _ => p) true i) (candidates (pow15 (fsub i lit_0_02)))) else [scoped3 (fun _ => S754_nan) false i],
   impact_v3 changed q).
Definition check3 (l : left_part) (none : bool) (i : list f64 * Q) : bool :=
  let '(changed, (e, q)) := l in
  let n := roundup_v3 (base_v3 changed (snd i) q) in
  let d := dec n 10 in
  ((0 <=? n) && (n <=? 100) && Bool.eqb (n =? 0) none &&
   forallb (fun s => let x := combine3 changed e s in (feq x d && band_eqb (rating_band (rating3 x)) (band_of n))%bool) (fst i))%bool.
Lemma check3_all :
  (fun ls => forallb (fun r =>
    (fun u c => forallb (fun l => check3 l (snd r) (if fst l : bool then c else u)) ls) (impacts_of false r) (impacts_of true r)) rights) lefts = true.
Proof. vm_cast_no_check (eq_refl true). Qed.
Lemma which_impacts (changed : bool) r : (if changed then impacts_of true r else impacts_of false r) = impacts_of changed r.
Proof. destruct changed; reflexivity. Qed.
Lemma impacts_in pow changed r : accurate pow -> In (scoped3 pow changed (fst (fst r))) (fst (impacts_of changed r)).
Proof.
  intros A. destruct r as [[i q] n]. destruct changed; cbn [impacts_of fst]; [|left; reflexivity].
  apply nub_in; [exact sf_eqb_eq|]. apply in_map_iff. exists (pow (fsub i lit_0_02)). split; [reflexivity|]. apply near_candidates. apply A.
Qed.

(** ** C39 *)
Lemma same_scope v : scope_changed3 v = changed_v3 (field sch3 v).
Proof. reflexivity. Qed.
Lemma checked pow b : accurate pow -> vector3 b ->
  let n := score_v3 (metric3 b) in let x := score3 pow (slots3 b) in
  0 <= n <= 100 /\ (n = 0 <-> no_impact (metric3 b)) /\ tenths n x /\ rating_band (rating3 x) = band_of n.
Proof.
  intros ACC V. destruct (parts_in _ (slots3_choices b V)) as [L R]. pose proof check3_all as T. cbv beta in T.
  rewrite forallb_forall in T. specialize (T _ R). rewrite forallb_forall in T. specialize (T _ L). cbn [left_of fst] in T.
  rewrite which_impacts in T.
  pose proof (impacts_in pow (scope_changed3 (slots3 b)) (right_of (slots3 b)) ACC) as I.
  assert (E : score_v3 (metric3 b) = roundup_v3 (base_v3 (scope_changed3 (slots3 b)) (snd (impacts_of (scope_changed3 (slots3 b)) (right_of (slots3 b)))) (exploitability_v3 (field sch3 (slots3 b))))) by reflexivity.
  cbv zeta. rewrite E. clear E. unfold score3. change (impact3 (slots3 b)) with (fst (fst (right_of (slots3 b)))).
  change (metric3 b) with (field sch3 (slots3 b)).
  unfold check3, left_of in T. cbv zeta in T. change (snd (right_of (slots3 b))) with (no_impact_b (field sch3 (slots3 b))) in T.
  set (n := roundup_v3 _) in *. clearbody n. set (s := scoped3 _ _ _) in *. clearbody s.
  apply andb_true_iff in T as [T T4]. apply andb_true_iff in T as [T T3]. apply andb_true_iff in T as [T1 T2].
  apply eqb_prop in T3. rewrite forallb_forall in T4. specialize (T4 _ I). cbv zeta in T4. apply andb_true_iff in T4 as [T4 T5].
  repeat apply conj.
  - apply Z.leb_le. exact T1.
  - apply Z.leb_le. exact T2.
  - intros E. apply no_impact_iff. rewrite <- T3. apply Z.eqb_eq. exact E.
  - intros E. apply no_impact_iff in E. apply Z.eqb_eq. rewrite T3. exact E.
  - exact T4.
  - apply band_eqb_eq. exact T5.
Qed.

(** The score equals the published formula computed in exact arithmetic and
    rounded up to tenths, for every vector (missing metrics weighing nothing). *)
Theorem C39_score pow b : accurate pow -> vector3 b -> tenths (score_v3 (metric3 b)) (score3 pow (slots3 b)).
Proof. intros A V. apply (checked pow b A V). Qed.
Theorem C39_range pow b : accurate pow -> vector3 b -> exists n, 0 <= n <= 100 /\ tenths n (score3 pow (slots3 b)).
Proof. intros A V. exists (score_v3 (metric3 b)). destruct (checked pow b A V) as (R & _ & T & _). auto. Qed.
Theorem C39_zero_iff_no_impact pow b : accurate pow -> vector3 b -> (tenths 0 (score3 pow (slots3 b)) <-> no_impact (metric3 b)).
Proof.
  intros A V. destruct (checked pow b A V) as (R & Z0 & T & _). rewrite <- Z0. split.
  - intros H. apply (tenths_unique _ 0 _ R ltac:(lia) T H).
  - intros <-. exact T.
Qed.
Theorem C39_severity pow b n : accurate pow -> vector3 b -> 0 <= n <= 100 -> tenths n (score3 pow (slots3 b)) ->
  rating_band (rating3 (score3 pow (slots3 b))) = band_of n.
Proof.
  intros A V N H. destruct (checked pow b A V) as (R & _ & T & B). rewrite (tenths_unique _ _ _ N R H T). exact B.
Qed.
(** The same for every accepted text. *)
Theorem C39_parsed pow s b : accurate pow -> parse3 s = Ok b -> tenths (score_v3 (metric3 b)) (score3 pow (slots3 b)).
Proof. intros A P. apply C39_score; [exact A|]. apply (C38_stable s b P). Qed.

(** ** C40 *)
(** Tables indexed by lists of choices. *)
Fixpoint table (n : nat) : Type := match n with O => Q | S n => list (table n) end.
Fixpoint build {A} (ls : list (list A)) : (list A -> Q) -> table (List.length ls) :=
  match ls with [] => fun f => f [] | l :: r => fun f => map (fun x => build r (fun v => f (x :: v))) l end.
Fixpoint all2 {A} (f : A -> A -> bool) (a b : list A) : bool :=
  match a, b with [], [] => true | x :: a, y :: b => f x y && all2 f a b | _, _ => false end.
Fixpoint below (n : nat) : table n -> table n -> bool := match n with O => Qle_bool | S n => all2 (below n) end.
Fixpoint ascending {A} (f : A -> A -> bool) (l : list A) : bool := match l with [] => true | x :: r => forallb (f x) r && ascending f r end.
Fixpoint mono (n : nat) : table n -> bool :=
  match n with O => fun _ => true | S n => fun l => ascending (below n) l && forallb (mono n) l end.
Lemma all2_map {A B} (f : B -> B -> bool) (g h : A -> B) l : all2 f (map g l) (map h l) = true -> forall x, In x l -> f (g x) (h x) = true.
Proof.
  induction l as [|y l IH]; cbn; [tauto|]. intros H x I. apply andb_true_iff in H as [H1 H2]. destruct I as [->|I]; [exact H1|apply IH; assumption].
Qed.
Lemma below_build {A} (ls : list (list A)) f g v : below _ (build ls f) (build ls g) = true -> Forall2 (@In A) v ls -> (f v <= g v)%Q.
Proof.
  revert f g v. induction ls as [|l ls IH]; intros f g v H F; inversion F as [|x ? w ? I J]; subst.
  - apply Qle_bool_iff. exact H.
  - cbn in H. specialize (all2_map _ _ _ _ H x I). intros K. apply (IH (fun v => f (x :: v)) (fun v => g (x :: v)) w K J).
Qed.
Lemma ascending_map {A B} (f : B -> B -> bool) (g : A -> B) l x r y : ascending f (map g (l ++ x :: r)%list) = true -> In y r -> f (g x) (g y) = true.
Proof.
  induction l as [|z l IH]; cbn; intros H I; apply andb_true_iff in H as [H1 H2].
  - rewrite forallb_forall in H1. apply H1. apply in_map. exact I.
  - apply IH; assumption.
Qed.
Lemma mono_build (ls : list (list string)) f v w : mono _ (build ls f) = true ->
  Forall2 (fun p l => no_less_severe l (fst p) (snd p)) (combine v w) ls -> List.length v = List.length w -> (f v <= f w)%Q.
Proof.
  revert f v w. induction ls as [|l ls IH]; intros f v w H F L; destruct v as [|x v]; destruct w as [|y w]; try discriminate; cbn [combine] in F;
    inversion F as [|? ? ? ? NL F']; subst; [apply Qle_refl|].
  cbn in H. apply andb_true_iff in H as [H1 H2]. rewrite forallb_forall in H2. cbn [fst snd] in NL. destruct NL as (a & r & E & I). injection L as L.
  assert (IX : In x l) by (rewrite E; apply in_app_iff; right; left; reflexivity).
  apply Qle_trans with (f (x :: w)).
  - apply (IH (fun u => f (x :: u)) v w); [|exact F'|exact L]. apply H2. apply in_map_iff. exists x. auto.
  - destruct I as [->|I]; [apply Qle_refl|]. rewrite E in H1. pose proof (ascending_map _ _ _ _ _ _ H1 I) as K.
    apply (below_build ls (fun u => f (x :: u)) (fun u => f (y :: u)) w K).
    clear -F' L. revert v w F' L. induction ls as [|l ls IH]; intros v w F L; destruct v as [|x v], w as [|y w]; try discriminate; cbn in F; inversion F as [|? ? ? ? NL F']; subst; constructor.
    + destruct NL as (a & r & E & I). cbn in I. rewrite E. apply in_app_iff. right. exact I.
    + apply (IH v w F'). cbn in L. lia.
Qed.
(** The scope and the first four metrics for the exploitability, the scope and
    the last three for the impact. *)
Definition expl_of (v : list string) : Q :=
  match v with [s; av; ac; pr; ui] => exploitability_v3 (field sch3 (map Some [av; ac; pr; ui; s; "N"; "N"; "N"])) | _ => 0%Q end.
Definition impact_of (v : list string) : Q :=
  match v with [s; c; i; a] => let x := field sch3 (map Some ["N"; "L"; "N"; "N"; s; c; i; a]) in impact_v3 (changed_v3 x) (iss_v3 x) | _ => 0%Q end.
Definition choice_orders (names : list string) : list (list string) :=
  map (fun n => match find (fun p => String.eqb (fst p) n) severity_order_v3 with Some p => snd p | None => [] end) names.
Lemma expl_mono : mono _ (build (choice_orders ["S"; "AV"; "AC"; "PR"; "UI"]) expl_of) = true.
Proof. vm_cast_no_check (eq_refl true). Qed.
(** With no impact at all the changed scope has a negative sub-score; only the
    sign matters then. *)
Definition positive_part (x : Q) : Q := if Qle_bool x 0 then 0%Q else x.
Lemma impact_mono : mono _ (build (choice_orders ["S"; "C"; "I"; "A"]) (fun v => positive_part (impact_of v))) = true.
Proof. vm_cast_no_check (eq_refl true). Qed.
Lemma expl_nonneg : forallb (fun v => Qle_bool 0 (expl_of v)) (product (choice_orders ["S"; "AV"; "AC"; "PR"; "UI"])) = true.
Proof. vm_cast_no_check (eq_refl true). Qed.
Lemma base_positive ch i e : base_v3 ch i e = base_v3 ch (positive_part i) e.
Proof.
  unfold base_v3, positive_part. destruct (Qle_bool i 0) eqn:E; [reflexivity|]. rewrite E. reflexivity.
Qed.
Lemma base_monotone ch ch' i i' e e' : (ch = true -> ch' = true) -> (0 <= i)%Q -> (i <= i')%Q -> (0 <= e)%Q -> (e <= e')%Q -> (base_v3 ch i e <= base_v3 ch' i' e')%Q.
Proof.
  intros C I0 I E0 E. unfold base_v3.
  destruct (Qle_bool i 0) eqn:P.
  - destruct (Qle_bool i' 0); [apply Qle_refl|]. destruct ch'; apply Qminmax.Q.min_glb; try discriminate; lra.
  - destruct (Qle_bool i' 0) eqn:P'.
    + exfalso. apply Qle_bool_iff in P'. assert (i <= 0)%Q as Q0 by lra. apply Qle_bool_iff in Q0. congruence.
    + destruct ch, ch'; try (discriminate (C eq_refl)); apply Qminmax.Q.min_glb; try apply Qminmax.Q.le_min_r;
        (eapply Qle_trans; [apply Qminmax.Q.le_min_l|]); lra.
Qed.
Lemma roundup_monotone x y : (x <= y)%Q -> roundup_v3 x <= roundup_v3 y.
Proof. intros H. apply Qceiling_resp_le. lra. Qed.
Lemma slots3_values b : vector3 b -> complete required_v3 (metric3 b) -> exists v, slots3 b = map Some v /\ List.length v = 8%nat.
Proof.
  intros V K. pose proof (proj1 (product_in _ _) (slots3_complete b V K)) as F. unfold choices in F. destruct V as (_ & L & _).
  change (List.length metrics_v3) with 8%nat in L. clear K. revert L F. generalize (slots3 b) as w. generalize 8%nat as n. generalize sch3 as sch.
  induction sch as [|m sch IH]; intros n w L F; cbn in F; inversion F as [|x ? u ? I J]; subst.
  - exists []. auto.
  - destruct (IH _ u eq_refl J) as (v & -> & E). apply in_map_iff in I as (y & <- & _). exists (y :: v). cbn. rewrite map_length, E. auto.
Qed.
Lemma formula_monotone b b' : vector3 b -> vector3 b' -> complete required_v3 (metric3 b) -> complete required_v3 (metric3 b') ->
  at_least_as_severe severity_order_v3 (metric3 b) (metric3 b') -> score_v3 (metric3 b) <= score_v3 (metric3 b').
Proof.
  intros V V' K K' S. unfold metric3 in *. destruct (slots3_values b V K) as (v & E & L). destruct (slots3_values b' V' K') as (v' & E' & L').
  rewrite E, E' in *. clear E E' K K' V V'.
  do 8 (destruct v as [|? v]; [discriminate|]). do 8 (destruct v' as [|? v']; [discriminate|]). destruct v; [|discriminate]. destruct v'; [|discriminate].
  clear L L'. rename s into av, s0 into ac, s1 into pr, s2 into ui, s3 into sc, s4 into c, s5 into i, s6 into a,
    s7 into av', s8 into ac', s9 into pr', s10 into ui', s11 into sc', s12 into c', s13 into i', s14 into a'.
  assert (ORD : forall name order x y, In (name, order) severity_order_v3 ->
    field sch3 (map Some [av; ac; pr; ui; sc; c; i; a]) name = Some x -> field sch3 (map Some [av'; ac'; pr'; ui'; sc'; c'; i'; a']) name = Some y ->
    no_less_severe order x y) by exact S. clear S.
  assert (XE : (expl_of [sc; av; ac; pr; ui] <= expl_of [sc'; av'; ac'; pr'; ui'])%Q).
  { apply (mono_build _ _ _ _ expl_mono); [|reflexivity]. unfold choice_orders, severity_order_v3. cbn [combine map find fst snd String.eqb Ascii.eqb Bool.eqb].
    repeat (apply Forall2_cons; [cbn [fst snd]|]); try apply Forall2_nil;
      [apply (ORD "S")|apply (ORD "AV")|apply (ORD "AC")|apply (ORD "PR")|apply (ORD "UI")]; first [reflexivity|unfold severity_order_v3; cbn; tauto]. }
  assert (XI : (positive_part (impact_of [sc; c; i; a]) <= positive_part (impact_of [sc'; c'; i'; a']))%Q).
  { apply (mono_build _ (fun v => positive_part (impact_of v)) [sc; c; i; a] [sc'; c'; i'; a'] impact_mono); [|reflexivity].
    unfold choice_orders, severity_order_v3. cbn [combine map find fst snd String.eqb Ascii.eqb Bool.eqb].
    repeat (apply Forall2_cons; [cbn [fst snd]|]); try apply Forall2_nil;
      [apply (ORD "S")|apply (ORD "C")|apply (ORD "I")|apply (ORD "A")]; first [reflexivity|unfold severity_order_v3; cbn; tauto]. }
  assert (XN : (0 <= expl_of [sc; av; ac; pr; ui])%Q).
  { apply Qle_bool_iff. pose proof expl_nonneg as T. rewrite forallb_forall in T. apply T. apply product_in.
    unfold choice_orders, severity_order_v3. cbn [map find fst snd String.eqb Ascii.eqb Bool.eqb].
    assert (IN : forall order x y, no_less_severe order x y -> In x order) by (intros o x y (l & r & -> & _); apply in_app_iff; right; left; reflexivity).
    repeat (apply Forall2_cons; [|]); try apply Forall2_nil; eapply IN;
      [apply (ORD "S")|apply (ORD "AV")|apply (ORD "AC")|apply (ORD "PR")|apply (ORD "UI")]; first [reflexivity|unfold severity_order_v3; cbn; tauto]. }
  assert (XS : String.eqb sc "C" = true -> String.eqb sc' "C" = true).
  { intros H. apply String.eqb_eq in H. destruct (ORD "S" ["U"; "C"] sc sc') as (l & r & E & I); [unfold severity_order_v3; cbn; tauto|reflexivity|reflexivity|].
    subst sc. destruct l as [|? [|? [|]]]; cbn in E; try discriminate. injection E as <- <-. destruct I as [<-|[]]. reflexivity. }
  apply roundup_monotone. fold (metric3 b).
  change (base_v3 (String.eqb sc "C") (impact_of [sc; c; i; a]) (expl_of [sc; av; ac; pr; ui])
          <= base_v3 (String.eqb sc' "C") (impact_of [sc'; c'; i'; a']) (expl_of [sc'; av'; ac'; pr'; ui']))%Q.
  rewrite base_positive, (base_positive (String.eqb sc' "C")). apply base_monotone; try assumption.
  unfold positive_part. destruct (Qle_bool _ 0) eqn:P; [apply Qle_refl|]. apply Qnot_lt_le. intros Q0. apply Qlt_le_weak in Q0. apply Qle_bool_iff in Q0. congruence.
Qed.
(** Making metrics more severe never lowers the score. *)
Theorem C40_monotone pow b b' : accurate pow -> vector3 b -> vector3 b' ->
  complete required_v3 (metric3 b) -> complete required_v3 (metric3 b') ->
  at_least_as_severe severity_order_v3 (metric3 b) (metric3 b') -> fle (score3 pow (slots3 b)) (score3 pow (slots3 b')) = true.
Proof.
  intros A V V' K K' S. destruct (checked pow b A V) as (R & _ & T & _). destruct (checked pow b' A V') as (R' & _ & T' & _).
  apply (tenths_le _ _ _ _ R R' T T'). apply formula_monotone; assumption.
Qed.

(** A single step: one metric raised, the rest unchanged. *)
Theorem C40_one_metric pow b b' name order l x m y r : accurate pow -> vector3 b -> vector3 b' ->
  complete required_v3 (metric3 b) -> (forall n, n <> name -> metric3 b' n = metric3 b n) ->
  In (name, order) severity_order_v3 -> order = (l ++ x :: m ++ y :: r)%list -> metric3 b name = Some x -> metric3 b' name = Some y ->
  fle (score3 pow (slots3 b)) (score3 pow (slots3 b')) = true.
Proof.
  intros A V V' K SAME IN EQ X Y. apply C40_monotone; try assumption.
  - intros n I. destruct (string_dec n name) as [->|N]; [congruence|rewrite SAME by exact N; apply K; exact I].
  - intros n o u w I U W. destruct (string_dec n name) as [->|N].
    + assert (o = order) as -> by (clear -I IN; unfold severity_order_v3 in *; cbn in I, IN;
        repeat (destruct I as [I|I]; [|]); try contradiction; injection I as <- <-; intuition congruence).
      exists l, (m ++ y :: r)%list. split; [congruence|]. right. apply in_app_iff. right. left. congruence.
    + rewrite SAME in W by exact N. assert (u = w) as <- by congruence.
      assert (J : In u o).
      { destruct V as (_ & _ & LG). destruct (LG n u U) as (t & I1 & I2). clear -I I1 I2. unfold severity_order_v3 in I. cbn in I, I1.
        repeat (destruct I as [I|I]; [injection I as <- <-; repeat (destruct I1 as [I1|I1]; [first [discriminate I1|injection I1 as <-]|]); try contradiction; cbn in I2 |- *; tauto|]). contradiction. }
      apply in_split in J as (a & c & ->). exists a, c. split; [reflexivity|left; reflexivity].
Qed.

(** ** Concrete cases *)
Definition log4j : base3 := mk3 1 (map Some ["N"; "L"; "N"; "N"; "C"; "H"; "H"; "H"]).
Definition xss : base3 := mk3 1 (map Some ["N"; "L"; "N"; "R"; "C"; "L"; "L"; "N"]).
Example accurate_possible : accurate pow15.
Proof. intros x. left. reflexivity. Qed.
Example log4j_score : parse3 "CVSS:3.1/AV:N/AC:L/PR:N/UI:N/S:C/C:H/I:H/A:H" = Ok log4j /\ score_v3 (metric3 log4j) = 100 /\ feq (score3 pow15 (slots3 log4j)) (fint 10) = true /\ rating3 (score3 pow15 (slots3 log4j)) = RCritical.
Proof. repeat apply conj; vm_compute; reflexivity. Qed.
Example xss_score : parse3 "CVSS:3.1/AV:N/AC:L/PR:N/UI:R/S:C/C:L/I:L/A:N" = Ok xss /\ score_v3 (metric3 xss) = 61 /\ feq (score3 pow15 (slots3 xss)) (dec 61 10) = true /\ rating3 (score3 pow15 (slots3 xss)) = RMedium.
Proof. repeat apply conj; vm_compute; reflexivity. Qed.
Example ordered : complete required_v3 (metric3 xss) /\ complete required_v3 (metric3 log4j) /\ at_least_as_severe severity_order_v3 (metric3 xss) (metric3 log4j).
Proof.
  repeat apply conj.
  - intros n I E. cbn in I. repeat (destruct I as [<-|I]; [discriminate E|]). contradiction.
  - intros n I E. cbn in I. repeat (destruct I as [<-|I]; [discriminate E|]). contradiction.
  - intros n o x y I X Y. cbn in I.
    repeat (destruct I as [I|I]; [injection I as <- <-; injection X as <-; injection Y as <-|]); try contradiction.
    + exists ["P"; "L"; "A"], []. cbn. auto.
    + exists ["H"], []. cbn. auto.
    + exists ["H"; "L"], []. cbn. auto.
    + exists [], ["N"]. cbn. auto.
    + exists ["U"], []. cbn. auto.
    + exists ["N"], ["H"]. cbn. auto.
    + exists ["N"], ["H"]. cbn. auto.
    + exists [], ["L"; "H"]. cbn. auto.
Qed.
