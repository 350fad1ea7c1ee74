(** C42: CVSS v2 scores. *)
From Coq Require Import List NArith ZArith QArith Qround Ascii String Bool Lia SpecFloat.
From Verif Require Import Base StrLib CvssText CvssSpec CvssTextProofs CvssFloat Cvss3 Cvss2 CvssScoreSpec PropsCvssText PropsCvss3.
Import ListNotations.
Local Open Scope string_scope.
Local Open Scope Z_scope.

(** ** Weights in floating point and exactly *)
Definition weight (w : list (string * Q)) (d : Q) (o : option string) : Q :=
  match o with Some x => match find (fun p => String.eqb (fst p) x) w with Some p => snd p | None => d end | None => d end.
Lemma weigh_weight a n w d : weigh a n w d = weight w d (a n).
Proof. reflexivity. Qed.
Definition wp (d : f64) (f : string -> f64) (dq : Q) (w : list (string * Q)) (o : option string) : f64 * Q := (score_or d f o, weight w dq o).
Definition values_of (n : string) : list (option string) :=
  None :: flat_map (fun m => if String.eqb (fst m) n then map Some (snd m) else []) metrics_v2.
Lemma value_in v n : vector2 v -> In (metric2 v n) (values_of n).
Proof.
  intros [_ L]. unfold values_of. destruct (metric2 v n) as [x|] eqn:E; [right|left; reflexivity].
  destruct (L n x E) as (t & I & J). apply in_flat_map. exists (n, t). split; [exact I|]. cbn. rewrite String.eqb_refl. apply in_map. exact J.
Qed.
Definition table (f : option string -> f64 * Q) (n : string) : list (f64 * Q) := nub fq_eqb (map f (values_of n)).
Lemma table_in v d f dq w n : vector2 v -> In (score_or d f (metric2 v n), weigh (metric2 v) n w dq) (table (wp d f dq w) n).
Proof. intros V. apply nub_in; [exact fq_eqb_eq|]. apply (in_map (wp d f dq w)). apply value_in. exact V. Qed.
Definition lift2 (f : f64 -> f64 -> f64) (g : Q -> Q -> Q) (a b : list (f64 * Q)) : list (f64 * Q) :=
  nub fq_eqb (flat_map (fun x => map (fun y => (f (fst x) (fst y), g (snd x) (snd y))) b) a).
Lemma lift2_in f g a b x y p q : In (x, p) a -> In (y, q) b -> In (f x y, g p q) (lift2 f g a b).
Proof.
  intros I J. apply nub_in; [exact fq_eqb_eq|]. apply in_flat_map. exists (x, p). split; [exact I|]. apply in_map_iff. exists (y, q). auto.
Qed.
Definition lift3 (f : f64 -> f64 -> f64 -> f64) (g : Q -> Q -> Q -> Q) (a b c : list (f64 * Q)) : list (f64 * Q) :=
  nub fq_eqb (flat_map (fun x => flat_map (fun y => map (fun z => (f (fst x) (fst y) (fst z), g (snd x) (snd y) (snd z))) c) b) a).
Lemma lift3_in f g a b c x y z p q r : In (x, p) a -> In (y, q) b -> In (z, r) c -> In (f x y z, g p q r) (lift3 f g a b c).
Proof.
  intros I J K. apply nub_in; [exact fq_eqb_eq|]. apply in_flat_map. exists (x, p). split; [exact I|]. apply in_flat_map. exists (y, q).
  split; [exact J|]. apply in_map_iff. exists (z, r). auto.
Qed.

(** ** The tables *)
Definition p_av := wp lit_0 av2 0 [("L", 0.395); ("A", 0.646); ("N", 1.0)]%Q.
Definition p_ac := wp lit_0 ac2 0 [("H", 0.35); ("M", 0.61); ("L", 0.71)]%Q.
Definition p_au := wp lit_0 au2 0 [("M", 0.45); ("S", 0.56); ("N", 0.704)]%Q.
Definition p_cia := wp lit_0 cia2 0 cia_v2.
Definition p_req := wp lit_1 req2 1 req_v2.
Definition p_e := wp lit_1 e2 1 [("U", 0.85); ("POC", 0.9); ("F", 0.95); ("H", 1.0); ("ND", 1.0)]%Q.
Definition p_rl := wp lit_1 rl2 1 [("OF", 0.87); ("TF", 0.90); ("W", 0.95); ("U", 1.0); ("ND", 1.0)]%Q.
Definition p_rc := wp lit_1 rc2 1 [("UC", 0.90); ("UR", 0.95); ("C", 1.0); ("ND", 1.0)]%Q.
Definition p_cdp := wp lit_0 cdp2 0 [("N", 0); ("L", 0.1); ("LM", 0.3); ("MH", 0.4); ("H", 0.5); ("ND", 0)]%Q.
Definition p_td := wp lit_1 td2 1 [("N", 0); ("L", 0.25); ("M", 0.75); ("H", 1.0); ("ND", 1.0)]%Q.
Definition q_expl (av ac au : Q) : Q := (20 * av * ac * au)%Q.
Definition q_impact (c i a : Q) : Q := (10.41 * (1 - (1 - c) * (1 - i) * (1 - a)))%Q.
Definition q_adjusted (c i a : Q) : Q := Qminmax.Qmin 10 (10.41 * (1 - (1 - c) * (1 - i) * (1 - a)))%Q.
Definition expls : list (f64 * Q) := lift3 exploitability_of2 q_expl (table p_av "AV") (table p_ac "AC") (table p_au "Au").
Definition impacts : list (f64 * Q) := lift3 impact_of2 q_impact (table p_cia "C") (table p_cia "I") (table p_cia "A").
Definition products (n m : string) : list (f64 * Q) := lift2 fmul Qmult (table p_cia n) (table p_req m).
Definition adjusteds : list (f64 * Q) := lift3 adjusted_of2 q_adjusted (products "C" "CR") (products "I" "IR") (products "A" "AR").

(** ** Rounded values *)
Definition exactly (n : Z) (x : f64) : Prop := x = dec n 10 \/ (n = 0 /\ x = S754_zero true).
Definition rounds (n : Z) (r : f64) : bool := sf_eqb r (fint n) || ((n =? 0) && sf_eqb r (S754_zero true)).
Definition scaled (y : f64) : f64 := fround (fmul (fadd y lit_1e_6) lit_10).
Lemma roundup2_scaled y : roundup2 y = fdiv (scaled y) lit_10. Proof. reflexivity. Qed.
Lemma rounds_exactly n y : rounds n (scaled y) = true -> exactly n (roundup2 y).
Proof.
  rewrite roundup2_scaled. generalize (scaled y). intros r H. apply orb_true_iff in H as [H|H].
  - apply sf_eqb_eq in H as ->. left. reflexivity.
  - apply andb_true_iff in H as [A B]. apply Z.eqb_eq in A. apply sf_eqb_eq in B as ->. right. split; [exact A|reflexivity].
Qed.
Definition lowest : Z := -8.
Definition in_range (n : Z) : bool := (lowest <=? n) && (n <=? 100).
Definition inputs : list (Z * Q * f64) :=
  (0, tenths_of 0, S754_zero true) :: map (fun k => let n := k + lowest in (n, tenths_of n, dec n 10)) (range 109).
Lemma inputs_in n x : in_range n = true -> exactly n x -> In (n, tenths_of n, x) inputs.
Proof.
  intros R [-> | [-> ->]]; [right|left; reflexivity]. apply andb_true_iff in R as [A B]. apply Z.leb_le in A, B.
  apply in_map_iff. exists (n - lowest). unfold lowest in *. split; [cbv zeta; replace (n - -8 + -8) with n by lia; reflexivity|apply range_in; lia].
Qed.

(** ** Stage 1: the base score *)
Definition unrounded_base (e i : f64) : f64 :=
  fmul (fsub (fadd (fmul lit_0_6 i) (fmul lit_0_4 e)) lit_1_5) (if feq i lit_0 then lit_0 else lit_1_176).
Definition check_base (i e : f64 * Q) : bool :=
  let n := base_v2 (snd i) (snd e) in in_range n && rounds n (scaled (unrounded_base (fst e) (fst i))).
Lemma check_base_all : forallb (fun i => forallb (check_base i) expls) (nub fq_eqb (impacts ++ adjusteds)) = true.
Proof. vm_cast_no_check (eq_refl true). Qed.
Lemma base_ok i e p q : In (i, p) (impacts ++ adjusteds) -> In (e, q) expls ->
  in_range (base_v2 p q) = true /\ exactly (base_v2 p q) (base_of2 e i).
Proof.
  intros I J. apply (nub_in fq_eqb) in I; [|exact fq_eqb_eq]. pose proof check_base_all as T. rewrite forallb_forall in T. specialize (T _ I).
  rewrite forallb_forall in T. specialize (T _ J). unfold check_base in T. cbn [fst snd] in T. apply andb_true_iff in T as [A B].
  split; [exact A|]. apply rounds_exactly. exact B.
Qed.

(** ** Stage 2: the temporal score *)
Definition es := table p_e "E".
Definition rls := table p_rl "RL".
Definition rcs := table p_rc "RC".
Definition check_temporal (b : Z * Q * f64) : bool :=
  let '(_, q, x) := b in
  forallb (fun e => let q := (q * snd e)%Q in let x := fmul x (fst e) in
    forallb (fun rl => let q := (q * snd rl)%Q in let x := fmul x (fst rl) in
      forallb (fun rc => let n := round_v2 (q * snd rc)%Q in in_range n && rounds n (scaled (fmul x (fst rc)))) rcs) rls) es.
Lemma check_temporal_all : forallb check_temporal inputs = true.
Proof. vm_cast_no_check (eq_refl true). Qed.
Lemma temporal_ok n x e rl rc p q r : in_range n = true -> exactly n x -> In (e, p) es -> In (rl, q) rls -> In (rc, r) rcs ->
  let m := round_v2 (tenths_of n * p * q * r)%Q in in_range m = true /\ exactly m (temporal_of2 x e rl rc).
Proof.
  intros R X E RL RC. cbv zeta. pose proof check_temporal_all as T. rewrite forallb_forall in T. specialize (T _ (inputs_in n x R X)).
  unfold check_temporal in T. rewrite forallb_forall in T. specialize (T _ E). cbv zeta in T. rewrite forallb_forall in T. specialize (T _ RL).
  rewrite forallb_forall in T. specialize (T _ RC). cbn [fst snd] in T. apply andb_true_iff in T as [A B].
  split; [exact A|]. apply rounds_exactly. exact B.
Qed.

(** ** Stage 3: the environmental score *)
Definition cdps := table p_cdp "CDP".
Definition tds := table p_td "TD".
Definition check_environmental (b : Z * Q * f64) : bool :=
  let '(_, q, x) := b in
  forallb (fun c => let q := (q + (10 - q) * snd c)%Q in let x := fadd x (fmul (fsub lit_10 x) (fst c)) in
    forallb (fun t => let n := round_v2 (q * snd t)%Q in in_range n && rounds n (scaled (fmul x (fst t)))) tds) cdps.
Lemma check_environmental_all : forallb check_environmental inputs = true.
Proof. vm_cast_no_check (eq_refl true). Qed.
Lemma environmental_ok n x c t p q : in_range n = true -> exactly n x -> In (c, p) cdps -> In (t, q) tds ->
  let m := round_v2 ((tenths_of n + (10 - tenths_of n) * p) * q)%Q in in_range m = true /\ exactly m (environmental_of2 x c t).
Proof.
  intros R X C D. cbv zeta. pose proof check_environmental_all as T. rewrite forallb_forall in T. specialize (T _ (inputs_in n x R X)).
  unfold check_environmental in T. rewrite forallb_forall in T. specialize (T _ C). cbv zeta in T. rewrite forallb_forall in T. specialize (T _ D).
  cbn [fst snd] in T. apply andb_true_iff in T as [A B]. split; [exact A|]. apply rounds_exactly. exact B.
Qed.

(** ** Negative results *)
Definition check_max (b : Z * Q * f64) : bool :=
  let '(n, _, x) := b in
  let y := fmax x lit_0 in let m := Z.max 0 n in
  feq y (dec m 10) && band_eqb (rating_band (rating2 y)) (band_v2 m).
Lemma check_max_all : forallb check_max inputs = true.
Proof. vm_cast_no_check (eq_refl true). Qed.
Lemma max_ok n x : in_range n = true -> exactly n x ->
  let y := fmax x lit_0 in let m := Z.max 0 n in 0 <= m <= 100 /\ tenths m y /\ rating_band (rating2 y) = band_v2 m.
Proof.
  intros R X. cbv zeta. pose proof check_max_all as T. rewrite forallb_forall in T. specialize (T _ (inputs_in n x R X)).
  unfold check_max in T. cbv zeta in T. apply andb_true_iff in T as [A B].
  apply andb_true_iff in R as [R1 R2]. apply Z.leb_le in R1, R2. split; [lia|]. split; [exact A|apply band_eqb_eq; exact B].
Qed.

(** ** Vectors *)
Lemma expl_in v : vector2 v -> In (exploitability2 v, exploitability_v2 (metric2 v)) expls.
Proof.
  intros V.
  exact (lift3_in exploitability_of2 q_expl _ _ _ _ _ _ _ _ _ (table_in v _ _ _ _ "AV" V) (table_in v _ _ _ _ "AC" V) (table_in v _ _ _ _ "Au" V)).
Qed.
Lemma impact_in v : vector2 v -> In (impact2 v, impact_v2 (metric2 v)) impacts.
Proof.
  intros V.
  exact (lift3_in impact_of2 q_impact _ _ _ _ _ _ _ _ _
    (table_in v lit_0 cia2 0 cia_v2 "C" V) (table_in v lit_0 cia2 0 cia_v2 "I" V) (table_in v lit_0 cia2 0 cia_v2 "A" V)).
Qed.
Lemma product_in2 v n m : vector2 v ->
  In (fmul (score_or lit_0 cia2 (metric2 v n)) (score_or lit_1 req2 (metric2 v m)), (weigh (metric2 v) n cia_v2 0 * weigh (metric2 v) m req_v2 1)%Q) (products n m).
Proof. intros V. exact (lift2_in fmul Qmult _ _ _ _ _ _ (table_in v lit_0 cia2 0 cia_v2 n V) (table_in v lit_1 req2 1 req_v2 m V)). Qed.
Lemma adjusted_in v : vector2 v -> In (adjusted_impact2 v, adjusted_impact_v2 (metric2 v)) adjusteds.
Proof.
  intros V. exact (lift3_in adjusted_of2 q_adjusted _ _ _ _ _ _ _ _ _ (product_in2 v "C" "CR" V) (product_in2 v "I" "IR" V) (product_in2 v "A" "AR" V)).
Qed.
Lemma temporal_in v i p : vector2 v -> In (i, p) (impacts ++ adjusteds) ->
  let m := temporal_v2 (metric2 v) (base_v2 p (exploitability_v2 (metric2 v))) in in_range m = true /\ exactly m (temporal_internal2 v i).
Proof.
  intros V I. destruct (base_ok _ _ _ _ I (expl_in v V)) as [R X].
  exact (temporal_ok _ _ _ _ _ _ _ _ R X (table_in v _ _ _ _ "E" V) (table_in v _ _ _ _ "RL" V) (table_in v _ _ _ _ "RC" V)).
Qed.
Lemma all_scores v : vector2 v ->
  (let m := base_score_v2 (metric2 v) in let y := score2 v in 0 <= m <= 100 /\ tenths m y /\ rating_band (rating2 y) = band_v2 m) /\
  (let m := temporal_score_v2 (metric2 v) in let y := temporal_score2 v in 0 <= m <= 100 /\ tenths m y /\ rating_band (rating2 y) = band_v2 m) /\
  (let m := environmental_score_v2 (metric2 v) in let y := environmental_score2 v in 0 <= m <= 100 /\ tenths m y /\ rating_band (rating2 y) = band_v2 m).
Proof.
  intros V. assert (I := impact_in v V). assert (J := adjusted_in v V). apply conj; [|apply conj].
  - destruct (base_ok (impact2 v) _ (impact_v2 (metric2 v)) _ (in_or_app _ _ _ (or_introl I)) (expl_in v V)) as [R X]. exact (max_ok _ _ R X).
  - destruct (temporal_in v (impact2 v) (impact_v2 (metric2 v)) V (in_or_app _ _ _ (or_introl I))) as [R X]. exact (max_ok _ _ R X).
  - destruct (temporal_in v (adjusted_impact2 v) (adjusted_impact_v2 (metric2 v)) V (in_or_app _ _ _ (or_intror J))) as [R X].
    destruct (environmental_ok _ _ _ _ _ _ R X (table_in v _ _ _ _ "CDP" V) (table_in v _ _ _ _ "TD" V)) as [R' X'].
    exact (max_ok _ _ R' X').
Qed.

(** ** The theorems *)
(** The three scores equal the published equations computed exactly. *)
Theorem C42_base_score v : vector2 v -> tenths (base_score_v2 (metric2 v)) (score2 v).
Proof. intros V. apply (all_scores v V). Qed.
Theorem C42_temporal_score v : vector2 v -> tenths (temporal_score_v2 (metric2 v)) (temporal_score2 v).
Proof. intros V. apply (all_scores v V). Qed.
Theorem C42_environmental_score v : vector2 v -> tenths (environmental_score_v2 (metric2 v)) (environmental_score2 v).
Proof. intros V. apply (all_scores v V). Qed.
Theorem C42_range v x : vector2 v -> In x [score2 v; temporal_score2 v; environmental_score2 v] -> exists n, 0 <= n <= 100 /\ tenths n x.
Proof.
  intros V I. destruct (all_scores v V) as ((R & T & _) & (R' & T' & _) & (R'' & T'' & _)).
  destruct I as [<-|[<-|[<-|[]]]]; [exists (base_score_v2 (metric2 v))|exists (temporal_score_v2 (metric2 v))|exists (environmental_score_v2 (metric2 v))]; auto.
Qed.
Theorem C42_severity v x n : vector2 v -> In x [score2 v; temporal_score2 v; environmental_score2 v] -> 0 <= n <= 100 -> tenths n x ->
  rating_band (rating2 x) = band_v2 n.
Proof.
  intros V I N T0. destruct (all_scores v V) as ((R & T & B) & (R' & T' & B') & (R'' & T'' & B'')).
  destruct I as [<-|[<-|[<-|[]]]].
  - rewrite (tenths_unique _ _ _ N R T0 T). exact B.
  - rewrite (tenths_unique _ _ _ N R' T0 T'). exact B'.
  - rewrite (tenths_unique _ _ _ N R'' T0 T''). exact B''.
Qed.

(** ** Worked examples of the guide (sections 3.3.1 to 3.3.3) *)
Definition with_metrics (l : list string) : slots := map Some l.
Definition cve_2002_0392 := with_metrics ["N"; "L"; "N"; "N"; "N"; "C"; "F"; "OF"; "C"; "H"; "H"; "M"; "M"; "H"].
Definition cve_2003_0818 := with_metrics ["N"; "L"; "N"; "C"; "C"; "C"; "F"; "OF"; "C"; "H"; "H"; "M"; "M"; "L"].
Definition cve_2003_0062 := with_metrics ["L"; "H"; "N"; "C"; "C"; "C"; "POC"; "OF"; "C"; "H"; "H"; "M"; "M"; "M"].
Lemma with_metrics_vector l : parse2 (print2 (with_metrics l)) = Ok (with_metrics l) -> vector2 (with_metrics l).
Proof. intros H. exact (proj1 (C42_stable _ _ H)). Qed.
Example guide_vectors : vector2 cve_2002_0392 /\ vector2 cve_2003_0818 /\ vector2 cve_2003_0062.
Proof. repeat apply conj; apply with_metrics_vector; vm_compute; reflexivity. Qed.
Example guide_scores :
  map base_score_v2 (map metric2 [cve_2002_0392; cve_2003_0818; cve_2003_0062]) = [78; 100; 62] /\
  map temporal_score_v2 (map metric2 [cve_2002_0392; cve_2003_0818; cve_2003_0062]) = [64; 83; 49] /\
  map environmental_score_v2 (map metric2 [cve_2002_0392; cve_2003_0818; cve_2003_0062]) = [92; 90; 75].
Proof. repeat apply conj; vm_compute; reflexivity. Qed.
