(** Reading and writing vectors, for any table of metrics. *)
From Coq Require Import List NArith Ascii String Bool Arith Lia.
From Verif Require Import Base StrLib IdProofs PropsScan CvssText CvssSpec.
Import ListNotations.
Local Open Scope string_scope.
Local Infix "++" := String.append (right associativity, at level 60).

Lemma upper_char_spec a : upper_char a = upcase_char a.
Proof.
  apply Ascii.eqb_eq. revert a. apply (ascii_all (fun a => Ascii.eqb (upper_char a) (upcase_char a))). vm_compute. reflexivity.
Qed.
Lemma to_upper_spec s : to_upper s = upcase s.
Proof. induction s as [|a s IH]; [reflexivity|]. cbn [to_upper upcase]. rewrite upper_char_spec, IH. reflexivity. Qed.

(** ** Fields *)
Definition names (sch : schema) : list string := map fst sch.
Definition has_value (sch : schema) (n x : string) : Prop := exists toks, In (n, toks) sch /\ In x (map fst toks).

Lemma field_out sch v n : ~ In n (names sch) -> field sch v n = None.
Proof.
  revert v. induction sch as [|[m toks] sch IH]; intros v H; [destruct v; reflexivity|]. destruct v as [|c v]; [reflexivity|].
  cbn [field]. destruct (String.eqb_spec n m) as [->|N]; [exfalso; apply H; left; reflexivity|]. apply IH. intros K. apply H. right. exact K.
Qed.
Lemma field_ext sch v w : NoDup (names sch) -> List.length v = List.length sch -> List.length w = List.length sch ->
  (forall n, field sch v n = field sch w n) -> v = w.
Proof.
  revert v w. induction sch as [|[m toks] sch IH]; intros v w ND L1 L2 H; destruct v as [|c v]; destruct w as [|d w]; try discriminate; [reflexivity|].
  cbn in ND. inversion_clear ND as [|? ? N1 N2]. cbn in L1, L2. f_equal.
  - specialize (H m). cbn [field] in H. rewrite String.eqb_refl in H. exact H.
  - apply IH; [exact N2|lia|lia|]. intros n. destruct (in_dec string_dec n (names sch)) as [I|I].
    + specialize (H n). cbn [field] in H. revert H. destruct (String.eqb_spec n m) as [E|E]; intros H; [subst n; contradiction|exact H].
    + rewrite !field_out by exact I. reflexivity.
Qed.
Lemma field_empty sch n : field sch (empty sch) n = None.
Proof. induction sch as [|[m toks] sch IH]; [reflexivity|]. cbn. destruct (String.eqb n m); [reflexivity|exact IH]. Qed.
Lemma empty_length sch : List.length (empty sch) = List.length sch.
Proof. apply map_length. Qed.

(** ** Setting one metric *)
Lemma value_of_ok toks s x : value_of toks s = Ok x <-> x = s /\ In s (map fst toks).
Proof.
  unfold value_of. destruct (existsb _ toks) eqn:E.
  - apply existsb_exists in E as (p & I & Q). apply String.eqb_eq in Q. subst s. split.
    + intros H. injection H as <-. split; [reflexivity|]. apply in_map. exact I.
    + intros [-> _]. reflexivity.
  - split; [discriminate|]. intros [_ H]. apply in_map_iff in H as (p & Q & I).
    assert (X : existsb (fun p => String.eqb s (fst p)) toks = true) by (apply existsb_exists; exists p; split; [exact I|apply String.eqb_eq; congruence]).
    congruence.
Qed.
Lemma set_metric_ok sch v id x v' : NoDup (names sch) -> List.length v = List.length sch -> set_metric sch v id x = Ok v' ->
  has_value sch id x /\ field sch v id = None /\ List.length v' = List.length sch /\
  forall n, field sch v' n = if String.eqb n id then Some x else field sch v n.
Proof.
  revert v v'. induction sch as [|[m toks] sch IH]; intros v v' ND L H; [destruct v; discriminate|]. destruct v as [|c v]; [discriminate|].
  cbn in ND. inversion_clear ND as [|? ? N1 N2]. cbn in L. cbn [set_metric] in H. revert H. destruct (String.eqb_spec id m) as [->|N]; intros H.
  - destruct (value_of toks x) as [y| |] eqn:E; cbn [obind] in H; try discriminate. apply value_of_ok in E as [-> I].
    destruct c; [discriminate|]. injection H as <-. repeat apply conj.
    + exists toks. split; [left; reflexivity|exact I].
    + cbn [field]. rewrite String.eqb_refl. reflexivity.
    + cbn. lia.
    + intros n. cbn [field]. destruct (String.eqb n m); reflexivity.
  - destruct (set_metric sch v id x) as [r| |] eqn:E; cbn [obind] in H; try discriminate. injection H as <-.
    destruct (IH v r N2 ltac:(lia) E) as ((t & I1 & I2) & F & L' & A). repeat apply conj.
    + exists t. split; [right; exact I1|exact I2].
    + cbn [field]. destruct (String.eqb_spec id m); [contradiction|exact F].
    + cbn. lia.
    + intros n. cbn [field]. destruct (String.eqb_spec n m) as [->|].
      * destruct (String.eqb_spec m id); [congruence|reflexivity].
      * apply A.
Qed.
Lemma set_metric_total sch v id x : NoDup (names sch) -> List.length v = List.length sch ->
  has_value sch id x -> field sch v id = None -> exists v', set_metric sch v id x = Ok v'.
Proof.
  revert v. induction sch as [|[m toks] sch IH]; intros v ND L (t & I1 & I2) F; [destruct I1|]. destruct v as [|c v]; [discriminate|].
  cbn in ND. inversion_clear ND as [|? ? N1 N2]. cbn in L. cbn [set_metric field] in *. revert F. destruct (String.eqb_spec id m) as [->|N]; intros F.
  - destruct I1 as [E|I1]; [|exfalso; apply N1; apply in_map_iff; exists (m, t); split; [reflexivity|exact I1]].
    injection E as <-. rewrite (proj2 (value_of_ok toks x x)) by (split; [reflexivity|exact I2]). cbn [obind]. rewrite F. eexists. reflexivity.
  - destruct I1 as [E|I1]; [congruence|]. destruct (IH v N2 ltac:(lia) ltac:(exists t; split; assumption) F) as [r E]. rewrite E. cbn [obind]. eexists. reflexivity.
Qed.

(** ** Setting all of them *)
Definition given (up : string -> string) (cs : list (string * string)) (n x : string) : Prop :=
  exists c, In c cs /\ up (fst c) = n /\ up (snd c) = x.
Lemma set_all_ok sch up cs : NoDup (names sch) -> forall v v', List.length v = List.length sch -> set_all sch up v cs = Ok v' ->
  (forall id x, In (id, x) cs -> has_value sch (up id) (up x)) /\ NoDup (map (fun c => up (fst c)) cs) /\
  (forall c, In c cs -> field sch v (up (fst c)) = None) /\ List.length v' = List.length sch /\
  forall n x, field sch v' n = Some x <-> field sch v n = Some x \/ given up cs n x.
Proof.
  intros ND. induction cs as [|[id x] cs IH]; intros v v' L H; cbn [set_all] in H.
  - injection H as <-. repeat apply conj; [intros ? ? []|constructor|intros ? []|exact L|].
    intros n x. split; [left; assumption|intros [A|(c & [] & _)]; exact A].
  - destruct (set_metric sch v (up id) (up x)) as [v1| |] eqn:E; cbn [obind] in H; try discriminate.
    destruct (set_metric_ok sch v (up id) (up x) v1 ND L E) as (V & F & L1 & A).
    destruct (IH v1 v' L1 H) as (V' & ND' & F' & L' & A'). repeat apply conj.
    + intros i y [Q|Q]; [injection Q as <- <-; exact V|apply V'; exact Q].
    + cbn. constructor; [|exact ND']. intros K. apply in_map_iff in K as (c & Q & I). specialize (F' c I). rewrite A, Q, String.eqb_refl in F'. discriminate.
    + intros c [<-|I]; [exact F|]. specialize (F' c I). rewrite A in F'. destruct (String.eqb (up (fst c)) (up id)); [discriminate|exact F'].
    + exact L'.
    + intros n y. rewrite A', A. split.
      * intros [K|(c & I & Q)]; [|right; exists c; split; [right; exact I|exact Q]].
        revert K. destruct (String.eqb_spec n (up id)) as [->|]; intros K; [|left; exact K]. injection K as <-. right. exists (id, x). split; [left; reflexivity|split; reflexivity].
      * intros [K|(c & [<-|I] & Q1 & Q2)].
        -- left. destruct (String.eqb_spec n (up id)) as [->|]; [congruence|exact K].
        -- cbn in Q1, Q2. left. rewrite <- Q1, String.eqb_refl. congruence.
        -- right. exists c. auto.
Qed.
Lemma set_all_total sch up cs : NoDup (names sch) -> forall v, List.length v = List.length sch ->
  (forall id x, In (id, x) cs -> has_value sch (up id) (up x)) -> NoDup (map (fun c => up (fst c)) cs) ->
  (forall c, In c cs -> field sch v (up (fst c)) = None) -> exists v', set_all sch up v cs = Ok v'.
Proof.
  intros ND. induction cs as [|[id x] cs IH]; intros v L V N F; [eexists; reflexivity|].
  cbn [set_all]. destruct (set_metric_total sch v (up id) (up x) ND L (V id x (or_introl eq_refl)) (F (id, x) (or_introl eq_refl))) as [v1 E].
  rewrite E. cbn [obind]. destruct (set_metric_ok sch v (up id) (up x) v1 ND L E) as (_ & _ & L1 & A).
  cbn in N. inversion_clear N as [|? ? N1 N2]. apply IH; [exact L1|intros i y I; apply V; right; exact I|exact N2|].
  intros c I. rewrite A. destruct (String.eqb_spec (up (fst c)) (up id)) as [Q|]; [|apply F; right; exact I].
  exfalso. apply N1. apply in_map_iff. exists c. auto.
Qed.

(** The table of the model against the published one. *)
Definition pairs_of (ms : metrics) : list (string * string) := flat_map (fun m => map (fun x => (fst m, x)) (snd m)) ms.
Definition tokens (sch : schema) : metrics := map (fun m => (fst m, map fst (snd m))) sch.
Definition pair_eqb (p q : string * string) : bool := String.eqb (fst p) (fst q) && String.eqb (snd p) (snd q).
Definition same_table (ms ms' : metrics) : bool :=
  forallb (fun p => existsb (pair_eqb p) (pairs_of ms')) (pairs_of ms) && forallb (fun p => existsb (pair_eqb p) (pairs_of ms)) (pairs_of ms').
Lemma pairs_of_in ms n x : In (n, x) (pairs_of ms) <-> exists values, In (n, values) ms /\ In x values.
Proof.
  unfold pairs_of. rewrite in_flat_map. split.
  - intros ((m & l) & I & J). apply in_map_iff in J as (y & Q & J). injection Q as <- <-. exists l. auto.
  - intros (l & I & J). exists (n, l). split; [exact I|]. apply in_map_iff. exists x. auto.
Qed.
Lemma pair_eqb_eq p q : pair_eqb p q = true <-> p = q.
Proof.
  destruct p as [a b]; destruct q as [c d]. unfold pair_eqb. cbn. rewrite andb_true_iff, !String.eqb_eq. split; [intros [-> ->]; reflexivity|intros E; injection E as -> ->; auto].
Qed.
Lemma incl_check (l l' : list (string * string)) : forallb (fun p => existsb (pair_eqb p) l') l = true -> forall p, In p l -> In p l'.
Proof.
  intros H p I. rewrite forallb_forall in H. specialize (H p I). apply existsb_exists in H as (q & J & E). apply pair_eqb_eq in E. subst q. exact J.
Qed.
Lemma has_value_tokens sch n x : has_value sch n x <-> In (n, x) (pairs_of (tokens sch)).
Proof.
  rewrite pairs_of_in. unfold has_value, tokens. split.
  - intros (t & I & J). exists (map fst t). split; [|exact J]. apply in_map_iff. exists (n, t). auto.
  - intros (l & I & J). apply in_map_iff in I as ((m & t) & Q & I). cbn in Q. injection Q as <- <-. exists t. auto.
Qed.
Lemma table_spec sch ms : same_table (tokens sch) ms = true ->
  forall n x, has_value sch n x <-> exists values, In (n, values) ms /\ In x values.
Proof.
  unfold same_table. rewrite andb_true_iff. intros [H1 H2] n x. rewrite has_value_tokens, <- pairs_of_in. split; apply incl_check; assumption.
Qed.

Section Table.
  Context (sch : schema) (ms : metrics) (ND : NoDup (names sch)) (TAB : same_table (tokens sch) ms = true) (up : string -> string).

  Theorem metrics_iff cs v : set_all sch up (empty sch) cs = Ok v <->
    well_formed ms up cs /\ List.length v = List.length sch /\ denotes up cs (field sch v).
  Proof.
    split.
    - intros H. destruct (set_all_ok sch up cs ND (empty sch) v (empty_length sch) H) as (V & N & _ & L & A). split; [|split; [exact L|]].
      + split; [|exact N]. intros id x I. apply (table_spec sch ms TAB). exact (V id x I).
      + intros n x. rewrite A, field_empty. unfold given. split; [intros [K|K]; [discriminate|exact K]|right; assumption].
    - intros ((V & N) & L & D). assert (V' : forall id x, In (id, x) cs -> has_value sch (up id) (up x)) by (intros id x I; apply (table_spec sch ms TAB); exact (V id x I)).
      destruct (set_all_total sch up cs ND (empty sch) (empty_length sch) V' N (fun c _ => field_empty sch (up (fst c)))) as [w E]. rewrite E. f_equal.
      destruct (set_all_ok sch up cs ND (empty sch) w (empty_length sch) E) as (_ & _ & _ & L' & A).
      apply (field_ext sch); [exact ND|exact L'|exact L|]. intros n. unfold denotes in D.
      assert (K : forall x, field sch w n = Some x <-> field sch v n = Some x).
      { intros x. rewrite A, field_empty, D. unfold given. split; [intros [K|K]; [discriminate|exact K]|right; assumption]. }
      destruct (field sch w n) as [a|]; [symmetry; apply K; reflexivity|]. destruct (field sch v n) as [b|]; [|reflexivity]. apply K. reflexivity.
  Qed.
End Table.

(** ** Components *)
Definition plain (s : string) : Prop := has_char "/" s = false /\ has_char ":" s = false.
Lemma component_iff c p : component c = Ok p <-> has_char ":" (fst p) = false /\ has_char ":" (snd p) = false /\ c = written_component p.
Proof.
  destruct p as [a b]. unfold component, written_component. cbn [fst snd]. split.
  - intros H. pose proof (join_split ":" c) as J. pose proof (split_on_parts ":" c) as P.
    destruct (split_on ":" c) as [|x [|y [|z l]]]; try discriminate. injection H as -> ->.
    repeat apply conj; [apply P; left; reflexivity|apply P; right; left; reflexivity|]. rewrite <- J. reflexivity.
  - intros (A & B & ->). change (a ++ ":" ++ b) with (a ++ String ":" b). rewrite split_on_app by exact A. rewrite split_on_nochar by exact B. reflexivity.
Qed.
Lemma omap_iff {A B} (f : A -> outcome B) l r : omap f l = Ok r <-> Forall2 (fun a b => f a = Ok b) l r.
Proof.
  revert r. induction l as [|a l IH]; intros r; cbn [omap].
  - split; [intros H; injection H as <-; constructor|intros H; inversion H; reflexivity].
  - split.
    + destruct (f a) as [b| |] eqn:E; cbn [obind]; try discriminate. destruct (omap f l) as [r'| |]; cbn [obind]; try discriminate.
      intros H. injection H as <-. constructor; [exact E|]. apply IH. reflexivity.
    + intros H. inversion H as [|? b ? r' H1 H2]; subst. rewrite H1. cbn [obind]. apply IH in H2. rewrite H2. reflexivity.
Qed.
Lemma components_iff s cs : components s = Ok cs <->
  cs <> [] /\ (forall c, In c cs -> plain (fst c) /\ plain (snd c)) /\ s = join_on "/" (map written_component cs).
Proof.
  unfold components. rewrite omap_iff. split.
  - intros H. pose proof (split_on_nonempty "/" s) as NE. pose proof (split_on_parts "/" s) as P. rewrite <- (join_split "/" s).
    revert NE P. induction H as [|a b l r H H' IH]; intros NE P; [congruence|]. clear NE.
    apply component_iff in H as (C1 & C2 & ->).
    pose proof (P _ (or_introl eq_refl)) as C3. unfold written_component in C3. rewrite !has_char_app, !orb_false_iff in C3. destruct C3 as (C3 & _ & C4).
    assert (R : (forall c, In c r -> plain (fst c) /\ plain (snd c)) /\ l = map written_component r).
    { destruct l as [|z l]; [inversion H'; split; [intros ? []|reflexivity]|].
      split; [apply IH; [discriminate|intros x I; apply P; right; exact I]|].
      clear -H'. revert H'. generalize (z :: l). clear. intros l H'. induction H' as [|a b l r H _ IH]; [reflexivity|]. cbn. apply component_iff in H as (_ & _ & ->). f_equal. exact IH. }
    destruct R as [R1 ->]. repeat apply conj; [discriminate| |reflexivity].
    intros c [<-|I]; [split; split; assumption|apply R1; exact I].
  - intros (NE & P & ->). rewrite split_join.
    + assert (K : forall l, (forall c, In c l -> plain (fst c) /\ plain (snd c)) -> Forall2 (fun a b => component a = Ok b) (map written_component l) l).
      { induction l as [|c l IH]; intros Q; [constructor|]. cbn. constructor; [|apply IH; intros d I; apply Q; right; exact I].
        destruct (Q c (or_introl eq_refl)) as [[_ A] [_ B]]. apply component_iff. auto. }
      apply K. exact P.
    + destruct cs; [congruence|discriminate].
    + intros x I. apply in_map_iff in I as (c & <- & I). destruct (P c I) as [[A _] [B _]]. unfold written_component. rewrite !has_char_app, A, B. reflexivity.
Qed.
Lemma join_slashes c cs : join_on "/" (map written_component (c :: cs)) = written_component c ++ with_slashes cs.
Proof.
  revert c. induction cs as [|d cs IH]; intros c; [cbn [map join_on with_slashes]; rewrite sapp_nil_r; reflexivity|].
  cbn [map]. rewrite join_cons2. f_equal. cbn [with_slashes]. change (String "/" "" ++ ?x) with (String "/" x). cbn [append]. f_equal. apply IH.
Qed.
Lemma join_separated cs : join_on "/" (map written_component cs) = slash_separated cs.
Proof. destruct cs as [|c cs]; [reflexivity|]. apply join_slashes. Qed.

(** Normalising letter case keeps the separators. *)
Definition keeps (up : string -> string) : Prop := forall s, plain (up s) -> plain s.
Lemma exact_keeps : keeps (fun s => s). Proof. intros s H; exact H. Qed.
Lemma upper_has c s : In c ["/"%char; ":"%char] -> has_char c s = has_char c (to_upper s).
Proof.
  intros I. induction s as [|a s IH]; [reflexivity|]. cbn [has_char to_upper]. rewrite IH. f_equal. apply eqb_prop.
  destruct I as [<-|[<-|[]]]; revert a.
  - apply (ascii_all (fun a => eqb (Ascii.eqb a "/") (Ascii.eqb (upper_char a) "/"))). vm_compute. reflexivity.
  - apply (ascii_all (fun a => eqb (Ascii.eqb a ":") (Ascii.eqb (upper_char a) ":"))). vm_compute. reflexivity.
Qed.
Lemma upper_keeps : keeps to_upper.
Proof. intros s [A B]. split; rewrite upper_has; [exact A|left; reflexivity|exact B|right; left; reflexivity]. Qed.
Definition plain_table (sch : schema) : bool :=
  forallb (fun p => forallb (fun s => negb (has_char "/" s) && negb (has_char ":" s))%bool [fst p; snd p]) (pairs_of (tokens sch)).
Lemma plain_values sch n x : plain_table sch = true -> has_value sch n x -> plain n /\ plain x.
Proof.
  intros T H. apply has_value_tokens in H. unfold plain_table in T. rewrite forallb_forall in T. specialize (T _ H). cbn [forallb fst snd] in T.
  rewrite !andb_true_iff, !negb_true_iff in T. unfold plain. tauto.
Qed.

(** ** Writing *)
Fixpoint field_pairs (sch : schema) (v : slots) : list (string * string) :=
  match sch, v with
  | (n, toks) :: sch', cur :: v' =>
      match cur with Some x => (n, printed toks x) :: field_pairs sch' v' | None => field_pairs sch' v' end
  | _, _ => []
  end.
Lemma written_pairs sch v : written sch v = map written_component (field_pairs sch v).
Proof.
  revert v. induction sch as [|[n toks] sch IH]; intros v; [destruct v; reflexivity|]. destruct v as [|[x|] v]; cbn; [reflexivity| |]; rewrite IH; reflexivity.
Qed.
Lemma slashed_pairs cs : slashed (map written_component cs) = with_slashes cs.
Proof. induction cs as [|c cs IH]; [reflexivity|]. cbn [map slashed with_slashes]. rewrite IH. reflexivity. Qed.
Definition printable (sch : schema) (up : string -> string) : bool :=
  forallb (fun m => (String.eqb (up (fst m)) (fst m) && forallb (fun p => String.eqb (up (printed (snd m) (fst p))) (fst p)) (snd m))%bool) sch.

Lemma field_pairs_wf sch v up : NoDup (names sch) -> List.length v = List.length sch -> printable sch up = true ->
  (forall n x, field sch v n = Some x -> has_value sch n x) ->
  (forall id x, In (id, x) (field_pairs sch v) -> up id = id /\ field sch v id = Some (up x)) /\
  NoDup (map fst (field_pairs sch v)) /\ (forall n, In n (map fst (field_pairs sch v)) -> In n (names sch)) /\
  (forall n x, field sch v n = Some x -> exists y, In (n, y) (field_pairs sch v) /\ up y = x).
Proof.
  revert v. induction sch as [|[m toks] sch IH]; intros v ND L PR LEG.
  - destruct v; [|discriminate]. repeat apply conj; cbn; [intros ? ? []|constructor|intros ? []|discriminate].
  - destruct v as [|c v]; [discriminate|]. cbn in ND. inversion_clear ND as [|? ? N1 N2]. cbn in L.
    cbn [printable forallb fst snd] in PR. rewrite !andb_true_iff, String.eqb_eq in PR. destruct PR as [[P1 P2] P3].
    destruct (IH v N2 ltac:(lia) P3) as (A & B & C & D).
    { intros n x H. destruct (LEG n x) as (t & [E|I] & J).
      - cbn [field]. destruct (String.eqb_spec n m) as [->|]; [|exact H]. rewrite field_out in H by exact N1. discriminate.
      - injection E as <- <-. rewrite field_out in H by exact N1. discriminate.
      - exists t. auto. }
    assert (M : forall n, In n (map fst (field_pairs sch v)) -> n <> m) by (intros n I ->; apply N1, C, I).
    destruct c as [x|]; cbn [field_pairs].
    + destruct (LEG m x) as (t & I & J); [cbn [field]; rewrite String.eqb_refl; reflexivity|].
      destruct I as [E|I]; [|exfalso; apply N1; apply in_map_iff; exists (m, t); auto]. injection E as <-.
      assert (Q : up (printed toks x) = x).
      { rewrite forallb_forall in P2. apply in_map_iff in J as (p & Q & J). specialize (P2 p J). rewrite String.eqb_eq, Q in P2. exact P2. }
      repeat apply conj.
      * intros id y [E|I]; [injection E as <- <-; cbn [field]; rewrite String.eqb_refl, Q; auto|].
        cbn [field]. destruct (String.eqb_spec id m) as [E|]; [exfalso; refine (M id _ E); apply in_map_iff; exists (id, y); auto|]. apply A. exact I.
      * cbn. constructor; [|exact B]. intros I. exact (M m I eq_refl).
      * cbn. intros n [<-|I]; [left; reflexivity|right; apply C; exact I].
      * intros n y H. cbn [field] in H. revert H. destruct (String.eqb_spec n m) as [->|]; intros H.
        -- injection H as <-. exists (printed toks x). split; [left; reflexivity|exact Q].
        -- destruct (D n y H) as (z & I & Z). exists z. split; [right; exact I|exact Z].
    + repeat apply conj.
      * intros id y I. cbn [field]. destruct (String.eqb_spec id m) as [E|]; [exfalso; refine (M id _ E); apply in_map_iff; exists (id, y); auto|]. apply A. exact I.
      * exact B.
      * intros n I. right. apply C. exact I.
      * intros n y H. cbn [field] in H. revert H. destruct (String.eqb_spec n m); intros H; [discriminate|]. apply D. exact H.
Qed.

Section Print.
  Context (sch : schema) (ms : metrics) (ND : NoDup (names sch)) (TAB : same_table (tokens sch) ms = true) (up : string -> string) (PR : printable sch up = true).
  Lemma written_ok v : List.length v = List.length sch -> legal ms (field sch v) ->
    well_formed ms up (field_pairs sch v) /\ denotes up (field_pairs sch v) (field sch v).
  Proof.
    intros L LEG.
    destruct (field_pairs_wf sch v up ND L PR) as (A & B & C & D); [intros n x H; apply (table_spec sch ms TAB); exact (LEG n x H)|].
    split; [split|].
    - intros id x I. destruct (A id x I) as [E F]. rewrite E. exact (LEG id (up x) F).
    - replace (map (fun c => up (fst c)) (field_pairs sch v)) with (map fst (field_pairs sch v)); [exact B|].
      apply map_ext_in. intros [id x] I. destruct (A id x I) as [E _]. cbn. congruence.
    - intros n x. split.
      + intros H. destruct (D n x H) as (y & I & E). exists (n, y). destruct (A n y I) as [E' _]. auto.
      + intros ((id & y) & I & <- & <-). destruct (A id y I) as [E F]. cbn. rewrite E. exact F.
  Qed.
  Lemma well_formed_plain cs : keeps up -> plain_table sch = true -> well_formed ms up cs -> forall c, In c cs -> plain (fst c) /\ plain (snd c).
  Proof.
    intros K T [W _] [id x] I. destruct (W id x I) as (vals & I1 & I2).
    assert (HV : has_value sch (up id) (up x)) by (apply (table_spec sch ms TAB); exists vals; auto).
    destruct (plain_values sch _ _ T HV) as [P1 P2]. split; apply K; assumption.
  Qed.
End Print.
