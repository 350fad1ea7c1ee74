(** C38, C41, C42 (text), C43, C46: CVSS vectors as text. *)
From Coq Require Import List NArith Ascii String Bool Arith Lia.
From Verif Require Import Base StrLib VerText IdProofs PropsScan CvssText CvssSpec CvssTextProofs.
Import ListNotations.
Local Open Scope string_scope.
Local Infix "++" := String.append (right associativity, at level 60).

(** ** Vectors as assignments *)
Definition metric3 (b : base3) : assignment := field sch3 (slots3 b).
Definition metric2 (v : slots) : assignment := field sch2 v.
Definition metric4 (v : slots) : assignment := field sch4 v.
(** What the Rust types allow: one field per metric, holding one of its values. *)
Definition vector3 (b : base3) : Prop :=
  (minor3 b = 0 \/ minor3 b = 1)%N /\ List.length (slots3 b) = List.length metrics_v3 /\ legal metrics_v3 (metric3 b).
Definition vector2 (v : slots) : Prop := List.length v = List.length metrics_v2 /\ legal metrics_v2 (metric2 v).
Definition vector4 (v : slots) : Prop := List.length v = List.length metrics_v4 /\ legal metrics_v4 (metric4 v).
(** The components of an assignment in a given order, values written by [show]. *)
Definition in_order (order : list string) (show : string -> string) (a : assignment) : list (string * string) :=
  flat_map (fun n => match a n with Some x => [(n, show x)] | None => [] end) order.
(** The colours of the provider urgency are written capitalised. *)
Definition show_v4 (x : string) : string :=
  if String.eqb x "RED" then "Red" else if String.eqb x "AMBER" then "Amber"
  else if String.eqb x "GREEN" then "Green" else if String.eqb x "CLEAR" then "Clear" else x.

(** ** Facts about the three tables *)
Lemma nd3 : NoDup (names sch3). Proof. repeat constructor; cbn; intuition discriminate. Qed.
Lemma nd2 : NoDup (names sch2). Proof. repeat constructor; cbn; intuition discriminate. Qed.
Lemma nd4 : NoDup (names sch4). Proof. repeat constructor; cbn; intuition discriminate. Qed.
Lemma tab3 : same_table (tokens sch3) metrics_v3 = true. Proof. vm_compute. reflexivity. Qed.
Lemma tab2 : same_table (tokens sch2) metrics_v2 = true. Proof. vm_compute. reflexivity. Qed.
Lemma tab4 : same_table (tokens sch4) metrics_v4 = true. Proof. vm_compute. reflexivity. Qed.
Lemma pr3 : printable sch3 to_upper = true. Proof. vm_compute. reflexivity. Qed.
Lemma pr2 : printable sch2 (fun x => x) = true. Proof. vm_compute. reflexivity. Qed.
Lemma pr4 : printable sch4 to_upper = true. Proof. vm_compute. reflexivity. Qed.
Lemma pl3 : plain_table sch3 = true. Proof. vm_compute. reflexivity. Qed.
Lemma pl2 : plain_table sch2 = true. Proof. vm_compute. reflexivity. Qed.
Lemma pl4 : plain_table sch4 = true. Proof. vm_compute. reflexivity. Qed.

(** ** Generic lemmas *)
Lemma wf_norm ms f g cs : (forall s, f s = g s) -> well_formed ms f cs -> well_formed ms g cs.
Proof.
  intros E [A B]. split.
  - intros id x I. rewrite <- !E. apply A. exact I.
  - erewrite map_ext; [exact B|]. intros c. cbn. symmetry. apply E.
Qed.
Lemma den_norm f g cs a : (forall s, f s = g s) -> denotes f cs a -> denotes g cs a.
Proof.
  intros E D n x. split.
  - intros H. apply D in H as (c & I & X & Y). exists c. rewrite <- !E. auto.
  - intros (c & I & X & Y). apply D. exists c. rewrite !E. auto.
Qed.
Lemma wf_upper ms cs : well_formed ms to_upper cs <-> well_formed ms upcase cs.
Proof. split; apply wf_norm; intros s; rewrite to_upper_spec; reflexivity. Qed.
Lemma den_upper cs a : denotes to_upper cs a <-> denotes upcase cs a.
Proof. split; apply den_norm; intros s; rewrite to_upper_spec; reflexivity. Qed.
Lemma denotes_legal ms norm cs a : well_formed ms norm cs -> denotes norm cs a -> legal ms a.
Proof. intros [W _] D n x H. apply D in H as ((id & y) & I & <- & <-). cbn. apply W. exact I. Qed.
Lemma with_slashes_cons c r : with_slashes (c :: r) = String "/" (written_component c ++ with_slashes r).
Proof. reflexivity. Qed.
Lemma field_pairs_order sch v show : NoDup (names sch) ->
  (forall n toks x, In (n, toks) sch -> In x (map fst toks) -> printed toks x = show x) ->
  (forall n x, field sch v n = Some x -> has_value sch n x) -> List.length v = List.length sch ->
  field_pairs sch v = in_order (names sch) show (field sch v).
Proof.
  unfold in_order. revert v. induction sch as [|[m toks] sch IH]; intros v ND SH LEG L; destruct v as [|c v]; try discriminate; [reflexivity|].
  cbn in ND. inversion_clear ND as [|? ? N1 N2]. cbn in L. cbn [names map flat_map fst]. cbn [field]. rewrite String.eqb_refl.
  assert (R : flat_map (fun n => match (if String.eqb n m then c else field sch v n) with Some x => [(n, show x)] | None => [] end) (map fst sch) =
              flat_map (fun n => match field sch v n with Some x => [(n, show x)] | None => [] end) (names sch)).
  { unfold names. rewrite !flat_map_concat_map. f_equal. apply map_ext_in. intros n I. destruct (String.eqb_spec n m) as [->|]; [contradiction|reflexivity]. }
  rewrite R, <- IH; [|exact N2|intros n t x I J; exact (SH n t x (or_intror I) J)| |lia].
  - destruct c as [x|]; cbn [field_pairs]; [|reflexivity]. cbn. f_equal. f_equal. destruct (LEG m x) as (t & I & J); [cbn [field]; rewrite String.eqb_refl; reflexivity|].
    destruct I as [E|I]; [|exfalso; apply N1; apply in_map_iff; exists (m, t); auto]. injection E as <-. exact (SH m toks x (or_introl eq_refl) J).
  - intros n x H. assert (NM : n <> m) by (intros ->; rewrite field_out in H by exact N1; discriminate).
    destruct (LEG n x) as (t & I & J); [cbn [field]; destruct (String.eqb_spec n m); [contradiction|exact H]|].
    destruct I as [E|I]; [congruence|]. exists t. auto.
Qed.
Definition shows (sch : schema) (show : string -> string) : bool :=
  forallb (fun m => forallb (fun p => String.eqb (printed (snd m) (fst p)) (show (fst p))) (snd m)) sch.
Lemma shows_spec sch show : shows sch show = true -> forall n toks x, In (n, toks) sch -> In x (map fst toks) -> printed toks x = show x.
Proof.
  unfold shows. rewrite forallb_forall. intros H n toks x I J. specialize (H _ I). cbn in H. rewrite forallb_forall in H.
  apply in_map_iff in J as (p & <- & J). apply String.eqb_eq. exact (H p J).
Qed.

(** ** Version 3 *)
Lemma print_minor m : (m = 0 \/ m = 1)%N -> "CVSS:3." ++ print_dec m = written_component ("CVSS", "3." ++ print_dec m).
Proof. intros [-> | ->]; reflexivity. Qed.

(** Exactly the texts "CVSS:3.0" or "CVSS:3.1" followed by components, in any
    order and letter case, that name each metric at most once with a value of
    that metric; the vector then has those values. *)
Theorem C38_accepted_texts s b : parse3 s = Ok b <->
  exists cs, s = "CVSS:3." ++ print_dec (minor3 b) ++ with_slashes cs /\ (minor3 b = 0 \/ minor3 b = 1)%N /\
    well_formed metrics_v3 upcase cs /\ List.length (slots3 b) = List.length metrics_v3 /\ denotes upcase cs (metric3 b).
Proof.
  unfold parse3. destruct b as [m v]. unfold metric3. cbn [minor3 slots3]. split.
  - destruct (components s) as [cs| |] eqn:C; cbn [obind]; try discriminate. apply components_iff in C as (_ & _ & E). destruct cs as [|[id ver] cs]; [discriminate|].
    destruct (String.eqb_spec id "CVSS") as [->|]; cbn [negb]; [|discriminate].
    destruct (String.eqb_spec ver "3.0") as [->|]; [|destruct (String.eqb_spec ver "3.1") as [->|]; [|discriminate]]; cbn [obind];
      (destruct (set_all _ _ _ _) as [w| |] eqn:S; cbn [obind]; try discriminate; intros H; injection H as <- <-;
       apply (metrics_iff sch3 metrics_v3 nd3 tab3) in S as (W & L & D); exists cs; rewrite E, join_slashes;
       (split; [reflexivity|]); (split; [auto|]); (split; [apply wf_upper; exact W|]); (split; [exact L|apply den_upper; exact D])).
  - intros (cs & E & M & W & L & D). apply wf_upper in W. apply den_upper in D.
    assert (X : components s = Ok (("CVSS", "3." ++ print_dec m) :: cs)).
    { apply components_iff. split; [discriminate|]. split.
      - intros c [<-|I]; [destruct M as [-> | ->]; split; split; reflexivity|].
        exact (well_formed_plain sch3 metrics_v3 tab3 to_upper cs upper_keeps pl3 W c I).
      - rewrite E, join_slashes, <- print_minor by exact M. rewrite sapp_assoc. reflexivity. }
    rewrite X. cbn [obind]. rewrite (proj2 (metrics_iff sch3 metrics_v3 nd3 tab3 to_upper cs v) (conj W (conj L D))).
    destruct M as [-> | ->]; reflexivity.
Qed.

Lemma legal3 b : vector3 b -> well_formed metrics_v3 upcase (field_pairs sch3 (slots3 b)) /\ denotes upcase (field_pairs sch3 (slots3 b)) (metric3 b).
Proof.
  intros (_ & L & LEG). destruct (written_ok sch3 metrics_v3 nd3 tab3 to_upper pr3 (slots3 b) L LEG) as [A B].
  split; [apply wf_upper; exact A|apply den_upper; exact B].
Qed.
(** Printing a vector and parsing the text gives the vector back. *)
Theorem C38_round_trip b : vector3 b -> parse3 (print3 b) = Ok b.
Proof.
  intros V. destruct (legal3 b V) as [A B]. destruct V as (M & L & LEG). apply C38_accepted_texts. exists (field_pairs sch3 (slots3 b)).
  unfold print3. rewrite written_pairs, slashed_pairs. auto.
Qed.
(** Only such vectors come out of the parser, so re-parsing the printed form of a parsed text is stable. *)
Theorem C38_stable s b : parse3 s = Ok b -> vector3 b /\ parse3 (print3 b) = Ok b.
Proof.
  intros H. assert (V : vector3 b).
  { apply C38_accepted_texts in H as (cs & _ & M & W & L & D). split; [exact M|]. split; [exact L|]. exact (denotes_legal _ _ _ _ W D). }
  split; [exact V|]. apply C38_round_trip. exact V.
Qed.
(** The printed form: the set metrics in the published order. *)
Theorem C38_printed_form b : vector3 b ->
  print3 b = "CVSS:3." ++ print_dec (minor3 b) ++ with_slashes (in_order required_v3 exact (metric3 b)).
Proof.
  intros (M & L & LEG). unfold print3. rewrite written_pairs, slashed_pairs.
  rewrite (field_pairs_order sch3 (slots3 b) exact nd3); [reflexivity| | |exact L].
  - apply shows_spec. vm_compute. reflexivity.
  - intros n x H. apply (table_spec sch3 metrics_v3 tab3). exact (LEG n x H).
Qed.
Definition ex3 : base3 := mk3 1 [Some "N"; Some "L"; Some "H"; Some "R"; Some "C"; Some "L"; None; Some "H"].
Example ex3_vector : vector3 ex3 /\ print3 ex3 = "CVSS:3.1/AV:N/AC:L/PR:H/UI:R/S:C/C:L/A:H" /\
  parse3 "CVSS:3.1/av:n/A:h/ac:L/PR:H/UI:r/S:C/C:L" = Ok ex3 /\ parse3 "CVSS:3.1/AV:N/AV:N" = Err /\ parse3 "CVSS:3.1/AV:C" = Err.
Proof.
  split; [|vm_compute; auto]. split; [right; reflexivity|]. split; [reflexivity|].
  intros n x H. apply pairs_of_in. revert H. unfold metric3, ex3, sch3. cbn [field slots3].
  repeat (match goal with |- context [String.eqb n ?y] => destruct (String.eqb_spec n y) as [->|] end; [intros H; try discriminate; injection H as <-; vm_compute; tauto|]).
  discriminate.
Qed.

(** C41: metrics the specification requires may be left out. *)
Theorem C41_missing_metrics_refuted :
  ~ (forall s b, parse3 s = Ok b -> complete required_v3 (metric3 b)) /\
  ~ (forall s b, cvss_parse s = Ok (CvssV31 b) -> complete required_v3 (metric3 b)).
Proof.
  split; intros H.
  - apply (H "CVSS:3.1/AV:N" (mk3 1 [Some "N"; None; None; None; None; None; None; None]) eq_refl "AC"); [right; left; reflexivity|reflexivity].
  - apply (H "CVSS:3.1/AV:N" (mk3 1 [Some "N"; None; None; None; None; None; None; None]) eq_refl "AC"); [right; left; reflexivity|reflexivity].
Qed.
(** In fact every set of metrics is accepted, down to the empty one. *)
Theorem C41_every_subset_accepted_refuted b : vector3 b -> exists s, parse3 s = Ok b.
Proof. intros V. exists (print3 b). apply C38_round_trip. exact V. Qed.

(** ** Version 2 *)
Lemma check_iff sch v req : forallb (is_set sch v) req = true <-> complete req (field sch v).
Proof.
  rewrite forallb_forall. unfold complete, is_set. split; intros H n I; specialize (H n I); destruct (field sch v n); congruence.
Qed.
Lemma perm_complete req req' a : (forall n, In n req <-> In n req') -> complete req a <-> complete req' a.
Proof. intros E. unfold complete. split; intros H n I; apply H, E, I. Qed.
Lemma check2_iff v : check2 v = true <-> complete required_v2 (metric2 v).
Proof. apply check_iff. Qed.
Lemma check4_iff v : check4 v = true <-> complete required_v4 (metric4 v).
Proof. unfold check4. rewrite check_iff. apply perm_complete. intros n. cbn. tauto. Qed.
Theorem C42_accepted_texts s v : parse2 s = Ok v <->
  exists cs, s = slash_separated cs /\ well_formed metrics_v2 exact cs /\ List.length v = List.length metrics_v2 /\
    denotes exact cs (metric2 v) /\ complete required_v2 (metric2 v).
Proof.
  unfold parse2. split.
  - destruct (components s) as [cs| |] eqn:C; cbn [obind]; try discriminate. apply components_iff in C as (_ & _ & E).
    destruct (set_all _ _ _ _) as [w| |] eqn:S; cbn [obind]; try discriminate. destruct (check2 w) eqn:K; [|discriminate]. intros H. injection H as <-.
    apply (metrics_iff sch2 metrics_v2 nd2 tab2) in S as (W & L & D). exists cs. rewrite E, join_separated. rewrite check2_iff in K. auto.
  - intros (cs & E & W & L & D & K).
    assert (X : components s = Ok cs).
    { apply components_iff. split; [|split].
      - intros ->. apply (K "AV"); [left; reflexivity|]. destruct (metric2 v "AV") eqn:Q; [|reflexivity]. apply D in Q as (c & [] & _).
      - exact (well_formed_plain sch2 metrics_v2 tab2 (fun x => x) cs exact_keeps pl2 W).
      - rewrite E, join_separated. reflexivity. }
    rewrite X. cbn [obind]. rewrite (proj2 (metrics_iff sch2 metrics_v2 nd2 tab2 (fun x => x) cs v) (conj W (conj L D))). cbn [obind].
    rewrite (proj2 (check2_iff v) K). reflexivity.
Qed.
Theorem C42_round_trip v : vector2 v -> complete required_v2 (metric2 v) -> parse2 (print2 v) = Ok v.
Proof.
  intros (L & LEG) K. destruct (written_ok sch2 metrics_v2 nd2 tab2 (fun x => x) pr2 v L LEG) as [A B]. apply C42_accepted_texts.
  exists (field_pairs sch2 v). unfold print2. rewrite written_pairs, join_separated. auto.
Qed.
Theorem C42_stable s v : parse2 s = Ok v -> vector2 v /\ complete required_v2 (metric2 v) /\ parse2 (print2 v) = Ok v.
Proof.
  intros H. pose proof H as H0. apply C42_accepted_texts in H as (cs & _ & W & L & D & K).
  assert (V : vector2 v) by (split; [exact L|exact (denotes_legal _ _ _ _ W D)]). split; [exact V|]. split; [exact K|]. apply C42_round_trip; assumption.
Qed.
Theorem C42_printed_form v : vector2 v -> print2 v = slash_separated (in_order (map fst metrics_v2) exact (metric2 v)).
Proof.
  intros (L & LEG). unfold print2. rewrite written_pairs, join_separated.
  rewrite (field_pairs_order sch2 v exact nd2); [reflexivity| | |exact L].
  - apply shows_spec. vm_compute. reflexivity.
  - intros n x H. apply (table_spec sch2 metrics_v2 tab2). exact (LEG n x H).
Qed.
Definition ex2 : slots := Eval vm_compute in match parse2 "AV:N/AC:L/Au:N/C:P/I:P/A:C/RC:UR/E:POC" with Ok v => v | _ => [] end.
Example ex2_texts : parse2 "AV:N/AC:L/Au:N/C:P/I:P/A:C/RC:UR/E:POC" = Ok ex2 /\ print2 ex2 = "AV:N/AC:L/Au:N/C:P/I:P/A:C/E:POC/RC:UR" /\
  parse2 "AV:N/AC:L/AU:N/C:P/I:P/A:C" = Err /\ parse2 "AV:N/AC:L/Au:N/C:P/I:P" = Err.
Proof. repeat apply conj; vm_compute; reflexivity. Qed.

(** ** Version 4 *)
Theorem C43_accepted_texts s v : parse4 s = Ok v <->
  exists cs, s = "CVSS:4.0" ++ with_slashes cs /\ well_formed metrics_v4 upcase cs /\ List.length v = List.length metrics_v4 /\
    denotes upcase cs (metric4 v) /\ complete required_v4 (metric4 v).
Proof.
  unfold parse4. split.
  - destruct (components s) as [cs| |] eqn:C; cbn [obind]; try discriminate. apply components_iff in C as (_ & _ & E). destruct cs as [|[id ver] cs]; [discriminate|].
    destruct (String.eqb_spec id "CVSS") as [->|]; cbn [negb]; [|discriminate].
    destruct (String.eqb_spec ver "4.0") as [->|]; cbn [negb]; [|discriminate].
    destruct (set_all _ _ _ _) as [w| |] eqn:S; cbn [obind]; try discriminate. destruct (check4 w) eqn:K; [|discriminate]. intros H. injection H as <-.
    apply (metrics_iff sch4 metrics_v4 nd4 tab4) in S as (W & L & D). exists cs. rewrite E, join_slashes. rewrite check4_iff in K.
    split; [reflexivity|]. split; [apply wf_upper; exact W|]. split; [exact L|]. split; [apply den_upper; exact D|exact K].
  - intros (cs & E & W & L & D & K). apply wf_upper in W. apply den_upper in D.
    assert (X : components s = Ok (("CVSS", "4.0") :: cs)).
    { apply components_iff. split; [discriminate|]. split.
      - intros c [<-|I]; [split; split; reflexivity|]. exact (well_formed_plain sch4 metrics_v4 tab4 to_upper cs upper_keeps pl4 W c I).
      - rewrite E, join_slashes. reflexivity. }
    rewrite X. cbn [obind]. rewrite (proj2 (metrics_iff sch4 metrics_v4 nd4 tab4 to_upper cs v) (conj W (conj L D))). cbn [obind String.eqb Ascii.eqb Bool.eqb negb].
    rewrite (proj2 (check4_iff v) K). reflexivity.
Qed.
Theorem C43_round_trip v : vector4 v -> complete required_v4 (metric4 v) -> parse4 (print4 v) = Ok v.
Proof.
  intros (L & LEG) K. destruct (written_ok sch4 metrics_v4 nd4 tab4 to_upper pr4 v L LEG) as [A B]. apply C43_accepted_texts.
  exists (field_pairs sch4 v). unfold print4. rewrite written_pairs, slashed_pairs. apply wf_upper in A. apply den_upper in B. auto.
Qed.
Theorem C43_stable s v : parse4 s = Ok v -> vector4 v /\ complete required_v4 (metric4 v) /\ parse4 (print4 v) = Ok v.
Proof.
  intros H. apply C43_accepted_texts in H as (cs & _ & W & L & D & K).
  assert (V : vector4 v) by (split; [exact L|exact (denotes_legal _ _ _ _ W D)]). split; [exact V|]. split; [exact K|]. apply C43_round_trip; assumption.
Qed.
Theorem C43_printed_form v : vector4 v -> print4 v = "CVSS:4.0" ++ with_slashes (in_order (map fst metrics_v4) show_v4 (metric4 v)).
Proof.
  intros (L & LEG). unfold print4. rewrite written_pairs, slashed_pairs.
  rewrite (field_pairs_order sch4 v show_v4 nd4); [reflexivity| | |exact L].
  - apply shows_spec. vm_compute. reflexivity.
  - intros n x H. apply (table_spec sch4 metrics_v4 tab4). exact (LEG n x H).
Qed.
Definition ex4 : slots := Eval vm_compute in
  match parse4 "CVSS:4.0/U:red/AV:N/AC:L/AT:N/PR:H/UI:N/VC:L/VI:L/VA:N/SC:N/SI:N/SA:N/MSI:S" with Ok v => v | _ => [] end.
Example ex4_texts : parse4 "CVSS:4.0/U:red/AV:N/AC:L/AT:N/PR:H/UI:N/VC:L/VI:L/VA:N/SC:N/SI:N/SA:N/MSI:S" = Ok ex4 /\
  print4 ex4 = "CVSS:4.0/AV:N/AC:L/AT:N/PR:H/UI:N/VC:L/VI:L/VA:N/SC:N/SI:N/SA:N/MSI:S/U:Red" /\
  parse4 "CVSS:4.0/AV:N/AC:L/AT:N/PR:H/UI:N/VC:L/VI:L/VA:N/SC:N/SI:S/SA:N" = Err /\
  parse4 "CVSS:4.0/AV:N/AC:L/AT:N/PR:H/UI:N/VC:L/VI:L/VA:N/SC:N/SI:N" = Err.
Proof. repeat apply conj; vm_compute; reflexivity. Qed.

(** ** Any version *)
Lemma denotes_nonempty norm cs a n : denotes norm cs a -> a n <> None -> cs <> [].
Proof. intros D H ->. destruct (a n) eqn:E; [|congruence]. apply D in E as (c & [] & _). Qed.
Lemma split_prefix p cs : has_char "/" p = false ->
  split_once "/" (p ++ with_slashes cs) = match cs with [] => None | c :: r => Some (p, written_component c ++ with_slashes r) end.
Proof.
  intros H. destruct cs as [|c r].
  - cbn [with_slashes]. rewrite sapp_nil_r. apply split_once_none. exact H.
  - rewrite with_slashes_cons. apply split_once_app. exact H.
Qed.
Lemma dispatch2 s v : parse2 s = Ok v -> cvss_parse s = Ok (CvssV20 v).
Proof.
  intros H. pose proof H as H0. apply C42_accepted_texts in H as (cs & E & W & L & D & K).
  destruct cs as [|[id x] cs]; [exfalso; refine (denotes_nonempty _ _ _ "AV" D _ eq_refl); apply K; left; reflexivity|].
  destruct cs as [|c cs].
  { exfalso. assert (A1 := K "AV" (or_introl eq_refl)). assert (A2 := K "AC" (or_intror (or_introl eq_refl))).
    destruct (metric2 v "AV") eqn:Q1; [|congruence]. destruct (metric2 v "AC") eqn:Q2; [|congruence].
    apply D in Q1 as (c1 & [<-|[]] & X1 & _). apply D in Q2 as (c2 & [<-|[]] & X2 & _). unfold exact in *. cbn in X1, X2. congruence. }
  destruct W as [W _]. destruct (W id x (or_introl eq_refl)) as (vals & I1 & I2). unfold exact in I1, I2.
  assert (HV : has_value sch2 id x) by (apply (table_spec sch2 metrics_v2 tab2); exists vals; auto).
  destruct (plain_values sch2 id x pl2 HV) as [[P1 P2] [P3 P4]].
  assert (DOT : has_char "." x = false).
  { apply has_value_tokens in HV. assert (F : forallb (fun p => negb (has_char "." (snd p))) (pairs_of (tokens sch2)) = true) by (vm_compute; reflexivity).
    rewrite forallb_forall in F. specialize (F _ HV). apply negb_true_iff in F. exact F. }
  unfold cvss_parse. rewrite E at 1. cbn [slash_separated]. rewrite split_prefix.
  2:{ unfold written_component. cbn [fst snd]. rewrite !has_char_app, P1, P3. reflexivity. }
  unfold written_component at 1. cbn [fst snd]. change (id ++ ":" ++ x) with (id ++ String ":" x). rewrite split_once_app by exact P2.
  rewrite (proj2 (split_once_none "." x) DOT). rewrite H0. reflexivity.
Qed.
Lemma dispatch3 s b : parse3 s = Ok b -> cvss_parse s =
  if existsb (is_set sch3 (slots3 b)) required_v3 then Ok (if (minor3 b =? 0)%N then CvssV30 b else CvssV31 b) else Err.
Proof.
  intros H. pose proof H as H0. apply C38_accepted_texts in H as (cs & E & M & W & L & D). unfold cvss_parse. rewrite E at 1. rewrite <- sapp_assoc.
  rewrite split_prefix by (destruct M as [-> | ->]; reflexivity). destruct cs as [|c r].
  - replace (existsb (is_set sch3 (slots3 b)) required_v3) with false; [reflexivity|]. symmetry. apply not_true_iff_false. intros X.
    apply existsb_exists in X as (n & _ & X). unfold is_set in X. destruct (field sch3 (slots3 b) n) eqn:Q; [|discriminate]. apply D in Q as (? & [] & _).
  - replace (existsb (is_set sch3 (slots3 b)) required_v3) with true.
    2:{ symmetry. apply existsb_exists. exists (upcase (fst c)). destruct c as [id x]. destruct W as [W _]. destruct (W id x (or_introl eq_refl)) as (vals & I & _). split.
        - apply (in_map fst) in I. exact I.
        - unfold is_set. cbn [fst]. change (field sch3 (slots3 b)) with (metric3 b). rewrite (proj2 (D (upcase id) (upcase x))); [reflexivity|]. exists (id, x). cbn. auto. }
    rewrite H0. destruct M as [M|M]; rewrite M; reflexivity.
Qed.
Lemma dispatch4 s v : parse4 s = Ok v -> cvss_parse s = Ok (CvssV40 v).
Proof.
  intros H. pose proof H as H0. apply C43_accepted_texts in H as (cs & E & W & L & D & K). unfold cvss_parse. rewrite E at 1.
  rewrite split_prefix by reflexivity. destruct cs as [|c r]; [exfalso; refine (denotes_nonempty _ _ _ "AV" D _ eq_refl); apply K; left; reflexivity|].
  rewrite H0. reflexivity.
Qed.

(** A text is read by the parser of exactly one version, whichever accepts it;
    the only text a version's own parser accepts and [Cvss] does not is a bare
    "CVSS:3.0" or "CVSS:3.1". *)
Theorem C46_dispatch s c : cvss_parse s = Ok c <->
  match c with
  | CvssV20 v => parse2 s = Ok v
  | CvssV30 b => parse3 s = Ok b /\ minor3 b = 0%N /\ exists name, metric3 b name <> None
  | CvssV31 b => parse3 s = Ok b /\ minor3 b = 1%N /\ exists name, metric3 b name <> None
  | CvssV40 v => parse4 s = Ok v
  end.
Proof.
  assert (EX : forall b, existsb (is_set sch3 (slots3 b)) required_v3 = true <-> exists name, metric3 b name <> None).
  { intros b. rewrite existsb_exists. unfold is_set, metric3. split.
    - intros (n & _ & H). exists n. destruct (field sch3 (slots3 b) n); congruence.
    - intros (n & H). exists n. destruct (field sch3 (slots3 b) n) eqn:Q; [|congruence]. split; [|reflexivity].
      destruct (in_dec string_dec n (names sch3)) as [I|I]; [exact I|]. rewrite field_out in Q by exact I. discriminate. }
  assert (B3 : forall b, parse3 s = Ok b -> cvss_parse s = Ok c ->
    (exists name, metric3 b name <> None) /\ c = if (minor3 b =? 0)%N then CvssV30 b else CvssV31 b).
  { intros b P H. rewrite (dispatch3 s b P) in H. destruct (existsb _ _) eqn:X; [|discriminate]. injection H as <-. split; [apply EX; exact X|reflexivity]. }
  assert (M3 : forall b, parse3 s = Ok b -> (minor3 b = 0 \/ minor3 b = 1)%N) by (intros b P; apply C38_accepted_texts in P as (? & _ & M & _); exact M).
  split.
  - intros H. pose proof H as H0. unfold cvss_parse in H. destruct (split_once "/" s) as [[id rest]|]; [|discriminate]. destruct (split_once ":" id) as [[p ver]|]; [|discriminate].
    destruct (split_once "." ver) as [[ma mi]|].
    + destruct (_ && _ && _)%bool in H.
      { destruct (parse3 s) as [b| |] eqn:P; cbn [obind] in H; try discriminate. destruct (B3 b eq_refl H0) as [X Y]. injection H as <-. destruct (M3 b eq_refl) as [M|M]; rewrite M in Y; [auto|discriminate]. }
      destruct (_ && _ && _)%bool in H.
      { destruct (parse3 s) as [b| |] eqn:P; cbn [obind] in H; try discriminate. destruct (B3 b eq_refl H0) as [X Y]. injection H as <-. destruct (M3 b eq_refl) as [M|M]; rewrite M in Y; [discriminate|auto]. }
      destruct (_ && _ && _)%bool in H; [|discriminate]. destruct (parse4 s) as [v| |]; cbn [obind] in H; try discriminate. injection H as <-. reflexivity.
    + destruct (parse2 s) as [v| |]; cbn [obind] in H; try discriminate. injection H as <-. reflexivity.
  - destruct c as [v|b|b|v].
    + apply dispatch2.
    + intros (P & M & X). rewrite (dispatch3 s b P), (proj2 (EX b) X), M. reflexivity.
    + intros (P & M & X). rewrite (dispatch3 s b P), (proj2 (EX b) X), M. reflexivity.
    + apply dispatch4.
Qed.
(** The version is the one named by the prefix. *)
Theorem C46_prefix s c : cvss_parse s = Ok c ->
  match c with
  | CvssV20 _ => ~ exists t, s = "CVSS:" ++ t
  | CvssV30 _ => exists t, s = "CVSS:3.0/" ++ t
  | CvssV31 _ => exists t, s = "CVSS:3.1/" ++ t
  | CvssV40 _ => exists t, s = "CVSS:4.0/" ++ t
  end.
Proof.
  intros H. apply C46_dispatch in H. destruct c as [v|b|b|v].
  - intros (t & E). apply C42_accepted_texts in H as (cs & E' & W & _ & D & K). destruct cs as [|[id x] cs]; [rewrite E' in E; discriminate|].
    destruct W as [W _]. destruct (W id x (or_introl eq_refl)) as (vals & I & J). unfold exact in I, J.
    assert (HV : has_value sch2 id x) by (apply (table_spec sch2 metrics_v2 tab2); exists vals; auto). destruct (plain_values sch2 id x pl2 HV) as [[_ P] _].
    rewrite E' in E. cbn [slash_separated] in E. unfold written_component in E. cbn [fst snd] in E. rewrite !sapp_assoc in E.
    assert (S : split_once ":" ("CVSS" ++ String ":" t) = Some (id, x ++ with_slashes cs)).
    { change ("CVSS" ++ String ":" t) with ("CVSS:" ++ t). rewrite <- E. apply split_once_app. exact P. }
    rewrite split_once_app in S by reflexivity. injection S as S1 _. subst id.
    apply has_value_tokens in HV. assert (F : forallb (fun p => negb (String.eqb "CVSS" (fst p))) (pairs_of (tokens sch2)) = true) by (vm_compute; reflexivity).
    rewrite forallb_forall in F. specialize (F _ HV). discriminate.
  - destruct H as (H & M & n & X). apply C38_accepted_texts in H as (cs & E & _ & _ & _ & D). pose proof (denotes_nonempty _ _ _ n D X) as NE.
    destruct cs as [|c r]; [congruence|]. exists (written_component c ++ with_slashes r). rewrite E, M, with_slashes_cons. reflexivity.
  - destruct H as (H & M & n & X). apply C38_accepted_texts in H as (cs & E & _ & _ & _ & D). pose proof (denotes_nonempty _ _ _ n D X) as NE.
    destruct cs as [|c r]; [congruence|]. exists (written_component c ++ with_slashes r). rewrite E, M, with_slashes_cons. reflexivity.
  - apply C43_accepted_texts in H as (cs & E & _ & _ & D & K). pose proof (denotes_nonempty _ _ _ "AV" D (K "AV" (or_introl eq_refl))) as NE.
    destruct cs as [|c r]; [congruence|]. exists (written_component c ++ with_slashes r). rewrite E, with_slashes_cons. reflexivity.
Qed.
Theorem C46_round_trip s c : cvss_parse s = Ok c -> cvss_parse (cvss_print c) = Ok c.
Proof.
  intros H. apply C46_dispatch in H. apply C46_dispatch. destruct c as [v|b|b|v]; cbn [cvss_print].
  - apply (C42_stable s v H).
  - destruct H as (H & M & X). split; [apply (C38_stable s b H)|auto].
  - destruct H as (H & M & X). split; [apply (C38_stable s b H)|auto].
  - apply (C43_stable s v H).
Qed.
(** No text is accepted by the parsers of two versions. *)
Theorem C46_exclusive s : (forall v b, parse2 s = Ok v -> parse3 s <> Ok b) /\ (forall v w, parse2 s = Ok v -> parse4 s <> Ok w) /\
  (forall b w, parse3 s = Ok b -> parse4 s <> Ok w).
Proof.
  repeat apply conj.
  - intros v b H K. pose proof (dispatch2 s v H) as A. rewrite (dispatch3 s b K) in A. destruct (existsb _ _); [destruct (minor3 b =? 0)%N|]; discriminate.
  - intros v w H K. pose proof (dispatch2 s v H) as A. rewrite (dispatch4 s w K) in A. discriminate.
  - intros b w H K. pose proof (dispatch3 s b H) as A. rewrite (dispatch4 s w K) in A. destruct (existsb _ _); [destruct (minor3 b =? 0)%N|]; discriminate.
Qed.
Definition version_read (s : string) : option N :=
  match cvss_parse s with Ok (CvssV20 _) => Some 20 | Ok (CvssV30 _) => Some 30 | Ok (CvssV31 _) => Some 31 | Ok (CvssV40 _) => Some 40 | _ => None end%N.
Example ex46 : version_read "CVSS:3.0/AV:N/AC:L" = Some 30%N /\ version_read "CVSS:3.1/AV:N/AC:L" = Some 31%N /\
  version_read "AV:N/AC:L/Au:N/C:P/I:P/A:C" = Some 20%N /\
  version_read "CVSS:4.0/AV:N/AC:L/AT:N/PR:H/UI:N/VC:L/VI:L/VA:N/SC:N/SI:N/SA:N" = Some 40%N /\
  version_read "CVSS:2.0/AV:N/AC:L/Au:N/C:P/I:P/A:C" = None /\ version_read "CVSS:3.1" = None.
Proof. repeat apply conj; vm_compute; reflexivity. Qed.

Print Assumptions C38_accepted_texts. Print Assumptions C42_accepted_texts. Print Assumptions C43_accepted_texts. Print Assumptions C46_dispatch.
