(** Property C91: writing requirements and reading them back. *)
From Coq Require Import List NArith Ascii String Bool Arith Lia.
From Verif Require Import Base SemverModel StrLib VerText ReqText ReqSpec PropsReq PropsReq2.
Import ListNotations.
Local Open Scope string_scope.
Local Infix "++" := String.append (right associativity, at level 60).

(** ** What is written is in the grammar *)
Lemma no_blanks : spaces "". Proof. exists 0%nat. reflexivity. Qed.
Lemma a_blank : spaces " ". Proof. exists 1%nat. reflexivity. Qed.
Lemma star_wild : wild "*". Proof. left. reflexivity. Qed.
Lemma written_number n : (n <=? u64_max)%N = true -> number n (print_dec n).
Proof. intros H. split; [reflexivity|apply N.leb_le; exact H]. Qed.
Lemma written_pre l : forallb ident_wf l = true -> optional_list "-" ident_wf l (match l with [] => "" | l => "-" ++ join_on "." l end).
Proof.
  intros H. destruct l as [|x l]; [constructor|]. constructor. split; [discriminate|]. split; [apply forallb_forall; exact H|reflexivity].
Qed.
Lemma written_comparator c : readable_comparator c -> comparator_text (print_comparator c) c.
Proof.
  destruct c as [o ma mi pa p]. intros [W Wild]. unfold comparator_wf in W. cbn [c_op c_major c_minor c_patch c_pre] in *.
  apply andb_prop in W as [W W0]. apply andb_prop in W as [W W1]. apply andb_prop in W as [W W5]. apply andb_prop in W as [W W2]. apply andb_prop in W as [W W3]. apply written_number in W.
  unfold print_comparator. cbn [c_op c_major c_minor c_patch c_pre].
  assert (Op : forall s, o <> OpWildcard -> open_version s ma mi pa p false -> comparator_text (op_text o ++ s) (mkComparator o ma mi pa p)).
  { intros s N V. change (op_text o ++ s) with (op_text o ++ "" ++ s). apply (with_operator _ _ _ _ _ _ _ _ false); [|exact no_blanks|exact V]. destruct o; cbn; auto 20. }
  destruct mi as [m|].
  - apply written_number in W3. destruct pa as [q|].
    + apply written_number in W2. assert (N : o <> OpWildcard) by (intros E; specialize (Wild E); discriminate). apply Op; [exact N|].
      pose proof (full ma m q p [] (print_dec ma) (print_dec m) (print_dec q) _ "" W W3 W2 (written_pre p W0) (list_absent _ _)) as F. rewrite sapp_nil_r in F. destruct p; exact F.
    + destruct p as [|y p]; [|discriminate]. destruct o; cbn [star_after];
        try (apply Op; [discriminate|]; rewrite sapp_nil_r; now constructor).
      cbn [op_text String.append]. apply with_wildcard. change (print_dec m ++ ".*") with (print_dec m ++ "." ++ "*"). constructor; [assumption|assumption|exact star_wild].
  - destruct pa; [discriminate|]. destruct p as [|y p]; [|discriminate]. destruct o; cbn [star_after];
      try (apply Op; [discriminate|]; rewrite sapp_nil_r; now constructor).
    cbn [op_text String.append]. apply with_wildcard. change (print_dec ma ++ ".*") with (print_dec ma ++ "." ++ "*"). constructor; [assumption|exact star_wild].
Qed.
Lemma written_list r : r <> [] -> (forall c, In c r -> readable_comparator c) -> comparators_text (String.concat ", " (map print_comparator r)) r.
Proof.
  induction r as [|c r IH]; [congruence|]. intros _ R. pose proof (written_comparator c (R c (or_introl eq_refl))) as T. destruct r as [|d r].
  - cbn [map String.concat]. rewrite <- (sapp_nil_r (print_comparator c)). constructor; [exact T|exact no_blanks].
  - assert (T' : comparators_text (String.concat ", " (map print_comparator (d :: r))) (d :: r)) by (apply IH; [discriminate|intros x I; apply R; right; exact I]).
    exact (more_comparators _ _ "" " " _ _ T no_blanks a_blank T').
Qed.
Lemma written r : readable r -> requirement_text (print_req r) r.
Proof.
  intros [L R]. destruct r as [|c r].
  - exact (any_version "" "*" "" no_blanks star_wild no_blanks).
  - exact (these_versions "" _ _ no_blanks (written_list (c :: r) ltac:(discriminate) R) L).
Qed.
(** *** C91: every requirement the library can hold after reading is written as text that is read as the same requirement. *)
Theorem C91_reads_back : forall r, readable r -> parse_req (print_req r) = Some r.
Proof. intros r R. apply C91_accepted_texts, written, R. Qed.
Print Assumptions C91_reads_back.

(** ** What is read can be written *)
Lemma open_wf o s n m p l w : open_version s n m p l w -> comparator_wf (mkComparator o n m p l) = true /\ (w = true -> p = None).
Proof.
  assert (Nm : forall n a, number n a -> (n <=? u64_max)%N = true) by (intros k a [_ H]; apply N.leb_le; exact H).
  assert (Pl : forall ok k l t, optional_list k ok l t -> forallb ok l = true) by (intros ok k l' t [|l0 s0 (_ & H & _)]; [reflexivity|apply forallb_forall; exact H]).
  intros V. unfold comparator_wf. destruct V as [n a A|n a w A W|n a w w' A W W'|n m a b A B|n m a b w A B W|n m p l bl a b c t u A B C T U]; cbn [c_major c_minor c_patch c_pre];
    rewrite ?(Nm _ _ A), ?(Nm _ _ B), ?(Nm _ _ C), ?(Pl _ _ _ _ T); split; try reflexivity; discriminate.
Qed.
Lemma comparator_readable s c : comparator_text s c -> readable_comparator c.
Proof.
  intros [sign o b s' n m p l w I _ V|s' n m p l V|s' n m p l V]; destruct (open_wf OpExact _ _ _ _ _ _ V) as [W P]; (split; [exact W|]); cbn [c_op c_patch].
  - intros ->. exfalso. cbn in I. repeat (destruct I as [I|I]; [discriminate|]). destruct I.
  - discriminate.
  - intros _. apply P. reflexivity.
Qed.
Lemma comparators_readable s l : comparators_text s l -> forall c, In c l -> readable_comparator c.
Proof.
  induction 1 as [s c b T B|s c b b' t l T B B' T' IH]; intros d I.
  - destruct I as [<-|[]]. eapply comparator_readable; eassumption.
  - destruct I as [<-|I]; [eapply comparator_readable; eassumption|apply IH; exact I].
Qed.
(** *** C91: whatever is read is of that kind: at most 32 comparators, numbers of 64 bits, components given from the left, valid
    pre-release identifiers and only after three numbers. *)
Theorem C91_what_is_read : forall s r, parse_req s = Some r -> readable r /\ req_wf r = true.
Proof.
  intros s r H. assert (R : readable r).
  { apply C91_accepted_texts in H. destruct H as [b w b' B W B'|b t l B T L]; [split; [cbn; lia|intros c []]|].
    split; [exact L|]. eapply comparators_readable; eassumption. }
  split; [exact R|]. apply forallb_forall. intros c I. apply (proj2 R c I).
Qed.
Print Assumptions C91_what_is_read.
(** Conversely every such requirement has a text. *)
Theorem C91_every_requirement : forall r, readable r <-> exists s, parse_req s = Some r.
Proof.
  intros r. split; [intros R; exists (print_req r); apply C91_reads_back; exact R|]. intros [s H]. apply (C91_what_is_read s r H).
Qed.
(** *** C91: reading and writing a text again changes nothing but its form: the same requirement, and from then on the same text. *)
Theorem C91_rewriting : forall s r, parse_req s = Some r -> parse_req (print_req r) = Some r /\ (forall r', parse_req (print_req r) = Some r' -> print_req r' = print_req r).
Proof.
  intros s r H. pose proof (C91_reads_back r (proj1 (C91_what_is_read s r H))) as B. split; [exact B|]. intros r' H'. congruence.
Qed.
(** Two texts are written the same exactly when they mean the same. *)
Theorem C91_written_alike : forall s s' r r', parse_req s = Some r -> parse_req s' = Some r' -> (print_req r = print_req r' <-> r = r').
Proof.
  intros s s' r r' H H'. split; [|congruence]. intros E. apply C91_rewriting in H as [H _], H' as [H' _]. congruence.
Qed.
Print Assumptions C91_written_alike.

(** ** Requirements made of one version *)
(** *** C91: the text of a version is a requirement; without an operator it is the caret requirement, and build metadata is dropped. *)
Theorem C91_version_texts : forall v, version_wf v = true ->
  parse_req (print_version v) = Some [mkComparator OpCaret (major v) (Some (minor v)) (Some (patch v)) (pre v)] /\
  (forall sign o n, In (sign, o) operators ->
     parse_req (sign ++ String.concat "" (repeat " " n) ++ print_version v) = Some [mkComparator o (major v) (Some (minor v)) (Some (patch v)) (pre v)]).
Proof.
  intros v W. apply version_wf_iff in W as (W1 & W2 & W3 & W4 & W5).
  assert (V : open_version (print_version v) (major v) (Some (minor v)) (Some (patch v)) (pre v) false).
  { unfold print_version. apply full with (bl := build v); try (split; [reflexivity|assumption]).
    - pose proof (written_pre (pre v) W4) as T. destruct (pre v); exact T.
    - destruct (build v) as [|x l] eqn:E; [constructor|]. constructor. split; [discriminate|]. split; [|reflexivity]. apply forallb_forall. exact W5. }
  assert (Q : forall s c, comparator_text s c -> parse_req s = Some [c]).
  { intros s c T. apply C91_accepted_texts. pose proof (these_versions "" (s ++ "") [c] no_blanks (last_comparator s c "" T no_blanks)) as R. rewrite sapp_nil_r in R.
    apply R. cbn. lia. }
  split; [apply Q, without_operator, V|]. intros sign o n I. apply Q. eapply with_operator; [exact I|exists n; reflexivity|exact V].
Qed.
Print Assumptions C91_version_texts.

(** ** What does not hold: the text itself is not kept, and long lists are not read *)
Theorem C91_text_kept_refuted :
  (exists r, parse_req "1.2.3" = Some r /\ print_req r = "^1.2.3") /\
  (exists r, parse_req ">=1.*" = Some r /\ parse_req ">= 1" = Some r /\ print_req r = ">=1") /\
  (exists r, parse_req "<2.0.0+build" = Some r /\ print_req r = "<2.0.0") /\
  (exists r, parse_req " X " = Some r /\ print_req r = "*").
Proof. repeat match goal with |- _ /\ _ => split end; eexists; repeat split; reflexivity. Qed.
(** A requirement of more than 32 comparators can be built and written, but what is written is not read. *)
Theorem C91_length_refuted : exists r, (forall c, In c r -> readable_comparator c) /\ parse_req (print_req r) = None.
Proof.
  exists (repeat (mkComparator OpLess 1 None None []) 33). split; [|vm_compute; reflexivity].
  intros c I. apply repeat_spec in I. subst c. split; [reflexivity|discriminate].
Qed.
Example C91_nonvacuous :
  parse_req ">=1.2.3-rc.1, <2" = Some [mkComparator OpGreaterEq 1 (Some 2%N) (Some 3%N) ["rc"; "1"]; mkComparator OpLess 2 None None []] /\
  parse_req "1.2.*" = Some [mkComparator OpWildcard 1 (Some 2%N) None []] /\ parse_req "~ 0.3 ,^4.5" = Some [mkComparator OpTilde 0 (Some 3%N) None []; mkComparator OpCaret 4 (Some 5%N) None []] /\
  parse_req ">=01.2" = None /\ parse_req "1.*.3" = None /\ parse_req "1.2-rc" = None /\ parse_req ">1 <2" = None /\ parse_req "" = None /\ parse_req "*, 1" = None /\
  parse_req "18446744073709551616" = None /\
  readable [mkComparator OpGreaterEq 1 (Some 2%N) (Some 3%N) ["rc"; "1"]; mkComparator OpWildcard 2 None None []] /\
  print_req [mkComparator OpGreaterEq 1 (Some 2%N) (Some 3%N) ["rc"; "1"]; mkComparator OpWildcard 2 None None []] = ">=1.2.3-rc.1, 2.*".
Proof.
  repeat (split; [reflexivity|]). split; [|reflexivity]. split; [cbn; lia|]. intros c [<-|[<-|[]]]; (split; [reflexivity|]); [discriminate|reflexivity].
Qed.
