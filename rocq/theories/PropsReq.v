(** Property C91: version requirements as text. *)
From Coq Require Import List NArith Ascii String Bool Arith Lia.
From Verif Require Import Base SemverModel StrLib VerText ReqText ReqSpec.
Import ListNotations.
Local Open Scope string_scope.
Local Infix "++" := String.append (right associativity, at level 60).

(** ** Pieces *)
Definition stops (P : ascii -> bool) (s : string) : Prop := match s with EmptyString => True | String a _ => P a = false end.
Lemma take_spec P s : s = fst (take_while P s) ++ snd (take_while P s) /\ str_forall P (fst (take_while P s)) = true /\ stops P (snd (take_while P s)).
Proof.
  induction s as [|a s (IH1 & IH2 & IH3)]; [repeat split|]. cbn [take_while]. destruct (P a) eqn:E.
  - destruct (take_while P s) as [x y]. cbn [fst snd] in *. cbn [String.append str_forall]. rewrite <- IH1, E, IH2. auto.
  - cbn [fst snd String.append str_forall stops]. auto.
Qed.
Lemma take_app P x y : str_forall P x = true -> stops P y -> take_while P (x ++ y) = (x, y).
Proof.
  intros X Y. induction x as [|a x IH].
  - cbn [String.append]. destruct y as [|b y]; [reflexivity|]. cbn [take_while]. cbn [stops] in Y. rewrite Y. reflexivity.
  - cbn [str_forall] in X. apply andb_prop in X as [X1 X2]. cbn [String.append take_while]. rewrite X1, (IH X2). reflexivity.
Qed.
Lemma spaces_iff s : spaces s <-> str_forall (fun a => Ascii.eqb a " ") s = true.
Proof.
  split.
  - intros [n ->]. induction n as [|n IH]; [reflexivity|]. cbn [repeat]. destruct n as [|n]; [reflexivity|]. exact IH.
  - induction s as [|a s IH]; [intros _; exists 0%nat; reflexivity|]. cbn [str_forall]. intros H. apply andb_prop in H as [H1 H2].
    apply Ascii.eqb_eq in H1. subst a. destruct (IH H2) as [n ->]. exists (S n). destruct n; reflexivity.
Qed.
Lemma trim_spec s : exists b, spaces b /\ s = b ++ trim_spaces s /\ stops (fun a => Ascii.eqb a " ") (trim_spaces s).
Proof.
  destruct (take_spec (fun a => Ascii.eqb a " ") s) as (A & B & C). exists (fst (take_while (fun a => Ascii.eqb a " ") s)).
  split; [apply spaces_iff; exact B|]. split; [exact A|exact C].
Qed.
Lemma trim_app b s : spaces b -> stops (fun a => Ascii.eqb a " ") s -> trim_spaces (b ++ s) = s.
Proof. intros B S. apply spaces_iff in B. unfold trim_spaces. rewrite (take_app _ _ _ B S). reflexivity. Qed.
Lemma wildcard_iff s r : wildcard s = Some r <-> exists w, wild w /\ s = w ++ r.
Proof.
  unfold wildcard, wild. split.
  - destruct s as [|a s]; [discriminate|]. destruct (Ascii.eqb_spec a "*") as [->|N1]; [|destruct (Ascii.eqb_spec a "x") as [->|N2]; [|destruct (Ascii.eqb_spec a "X") as [->|N3]; [|discriminate]]];
      cbn [orb]; intros [= <-].
    + exists "*". split; [cbn; tauto|reflexivity].
    + exists "x". split; [cbn; tauto|reflexivity].
    + exists "X". split; [cbn; tauto|reflexivity].
  - intros (w & [<-|[<-|[<-|[]]]] & ->); reflexivity.
Qed.
Lemma numeric_iff s n r : numeric_identifier s = Some (n, r) <-> exists a, number n a /\ s = a ++ r /\ stops is_dig r.
Proof.
  unfold numeric_identifier, number. split.
  - destruct (take_spec is_dig s) as (A & B & C). destruct (take_while is_dig s) as [x y]. cbn [fst snd] in *.
    destruct (parse_numeric x) as [k|] eqn:E; [|discriminate]. intros [= <- <-]. apply parse_numeric_inv in E as [-> L]. eauto.
  - intros (a & [-> L] & -> & S). rewrite (take_app is_dig _ r (print_dec_digits n) S), (parse_numeric_print n L). reflexivity.
Qed.
Lemma identifiers_iff ok s l r : (forall x, ok x = true -> x <> "" /\ str_forall is_ident_char x = true) ->
  identifiers ok s = Some (l, r) <-> exists d, dotted_list ok l d /\ s = d ++ r /\ stops ident_or_dot r.
Proof.
  intros Ok. unfold identifiers, dotted_list. split.
  - destruct (take_spec ident_or_dot s) as (A & B & C). destruct (take_while ident_or_dot s) as [x y]. cbn [fst snd] in *.
    destruct (forallb ok (split_on "." x)) eqn:E; [|discriminate]. intros [= <- <-]. exists x. split; [|auto].
    split; [apply split_on_nonempty|]. split; [apply forallb_forall; exact E|]. symmetry. apply join_split.
  - intros (d & (N & O & ->) & -> & S). rewrite take_app; [|clear S|exact S].
    + rewrite split_join; [|exact N|].
      * rewrite (proj2 (forallb_forall ok l) O). reflexivity.
      * intros x I. eapply str_forall_has; [apply Ok, O, I|reflexivity].
    + apply str_forall_join; [reflexivity|]. intros x I. eapply str_forall_imp; [|apply Ok, O, I]. intros a H. unfold ident_or_dot. rewrite H. reflexivity.
Qed.
Lemma ok_pre x : ident_wf x = true -> x <> "" /\ str_forall is_ident_char x = true.
Proof. intros H. split; [intros ->; discriminate H|apply ident_chars; exact H]. Qed.
Lemma ok_build x : build_ident_wf x = true -> x <> "" /\ str_forall is_ident_char x = true.
Proof. intros H. split; [intros ->; discriminate H|apply build_ident_chars; exact H]. Qed.

Lemma number_first n a : number n a -> exists d r, a = String d r /\ is_dig d = true.
Proof.
  intros [-> _]. pose proof (print_dec_digits n) as D. pose proof (print_dec_nonempty n) as N.
  destruct (print_dec n) as [|d r]; [congruence|]. cbn [str_forall] in D. apply andb_prop in D as [D _]. eauto.
Qed.
Lemma dig_case (P : ascii -> Prop) : P "0"%char -> P "1"%char -> P "2"%char -> P "3"%char -> P "4"%char -> P "5"%char -> P "6"%char -> P "7"%char -> P "8"%char -> P "9"%char ->
  forall d, is_dig d = true -> P d.
Proof. intros; revert H9. destruct d as [[] [] [] [] [] [] [] []]; vm_compute; try discriminate; intros _; assumption. Qed.

(** ** The operator *)
Lemma op_sound s o f r : parse_op s = (o, f, r) ->
  if f then o = OpCaret /\ r = s else exists sign, In (sign, o) operators /\ s = sign ++ r.
Proof.
  unfold parse_op. destruct s as [|a s]; [intros H; injection H as <- <- <-; auto|].
  destruct (Ascii.ascii_dec a "=") as [->|N1]; [intros H; injection H as <- <- <-; exists "="; cbn; auto 20|].
  destruct (Ascii.ascii_dec a ">") as [->|N2].
  { destruct s as [|b s]; [intros H; injection H as <- <- <-; exists ">"; cbn; auto 20|].
    destruct (Ascii.ascii_dec b "=") as [->|N3]; [intros H; injection H as <- <- <-; exists ">="; cbn; auto 20|].
    intros H. assert (E : (OpGreater, false, String b s) = (o, f, r)) by (rewrite <- H; destruct b as [[] [] [] [] [] [] [] []]; try reflexivity; congruence).
    injection E as <- <- <-. exists ">". cbn; auto 20. }
  destruct (Ascii.ascii_dec a "<") as [->|N3].
  { destruct s as [|b s]; [intros H; injection H as <- <- <-; exists "<"; cbn; auto 20|].
    destruct (Ascii.ascii_dec b "=") as [->|N4]; [intros H; injection H as <- <- <-; exists "<="; cbn; auto 20|].
    intros H. assert (E : (OpLess, false, String b s) = (o, f, r)) by (rewrite <- H; destruct b as [[] [] [] [] [] [] [] []]; try reflexivity; congruence).
    injection E as <- <- <-. exists "<". cbn; auto 20. }
  destruct (Ascii.ascii_dec a "~") as [->|N4]; [intros H; injection H as <- <- <-; exists "~"; cbn; auto 20|].
  destruct (Ascii.ascii_dec a "^") as [->|N5]; [intros H; injection H as <- <- <-; exists "^"; cbn; auto 20|].
  intros H. assert (E : (OpCaret, true, String a s) = (o, f, r)) by (rewrite <- H; destruct a as [[] [] [] [] [] [] [] []]; try reflexivity; congruence).
  injection E as <- <- <-. auto.
Qed.
(** A blank or a digit. *)
Definition plain_start (s : string) : Prop := exists a r, s = String a r /\ (a = " "%char \/ is_dig a = true).
Lemma op_complete sign o r : In (sign, o) operators -> plain_start r -> parse_op (sign ++ r) = (o, false, r).
Proof.
  intros I (a & t & -> & A). cbn [operators In] in I.
  destruct I as [I|[I|[I|[I|[I|[I|[I|[]]]]]]]]; injection I as <- <-; try reflexivity;
    (destruct A as [->|A]; [reflexivity|]; revert a A; apply dig_case; reflexivity).
Qed.
Lemma op_none a r : is_dig a = true -> parse_op (String a r) = (OpCaret, true, String a r).
Proof. intros A. revert a A. apply dig_case; reflexivity. Qed.

(** ** After a number *)
Lemma dotted_sound s x r : dotted s = Some (x, r) ->
  match x with
  | None => r = s /\ stops (Ascii.eqb ".") s
  | Some (inl _) => exists w, wild w /\ s = "." ++ w ++ r
  | Some (inr n) => exists b, number n b /\ s = "." ++ b ++ r /\ stops is_dig r
  end.
Proof.
  destruct s as [|a s]; [intros [= <- <-]; cbn; auto|]. destruct (Ascii.ascii_dec a ".") as [->|N].
  - cbn [dotted]. destruct (wildcard s) as [r'|] eqn:W.
    + intros [= <- <-]. apply wildcard_iff in W as (w & W & ->). exists w. auto.
    + destruct (numeric_identifier s) as [[n r']|] eqn:M; [|discriminate]. intros [= <- <-].
      apply numeric_iff in M as (b & M & -> & S). exists b. auto.
  - intros H. assert (E : Some (None : option (unit + BinNums.N), String a s) = Some (x, r)) by (rewrite <- H; destruct a as [[] [] [] [] [] [] [] []]; try reflexivity; congruence).
    injection E as <- <-. split; [reflexivity|]. cbn [stops]. destruct (Ascii.eqb_spec "." a); [congruence|reflexivity].
Qed.
Lemma dotted_none s : stops (Ascii.eqb ".") s -> dotted s = Some (None, s).
Proof.
  destruct s as [|a s]; [reflexivity|]. cbn [stops]. intros H. destruct (Ascii.eqb_spec "." a) as [|N]; [discriminate|].
  destruct a as [[] [] [] [] [] [] [] []]; try reflexivity; congruence.
Qed.
Lemma dotted_wild w r : wild w -> dotted ("." ++ w ++ r) = Some (Some (inl tt), r).
Proof. intros W. cbn [String.append dotted]. rewrite (proj2 (wildcard_iff (w ++ r) r)); [reflexivity|eauto]. Qed.
Lemma dotted_number n b r : number n b -> stops is_dig r -> dotted ("." ++ b ++ r) = Some (Some (inr n), r).
Proof.
  intros B S. cbn [String.append dotted]. destruct (wildcard (b ++ r)) as [t|] eqn:W.
  - exfalso. destruct (number_first n b B) as (d & t' & -> & D). apply wildcard_iff in W as (w & W & E).
    destruct W as [<-|[<-|[<-|[]]]]; cbn in E; injection E as -> _; discriminate D.
  - rewrite (proj2 (numeric_iff (b ++ r) n r)); [reflexivity|eauto].
Qed.

(** ** The end of a full version *)
Lemma tail_sound s l r : parse_tail s = Some (l, r) ->
  exists t u bl, s = t ++ u ++ r /\ optional_list "-" ident_wf l t /\ optional_list "+" build_ident_wf bl u.
Proof.
  unfold parse_tail.
  set (after := match s with String "-" r => identifiers ident_wf r | _ => Some ([], s) end).
  assert (A : forall l' r', after = Some (l', r') -> exists t, s = t ++ r' /\ optional_list "-" ident_wf l' t).
  { intros l' r' E. unfold after in E. destruct s as [|a s]; [injection E as <- <-; exists ""; split; [reflexivity|constructor]|].
    destruct (Ascii.ascii_dec a "-") as [->|N].
    - apply identifiers_iff in E as (d & D & -> & _); [|exact ok_pre]. exists ("-" ++ d). split; [reflexivity|]. now constructor.
    - assert (E' : Some ([] : list string, String a s) = Some (l', r')) by (rewrite <- E; destruct a as [[] [] [] [] [] [] [] []]; try reflexivity; congruence).
      injection E' as <- <-. exists "". split; [reflexivity|constructor]. }
  clearbody after. destruct after as [[p r0]|]; [|discriminate]. destruct (A p r0 eq_refl) as (t & -> & T). clear A.
  destruct r0 as [|a r0].
  { intros [= <- <-]. exists t, "", []. split; [reflexivity|]. split; [exact T|constructor]. }
  destruct (Ascii.ascii_dec a "+") as [->|N].
  - destruct (identifiers build_ident_wf r0) as [[bl r1]|] eqn:E; [|discriminate]. intros [= <- <-].
    apply identifiers_iff in E as (d & D & -> & _); [|exact ok_build]. exists t, ("+" ++ d), bl. split; [reflexivity|]. split; [exact T|now constructor].
  - intros H. assert (E' : Some (p, String a r0) = Some (l, r)) by (rewrite <- H; destruct a as [[] [] [] [] [] [] [] []]; try reflexivity; congruence).
    injection E' as <- <-. exists t, "", []. split; [reflexivity|]. split; [exact T|constructor].
Qed.
(** What may follow a comparator. *)
Definition ends (s : string) : Prop := match s with EmptyString => True | String a _ => a = " "%char \/ a = ","%char end.
Lemma ends_stops s : ends s -> stops is_dig s /\ stops (Ascii.eqb ".") s /\ stops ident_or_dot s.
Proof. destruct s as [|a s]; [repeat split|]. intros [->| ->]; repeat split. Qed.
Lemma tail_complete l bl t u r : optional_list "-" ident_wf l t -> optional_list "+" build_ident_wf bl u -> ends r ->
  parse_tail (t ++ u ++ r) = Some (l, r).
Proof.
  intros T U E. destruct (ends_stops r E) as (_ & _ & S3). unfold parse_tail.
  assert (B : forall bl u, optional_list "+" build_ident_wf bl u -> forall p : list string,
    match u ++ r with
    | String "+" r' => match identifiers build_ident_wf r' with Some (_, r'') => Some (p, r'') | None => None end
    | _ => Some (p, u ++ r)
    end = Some (p, r)).
  { clear - E S3. intros bl u U p. destruct U as [|l s D].
    - cbn [String.append]. destruct r as [|a r]; [reflexivity|]. destruct E as [->| ->]; reflexivity.
    - cbn [String.append]. rewrite (proj2 (identifiers_iff build_ident_wf (s ++ r) l r ok_build)); [reflexivity|eauto]. }
  assert (SU : stops ident_or_dot (u ++ r)).
  { destruct U as [|l' s D]; [exact S3|reflexivity]. }
  assert (NM : forall a x, u ++ r = String a x -> a <> "-"%char).
  { destruct U as [|l' s D]; intros a x H; [|injection H as <- _; discriminate]. cbn in H. rewrite H in E. destruct E as [->| ->]; discriminate. }
  destruct T as [|l s D].
  - cbn [String.append]. specialize (B bl u U []). destruct (u ++ r) as [|a x]; [exact B|].
    specialize (NM a x eq_refl). destruct a as [[] [] [] [] [] [] [] []]; try exact B; congruence.
  - cbn [String.append]. rewrite (proj2 (identifiers_iff ident_wf (s ++ u ++ r) l (u ++ r) ok_pre)); [|eauto]. exact (B bl u U l).
Qed.
