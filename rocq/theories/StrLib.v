(** Byte strings and the string primitives of Rust's standard library used by the code:
    [str::split(char)], [starts_with], [ends_with], [strip_prefix], [strip_suffix], [find],
    [u32::from_str], decimal printing.  Strings are byte sequences (all separators are ASCII, so byte and
    char views agree). *)
From Coq Require Import List NArith Ascii String Bool Lia Arith.
From Verif Require Import Base.
Import ListNotations.
Local Open Scope string_scope.
Local Open Scope N_scope.
Local Infix "++" := String.append (right associativity, at level 60).

(** ** Prefixes and suffixes *)
(** [str::strip_prefix]. *)
Fixpoint strip_prefix (p s : string) : option string :=
  match p, s with
  | EmptyString, _ => Some s
  | String a p', String b s' => if Ascii.eqb a b then strip_prefix p' s' else None
  | String _ _, EmptyString => None
  end.
(** [str::starts_with]. *)
Definition starts_with (p s : string) : bool :=
  match strip_prefix p s with Some _ => true | None => false end.

Lemma strip_prefix_app p s : strip_prefix p (p ++ s) = Some s.
Proof. induction p as [|a p IH]; simpl; [reflexivity|]. rewrite Ascii.eqb_refl. exact IH. Qed.
Lemma strip_prefix_spec p s t : strip_prefix p s = Some t <-> s = p ++ t.
Proof.
  revert s. induction p as [|a p IH]; intros s; simpl.
  - split; [intros H; injection H as <-; reflexivity|intros ->; reflexivity].
  - destruct s as [|b s]; [split; discriminate|].
    destruct (Ascii.eqb_spec a b) as [->|n].
    + rewrite IH. split; [intros ->; reflexivity|intros H; injection H as ->; reflexivity].
    + split; [discriminate|]. intros H; injection H as E _. congruence.
Qed.
Lemma starts_with_spec p s : starts_with p s = true <-> exists t, s = p ++ t.
Proof.
  unfold starts_with. split.
  - destruct (strip_prefix p s) as [t|] eqn:E; [|discriminate]. apply strip_prefix_spec in E. eauto.
  - intros [t ->]. rewrite strip_prefix_app. reflexivity.
Qed.
Lemma starts_with_false p s : starts_with p s = false <-> ~ exists t, s = p ++ t.
Proof. rewrite <- starts_with_spec. destruct (starts_with p s); split; congruence. Qed.

Lemma sapp_nil_r s : s ++ "" = s.
Proof. induction s as [|a s IH]; simpl; [reflexivity|]. rewrite IH. reflexivity. Qed.
Lemma sapp_assoc a b c : (a ++ b) ++ c = a ++ (b ++ c).
Proof. induction a as [|x a IH]; simpl; [reflexivity|]. rewrite IH. reflexivity. Qed.
Lemma slength_app a b : String.length (a ++ b) = (String.length a + String.length b)%nat.
Proof. induction a as [|x a IH]; simpl; [reflexivity|]. rewrite IH. reflexivity. Qed.
Lemma sapp_inj_l p a b : p ++ a = p ++ b -> a = b.
Proof. induction p as [|x p IH]; simpl; intros H; [exact H|]. injection H as H. auto. Qed.

(** ** Characters in a string *)
Fixpoint str_forall (P : ascii -> bool) (s : string) : bool :=
  match s with EmptyString => true | String a r => P a && str_forall P r end.
Fixpoint has_char (c : ascii) (s : string) : bool :=
  match s with EmptyString => false | String a r => Ascii.eqb a c || has_char c r end.
Lemma has_char_app c a b : has_char c (a ++ b) = has_char c a || has_char c b.
Proof. induction a as [|x a IH]; simpl; [reflexivity|]. rewrite IH. apply orb_assoc. Qed.
Lemma str_forall_app P a b : str_forall P (a ++ b) = str_forall P a && str_forall P b.
Proof. induction a as [|x a IH]; simpl; [reflexivity|]. rewrite IH. apply andb_assoc. Qed.
Lemma str_forall_has P c s : str_forall P s = true -> P c = false -> has_char c s = false.
Proof.
  induction s as [|x s IH]; simpl; [reflexivity|]. intros H Hc. apply andb_prop in H as [H1 H2].
  rewrite (IH H2 Hc), orb_false_r. destruct (Ascii.eqb_spec x c); [congruence|reflexivity].
Qed.

(** ** [str::split(char)] *)
Fixpoint split_on (c : ascii) (s : string) : list string :=
  match s with
  | EmptyString => [""]
  | String a r =>
      if Ascii.eqb a c then "" :: split_on c r
      else match split_on c r with
           | [] => [String a ""]
           | h :: t => String a h :: t
           end
  end.
Fixpoint join_on (c : ascii) (l : list string) : string :=
  match l with
  | [] => ""
  | [x] => x
  | x :: r => x ++ String c (join_on c r)
  end.

Lemma split_on_nonempty c s : split_on c s <> [].
Proof.
  destruct s as [|a s]; simpl; [discriminate|]. destruct (Ascii.eqb a c); [discriminate|].
  destruct (split_on c s); discriminate.
Qed.
Lemma split_on_nochar c s : has_char c s = false -> split_on c s = [s].
Proof.
  induction s as [|a s IH]; simpl; [reflexivity|]. intros H. apply orb_false_iff in H as [H1 H2].
  rewrite H1, (IH H2). reflexivity.
Qed.
Lemma split_on_app c a b : has_char c a = false -> split_on c (a ++ String c b) = a :: split_on c b.
Proof.
  induction a as [|x a IH]; simpl.
  - rewrite Ascii.eqb_refl. reflexivity.
  - intros H. apply orb_false_iff in H as [H1 H2]. rewrite H1, (IH H2). reflexivity.
Qed.
Lemma join_cons2 c x y r : join_on c (x :: y :: r) = x ++ String c (join_on c (y :: r)).
Proof. reflexivity. Qed.
Lemma join_split c s : join_on c (split_on c s) = s.
Proof.
  induction s as [|a s IH]; simpl; [reflexivity|].
  pose proof (split_on_nonempty c s) as N.
  destruct (Ascii.eqb_spec a c) as [->|n].
  - destruct (split_on c s) as [|h t]; [congruence|]. rewrite join_cons2, IH. reflexivity.
  - destruct (split_on c s) as [|h t]; [congruence|]. destruct t; simpl in *; congruence.
Qed.
Lemma split_on_parts c s x : In x (split_on c s) -> has_char c x = false.
Proof.
  revert x. induction s as [|a s IH]; simpl; intros x.
  - intros [<-|[]]. reflexivity.
  - destruct (Ascii.eqb a c) eqn:E.
    + intros [<-|H]; [reflexivity|auto].
    + pose proof (split_on_nonempty c s) as N. destruct (split_on c s) as [|h t]; [congruence|].
      intros [<-|H]; [|apply IH; right; exact H]. simpl. rewrite E, (IH h); [reflexivity|left; reflexivity].
Qed.
Lemma split_join c l : l <> [] -> (forall x, In x l -> has_char c x = false) -> split_on c (join_on c l) = l.
Proof.
  induction l as [|x l IH]; [congruence|]. intros _ H. destruct l as [|y l].
  - simpl. apply split_on_nochar. apply H. left; reflexivity.
  - rewrite join_cons2, split_on_app by (apply H; left; reflexivity). f_equal. apply IH; [discriminate|].
    intros z Hz. apply H. right. exact Hz.
Qed.
Lemma split_on_inj c a b : split_on c a = split_on c b -> a = b.
Proof. intros H. rewrite <- (join_split c a), <- (join_split c b), H. reflexivity. Qed.

(** ** Decimal numbers *)
Definition digit_of (a : ascii) : option N :=
  let n := N_of_ascii a in if (48 <=? n) && (n <=? 57) then Some (n - 48) else None.
Definition is_dig (a : ascii) : bool := match digit_of a with Some _ => true | None => false end.
Definition digit_char (d : N) : ascii := ascii_of_N (48 + d).
Fixpoint dec_val (acc : N) (s : string) : option N :=
  match s with
  | EmptyString => Some acc
  | String a r => match digit_of a with Some d => dec_val (acc * 10 + d) r | None => None end
  end.
(** Unsigned decimal digits, at least one. *)
Definition parse_dec (s : string) : option N :=
  match s with EmptyString => None | _ => dec_val 0 s end.
(** [uN::from_str] for an unsigned type with maximum [max]: an optional [+] before at least one digit,
    error on overflow (core::num, [from_str_radix]). *)
Definition parse_uint (max : N) (s : string) : option N :=
  let body := match s with String "+" (String _ _ as r) => r | _ => s end in
  match parse_dec body with
  | Some n => if n <=? max then Some n else None
  | None => None
  end.
Definition u32_max : N := 4294967295.
Definition parse_u32 (s : string) : option N := parse_uint u32_max s.

(** Decimal printing ([Display] of unsigned integers). *)
Fixpoint print_fuel (f : nat) (n : N) (acc : string) : string :=
  match f with
  | O => acc
  | S f' =>
      let acc' := String (digit_char (n mod 10)) acc in
      if n / 10 =? 0 then acc' else print_fuel f' (n / 10) acc'
  end.
Definition print_dec (n : N) : string := print_fuel (S (N.to_nat (N.size n))) n "".

Lemma digit_of_char d : d < 10 -> digit_of (digit_char d) = Some d.
Proof.
  intros H. unfold digit_of, digit_char. rewrite N_ascii_embedding by lia.
  destruct (N.leb_spec 48 (48 + d)); [|lia]. destruct (N.leb_spec (48 + d) 57); [|lia]. cbn [andb]. f_equal. lia.
Qed.
Lemma digit_of_lt a d : digit_of a = Some d -> d < 10.
Proof.
  unfold digit_of. destruct (N.leb_spec 48 (N_of_ascii a)); [|discriminate].
  destruct (N.leb_spec (N_of_ascii a) 57); [|discriminate]. cbn [andb]. intros E; injection E as <-. lia.
Qed.
Lemma digit_char_of a d : digit_of a = Some d -> digit_char d = a.
Proof.
  unfold digit_of, digit_char. destruct (N.leb_spec 48 (N_of_ascii a)); [|discriminate].
  destruct (N.leb_spec (N_of_ascii a) 57); [|discriminate]. cbn [andb]. intros E; injection E as <-.
  replace (48 + (N_of_ascii a - 48)) with (N_of_ascii a) by lia. apply ascii_N_embedding.
Qed.

Lemma dec_val_app acc a b : dec_val acc (a ++ b) =
  match dec_val acc a with Some x => dec_val x b | None => None end.
Proof.
  revert acc. induction a as [|x a IH]; intros acc; simpl; [reflexivity|].
  destruct (digit_of x); [apply IH|reflexivity].
Qed.

Lemma print_fuel_acc f n acc : print_fuel f n acc = print_fuel f n "" ++ acc.
Proof.
  revert n acc. induction f as [|f IH]; intros n acc; simpl; [reflexivity|].
  destruct (n / 10 =? 0); [reflexivity|].
  rewrite (IH (n / 10) (String (digit_char (n mod 10)) acc)), (IH (n / 10) (String (digit_char (n mod 10)) "")).
  rewrite sapp_assoc. reflexivity.
Qed.
Lemma print_fuel_S f n acc : print_fuel (S f) n acc =
  if n / 10 =? 0 then String (digit_char (n mod 10)) acc
  else print_fuel f (n / 10) (String (digit_char (n mod 10)) acc).
Proof. reflexivity. Qed.
Lemma print_fuel_val f n : n < 2 ^ N.of_nat f -> dec_val 0 (print_fuel (S f) n "") = Some n.
Proof.
  revert n. induction f as [|f IH]; intros n H.
  - assert (n = 0) as -> by (simpl in H; lia). reflexivity.
  - rewrite print_fuel_S. destruct (N.eqb_spec (n / 10) 0) as [E|E].
    + cbn [dec_val]. rewrite digit_of_char by (apply N.mod_lt; lia).
      f_equal. pose proof (N.div_mod' n 10). lia.
    + rewrite print_fuel_acc, dec_val_app.
      rewrite IH.
      * cbn [dec_val]. rewrite digit_of_char by (apply N.mod_lt; lia).
        f_equal. pose proof (N.div_mod' n 10). lia.
      * rewrite Nat2N.inj_succ, N.pow_succ_r' in H.
        pose proof (N.div_mod' n 10). apply N.div_lt_upper_bound; lia.
Qed.
Lemma print_dec_val n : dec_val 0 (print_dec n) = Some n.
Proof.
  unfold print_dec. apply print_fuel_val. rewrite N2Nat.id. apply N.size_gt.
Qed.
Lemma print_dec_nonempty n : print_dec n <> "".
Proof.
  unfold print_dec. cbn [print_fuel]. destruct (n / 10 =? 0); [discriminate|].
  rewrite print_fuel_acc. destruct (print_fuel (N.to_nat (N.size n)) (n / 10) ""); discriminate.
Qed.
Lemma parse_print_dec n : parse_dec (print_dec n) = Some n.
Proof.
  unfold parse_dec. pose proof (print_dec_nonempty n). destruct (print_dec n) eqn:E; [congruence|].
  rewrite <- E. apply print_dec_val.
Qed.
Lemma dec_val_digits acc s n : dec_val acc s = Some n -> str_forall is_dig s = true.
Proof.
  revert acc. induction s as [|a s IH]; intros acc; simpl; [reflexivity|].
  unfold is_dig at 1. destruct (digit_of a); [|discriminate]. apply IH.
Qed.
Lemma digits_dec_val s : str_forall is_dig s = true -> forall acc, exists n, dec_val acc s = Some n.
Proof.
  induction s as [|a s IH]; simpl; intros H acc; [eauto|].
  apply andb_prop in H as [H1 H2]. unfold is_dig in H1. destruct (digit_of a); [|discriminate]. auto.
Qed.
Lemma print_dec_digits n : str_forall is_dig (print_dec n) = true.
Proof. eapply dec_val_digits. apply print_dec_val. Qed.
Lemma parse_uint_print max n : n <= max -> parse_uint max (print_dec n) = Some n.
Proof.
  intros H. unfold parse_uint.
  pose proof (print_dec_digits n) as D. pose proof (print_dec_nonempty n) as NE.
  pose proof (parse_print_dec n) as P.
  destruct (print_dec n) as [|a r] eqn:E; [congruence|].
  assert (a <> "+"%char) as Ha.
  { intros ->. simpl in D. discriminate. }
  assert (match String a r with String "+" (String _ _ as r0) => r0 | _ => String a r end = String a r) as ->.
  { destruct a as [[] [] [] [] [] [] [] []]; try reflexivity. exfalso. apply Ha. reflexivity. }
  rewrite P. destruct (N.leb_spec n max); [reflexivity|lia].
Qed.
Lemma parse_uint_nochar max s n c : parse_uint max s = Some n -> is_dig c = false -> c <> "+"%char ->
  has_char c s = false.
Proof.
  unfold parse_uint. intros H Hc Hp.
  assert (K : forall b x, parse_dec b = Some x -> has_char c b = false).
  { intros b x Hb. destruct b; [reflexivity|]. unfold parse_dec in Hb. apply dec_val_digits in Hb.
    eapply str_forall_has; eauto. }
  destruct (parse_dec (match s with String "+" (String _ _ as r) => r | _ => s end)) as [x|] eqn:E; [|discriminate].
  apply K in E. destruct s as [|a r]; [reflexivity|].
  destruct (Ascii.eqb_spec a "+") as [->|n0].
  - destruct r; [exact E|]. cbn [has_char] in *. destruct (Ascii.eqb_spec "+" c); [congruence|]. exact E.
  - assert (match String a r with String "+" (String _ _ as r0) => r0 | _ => String a r end = String a r) as EE.
    { destruct a as [[] [] [] [] [] [] [] []]; try reflexivity. exfalso. apply n0. reflexivity. }
    rewrite EE in E. exact E.
Qed.
Lemma parse_uint_le max s n : parse_uint max s = Some n -> n <= max.
Proof.
  unfold parse_uint. destruct (parse_dec _) as [x|]; [|discriminate].
  destruct (N.leb_spec x max); [|discriminate]. intros E; injection E as <-. assumption.
Qed.

(** ** Suffixes and search *)
Fixpoint srev_app (s acc : string) : string :=
  match s with EmptyString => acc | String a r => srev_app r (String a acc) end.
Definition srev (s : string) : string := srev_app s "".
(** [str::strip_suffix]. *)
Definition strip_suffix (p s : string) : option string :=
  match strip_prefix (srev p) (srev s) with Some r => Some (srev r) | None => None end.
Definition ends_with (p s : string) : bool :=
  match strip_suffix p s with Some _ => true | None => false end.
Lemma srev_app_spec s acc : srev_app s acc = srev s ++ acc.
Proof.
  revert acc. unfold srev. induction s as [|a s IH]; intros acc; simpl; [reflexivity|].
  rewrite IH, (IH (String a "")), sapp_assoc. reflexivity.
Qed.
Lemma srev_cons a s : srev (String a s) = srev s ++ String a "".
Proof. unfold srev. simpl. apply srev_app_spec. Qed.
Lemma srev_sapp a b : srev (a ++ b) = srev b ++ srev a.
Proof.
  induction a as [|x a IH]; simpl; [rewrite sapp_nil_r; reflexivity|].
  rewrite !srev_cons, IH, sapp_assoc. reflexivity.
Qed.
Lemma srev_involutive s : srev (srev s) = s.
Proof. induction s as [|a s IH]; [reflexivity|]. rewrite srev_cons, srev_sapp, IH. reflexivity. Qed.
Lemma strip_suffix_spec p s t : strip_suffix p s = Some t <-> s = t ++ p.
Proof.
  unfold strip_suffix. destruct (strip_prefix (srev p) (srev s)) as [r|] eqn:E.
  - apply strip_prefix_spec in E. split.
    + intros H; injection H as <-. rewrite <- (srev_involutive s), E, srev_sapp, srev_involutive. reflexivity.
    + intros ->. rewrite srev_sapp in E. apply sapp_inj_l in E. rewrite <- E, srev_involutive. reflexivity.
  - split; [discriminate|]. intros ->. rewrite srev_sapp, strip_prefix_app in E. discriminate.
Qed.
Lemma ends_with_spec p s : ends_with p s = true <-> exists t, s = t ++ p.
Proof.
  unfold ends_with. split.
  - destruct (strip_suffix p s) as [t|] eqn:E; [|discriminate]. apply strip_suffix_spec in E. eauto.
  - intros [t ->]. destruct (strip_suffix p (t ++ p)) eqn:E; [reflexivity|].
    assert (strip_suffix p (t ++ p) = Some t) by (apply strip_suffix_spec; reflexivity). congruence.
Qed.

(** [str::contains(&str)]. *)
Fixpoint contains (p s : string) : bool :=
  starts_with p s || match s with EmptyString => false | String _ r => contains p r end.
Lemma contains_spec p s : contains p s = true <-> exists a b, s = a ++ p ++ b.
Proof.
  induction s as [|x s IH]; cbn [contains]; rewrite orb_true_iff, starts_with_spec.
  - split.
    + intros [[t E]|?]; [|discriminate]. exists "", t. exact E.
    + intros (a & b & E). left. destruct a; [eauto|discriminate].
  - rewrite IH. split.
    + intros [[t E]|(a & b & ->)]; [exists "", t; exact E|exists (String x a), b; reflexivity].
    + intros (a & b & E). destruct a as [|y a]; [left; eauto|right].
      injection E as -> ->. eauto.
Qed.

(** [str::split_once(char)]. *)
Fixpoint split_once (c : ascii) (s : string) : option (string * string) :=
  match s with
  | EmptyString => None
  | String a r =>
      if Ascii.eqb a c then Some ("", r)
      else match split_once c r with Some (x, y) => Some (String a x, y) | None => None end
  end.
Lemma split_once_spec c s a b : split_once c s = Some (a, b) <-> s = a ++ String c b /\ has_char c a = false.
Proof.
  revert a b. induction s as [|x s IH]; intros a b; simpl.
  - split; [discriminate|]. intros [H _]. destruct a; discriminate.
  - destruct (Ascii.eqb_spec x c) as [->|n].
    + split.
      * intros H; injection H as <- <-. split; reflexivity.
      * intros [H Hc]. destruct a as [|y a]; simpl in *; [injection H as ->; reflexivity|].
        injection H as -> _. rewrite Ascii.eqb_refl in Hc. discriminate.
    + destruct (split_once c s) as [[u v]|] eqn:E.
      * split.
        -- intros H; injection H as <- <-. destruct (proj1 (IH u v) eq_refl) as [-> Hc].
           split; [reflexivity|]. simpl. destruct (Ascii.eqb_spec x c); [contradiction|exact Hc].
        -- intros [H Hc]. destruct a as [|y a]; simpl in *; [injection H as -> _; contradiction|].
           injection H as -> H. apply orb_false_iff in Hc as [_ Hc].
           assert (Some (u, v) = Some (a, b)) as E2 by (apply IH; auto). injection E2 as -> ->. reflexivity.
      * split; [discriminate|]. intros [H Hc]. destruct a as [|y a]; simpl in *; [injection H as -> _; contradiction|].
        injection H as -> H. apply orb_false_iff in Hc as [_ Hc].
        assert (@None (string * string) = Some (a, b)) by (apply IH; auto). discriminate.
Qed.
Lemma split_once_none c s : split_once c s = None <-> has_char c s = false.
Proof.
  induction s as [|x s IH]; simpl; [tauto|].
  destruct (Ascii.eqb x c); simpl; [split; discriminate|].
  destruct (split_once c s) as [[u v]|]; [|exact IH].
  split; [discriminate|]. intros H. apply IH in H. discriminate.
Qed.

Lemma sapp_inj_r a b p : a ++ p = b ++ p -> a = b.
Proof.
  intros H. assert (E : strip_suffix p (a ++ p) = strip_suffix p (b ++ p)) by (rewrite H; reflexivity).
  rewrite (proj2 (strip_suffix_spec p (a ++ p) a) eq_refl), (proj2 (strip_suffix_spec p (b ++ p) b) eq_refl) in E.
  congruence.
Qed.
