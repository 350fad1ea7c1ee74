(** Text form of versions: [semver::Version]'s [Display] and [FromStr] (external crate semver 1.0,
    /repo/Cargo.toml:39; its source is not in /repo, so the two definitions are part of the trusted base). *)
From Coq Require Import List NArith Ascii String Bool Lia Arith.
From Verif Require Import Base SemverModel SemverFacts StrLib IdModel IdSpec IdProofs.
Import ListNotations.
Local Open Scope string_scope.
Local Open Scope N_scope.
Local Infix "++" := String.append (right associativity, at level 60).

(** [Display for Version]: major.minor.patch[-pre][+build]. *)
Definition print_version (v : version) : string :=
  print_dec (major v) ++ "." ++ print_dec (minor v) ++ "." ++ print_dec (patch v)
  ++ match pre v with [] => "" | p => "-" ++ join_on "." p end
  ++ match build v with [] => "" | b => "+" ++ join_on "." b end.

(** [numeric_identifier]: decimal digits without leading zero, at most u64::MAX. *)
Definition parse_numeric (s : string) : option N :=
  match parse_dec s with
  | Some n =>
      if match s with String "0" (String _ _) => false | _ => true end && (n <=? u64_max) then Some n else None
  | None => None
  end.
Definition parse_idents (ok : string -> bool) (s : option string) : option (list string) :=
  match s with
  | None => Some []
  | Some t => let l := split_on "." t in if forallb ok l then Some l else None
  end.
(** [FromStr for Version]. *)
Definition parse_version (s : string) : option version :=
  let (main, b) := match split_once "+" s with Some (m, b) => (m, Some b) | None => (s, None) end in
  let (num, p) := match split_once "-" main with Some (m, p) => (m, Some p) | None => (main, None) end in
  match split_on "." num with
  | [x; y; z] =>
      match parse_numeric x, parse_numeric y, parse_numeric z, parse_idents ident_wf p, parse_idents build_ident_wf b with
      | Some ma, Some mi, Some pa, Some pl, Some bl => Some (mkVersion ma mi pa pl bl)
      | _, _, _, _, _ => None
      end
  | _ => None
  end.

(** ** Canonical decimals *)
Definition no_leading_zero (s : string) : bool := match s with String "0" (String _ _) => false | _ => true end.

Lemma parse_numeric_eq s : parse_numeric s =
  match parse_dec s with
  | Some n => if no_leading_zero s && (n <=? u64_max) then Some n else None
  | None => None end.
Proof. reflexivity. Qed.
Lemma nlz_cons a r : no_leading_zero (String a r) = true <-> a <> "0"%char \/ r = "".
Proof.
  unfold no_leading_zero. destruct (Ascii.eqb_spec a "0") as [->|n].
  - destruct r; split; try discriminate; auto. intros [C|C]; [congruence|discriminate].
  - split; [auto|]. intros _. destruct a as [[] [] [] [] [] [] [] []]; try reflexivity. exfalso. apply n. reflexivity.
Qed.

Lemma value_ge a r : is_dig a = true -> a <> "0"%char -> str_forall is_dig r = true ->
  10 ^ N.of_nat (String.length r) <= value (String a r).
Proof.
  intros Ha Hz Hr. unfold value. cbn [value_from]. rewrite value_from_acc.
  unfold is_dig in Ha. destruct (digit_of a) as [d|] eqn:E; [|discriminate].
  assert (d <> 0) as Hd. { intros ->. apply digit_char_of in E. vm_compute in E. congruence. }
  assert (D : N_of_ascii a - 48 = d).
  { unfold digit_of in E. destruct ((48 <=? N_of_ascii a) && (N_of_ascii a <=? 57))%bool; congruence. }
  cbv beta. rewrite ?D. set (k := 10 ^ N.of_nat (String.length r)).
  assert (0 < k) by (unfold k; apply N.neq_0_lt_0, N.pow_nonzero; lia). nia.
Qed.

Lemma canonical_inj a b : digits a -> digits b -> no_leading_zero a = true -> no_leading_zero b = true ->
  value a = value b -> a = b.
Proof.
  intros [Ha1 Ha2] [Hb1 Hb2] Za Zb V.
  assert (K : forall a b, a <> "" -> b <> "" -> str_forall is_dig a = true -> str_forall is_dig b = true ->
     no_leading_zero a = true -> no_leading_zero b = true -> value a = value b ->
     (String.length a <= String.length b)%nat).
  { clear. intros a b Na Nb Ha Hb Za Zb V. destruct (Nat.le_gt_cases (String.length a) (String.length b)); [assumption|].
    exfalso. destruct a as [|x a]; [congruence|]. apply nlz_cons in Za.
    cbn in Ha. apply andb_prop in Ha as [Hx Ha]. destruct Za as [Hz| ->].
    - pose proof (value_ge x a Hx Hz Ha). pose proof (value_lt b Hb). rewrite V in H0. cbn in H.
      assert (10 ^ N.of_nat (String.length b) <= 10 ^ N.of_nat (String.length a)) by (apply N.pow_le_mono_r; lia). lia.
    - cbn in H. destruct b; [congruence|]. cbn in H. lia. }
  apply value_inj; auto. apply Nat.le_antisymm; eapply K; eauto.
Qed.

Lemma print_fuel_nlz f : forall n, n <> 0 -> (n < 2 ^ N.of_nat f) ->
  exists a r, print_fuel f n "" = String a r /\ a <> "0"%char.
Proof.
  induction f as [|f IH]; intros n Hn Hf; [change (N.of_nat 0) with 0 in Hf; rewrite N.pow_0_r in Hf; lia|].
  rewrite print_fuel_S. destruct (N.eqb_spec (n / 10) 0) as [E|E].
  - exists (digit_char (n mod 10)), "". split; [reflexivity|]. intros C.
    assert (n mod 10 < 10) by (apply N.mod_lt; lia).
    pose proof (digit_of_char (n mod 10) H) as D. rewrite C in D. change (Some 0 = Some (n mod 10)) in D.
    assert (D' : 0 = n mod 10) by congruence. pose proof (N.div_mod' n 10) as M. rewrite E, <- D' in M. lia.
  - rewrite print_fuel_acc. destruct (IH (n / 10)) as (a & r & -> & Ha); [exact E| |eauto].
    + rewrite Nat2N.inj_succ, N.pow_succ_r' in Hf. apply N.div_lt_upper_bound; lia.
    + exists a, (r ++ String (digit_char (n mod 10)) ""). split; [reflexivity|exact Ha].
Qed.
Lemma print_dec_nlz n : no_leading_zero (print_dec n) = true.
Proof.
  destruct (N.eq_dec n 0) as [->|Hn]; [reflexivity|].
  unfold print_dec. destruct (print_fuel_nlz (S (N.to_nat (N.size n))) n Hn) as (a & r & E & Ha).
  - rewrite Nat2N.inj_succ, N2Nat.id, N.pow_succ_r'. pose proof (N.size_gt n). lia.
  - rewrite E. apply nlz_cons. auto.
Qed.
Lemma print_dec_is_digits n : digits (print_dec n).
Proof. split; [apply print_dec_nonempty|apply print_dec_digits]. Qed.
Lemma print_dec_value n : value (print_dec n) = n.
Proof. apply parse_dec_iff. apply parse_print_dec. Qed.

Lemma parse_numeric_print n : n <= u64_max -> parse_numeric (print_dec n) = Some n.
Proof.
  intros H. rewrite parse_numeric_eq, parse_print_dec, print_dec_nlz. apply N.leb_le in H. rewrite H. reflexivity.
Qed.
Lemma parse_numeric_inv s n : parse_numeric s = Some n -> s = print_dec n /\ n <= u64_max.
Proof.
  rewrite parse_numeric_eq. destruct (parse_dec s) as [m|] eqn:E; [|discriminate].
  destruct (no_leading_zero s) eqn:Z; [|discriminate]. cbn [andb]. destruct (N.leb_spec m u64_max); [|discriminate].
  intros H'; injection H' as <-. split; [|assumption].
  apply parse_dec_iff in E as [D V]. apply canonical_inj; auto using print_dec_is_digits, print_dec_nlz.
  rewrite print_dec_value. exact V.
Qed.

(** ** Identifiers *)
Lemma str_forallb_forall P s : str_forallb P s = str_forall P s.
Proof. induction s as [|a s IH]; cbn; [reflexivity|]. rewrite IH. reflexivity. Qed.
Lemma ident_char_no s c : str_forall is_ident_char s = true -> is_ident_char c = false -> has_char c s = false.
Proof. apply str_forall_has. Qed.
Lemma build_ident_chars s : build_ident_wf s = true -> str_forall is_ident_char s = true.
Proof. unfold build_ident_wf. rewrite str_forallb_forall. intros H. apply andb_prop in H as [_ H]. exact H. Qed.
Lemma ident_chars s : ident_wf s = true -> str_forall is_ident_char s = true.
Proof.
  unfold ident_wf. rewrite str_forallb_forall. intros H. apply andb_prop in H as [H _].
  apply andb_prop in H as [_ H]. exact H.
Qed.
Lemma join_no c d l : Ascii.eqb d c = false -> (forall x, In x l -> has_char c x = false) -> has_char c (join_on d l) = false.
Proof.
  intros Hd. induction l as [|x l IH]; intros H; [reflexivity|].
  destruct l as [|y l]; [apply H; left; reflexivity|]. rewrite join_cons2, has_char_app. cbn [has_char].
  rewrite Hd, IH; [rewrite (H x); [reflexivity|left; reflexivity]|]. intros z Hz. apply H. right. exact Hz.
Qed.
Lemma forallb_In {A} (f : A -> bool) l : forallb f l = true -> forall x, In x l -> f x = true.
Proof. intros H. apply forallb_forall. exact H. Qed.

Lemma digits_no n c : is_dig c = false -> has_char c (print_dec n) = false.
Proof. intros H. eapply str_forall_has; [apply print_dec_digits|exact H]. Qed.

Lemma parse_idents_join ok l : (forall x, ok x = true -> has_char "." x = false) -> l <> [] -> forallb ok l = true ->
  parse_idents ok (Some (join_on "." l)) = Some l.
Proof.
  intros Hd Hn Hf. unfold parse_idents. rewrite split_join; [rewrite Hf; reflexivity|exact Hn|].
  intros x Hx. apply Hd. eapply forallb_In; eauto.
Qed.

Lemma split_once_app c a b : has_char c a = false -> split_once c (a ++ String c b) = Some (a, b).
Proof. intros H. apply split_once_spec. auto. Qed.

Lemma version_wf_iff v : version_wf v = true <->
  major v <= u64_max /\ minor v <= u64_max /\ patch v <= u64_max /\ forallb ident_wf (pre v) = true /\ forallb build_ident_wf (build v) = true.
Proof. unfold version_wf. rewrite !andb_true_iff, !N.leb_le. tauto. Qed.

Lemma print_main v : exists main,
  print_version v = main ++ match build v with [] => "" | b => "+" ++ join_on "." b end /\
  main = (print_dec (major v) ++ "." ++ print_dec (minor v) ++ "." ++ print_dec (patch v))
         ++ match pre v with [] => "" | p => "-" ++ join_on "." p end.
Proof. eexists. split; [|reflexivity]. unfold print_version. rewrite !sapp_assoc. reflexivity. Qed.

Theorem parse_print_version v : version_wf v = true -> parse_version (print_version v) = Some v.
Proof.
  intros W. apply version_wf_iff in W as (W1 & W2 & W3 & W4 & W5).
  destruct (print_main v) as (main & -> & Em).
  set (num := print_dec (major v) ++ "." ++ print_dec (minor v) ++ "." ++ print_dec (patch v)) in *.
  assert (Nd : forall c, is_dig c = false -> c <> "."%char -> has_char c num = false).
  { intros c Hc Hd. unfold num. cbn [String.append]. repeat (rewrite has_char_app; cbn [has_char]).
    rewrite !digits_no by exact Hc. destruct (Ascii.eqb_spec "." c); [congruence|reflexivity]. }
  assert (Pp : has_char "+" main = false).
  { rewrite Em, has_char_app, Nd by (reflexivity || discriminate). destruct (pre v) as [|x l] eqn:E; [reflexivity|].
    change ("-" ++ join_on "." (x :: l)) with (String "-" (join_on "." (x :: l))).
    change (has_char "+" (join_on "." (x :: l)) = false).
    apply join_no; [reflexivity|]. intros y Hy. eapply ident_char_no; [|reflexivity]. apply ident_chars. eapply forallb_In; eauto. }
  assert (Split : split_on "." num = [print_dec (major v); print_dec (minor v); print_dec (patch v)]).
  { unfold num. cbn [String.append]. rewrite split_on_app by (apply digits_no; reflexivity). f_equal.
    rewrite split_on_app by (apply digits_no; reflexivity). f_equal. apply split_on_nochar. apply digits_no. reflexivity. }
  assert (Sp : split_once "+" (main ++ match build v with [] => "" | b => "+" ++ join_on "." b end) =
    match build v with [] => None | b => Some (main, join_on "." b) end).
  { destruct (build v) as [|x l]; [rewrite sapp_nil_r; apply split_once_none; exact Pp|].
    apply split_once_app. exact Pp. }
  assert (Sm : split_once "-" main = match pre v with [] => None | p => Some (num, join_on "." p) end).
  { rewrite Em. destruct (pre v) as [|x l]; [rewrite sapp_nil_r; apply split_once_none; apply Nd; [reflexivity|discriminate]|].
    apply split_once_app. apply Nd; [reflexivity|discriminate]. }
  assert (Ip : parse_idents ident_wf (match pre v with [] => None | p => Some (join_on "." p) end) = Some (pre v)).
  { destruct (pre v) as [|x l] eqn:E; [reflexivity|]. apply parse_idents_join; [|discriminate|exact W4].
    intros y Hy. eapply ident_char_no; [apply ident_chars; exact Hy|reflexivity]. }
  assert (Ib : parse_idents build_ident_wf (match build v with [] => None | p => Some (join_on "." p) end) = Some (build v)).
  { destruct (build v) as [|x l] eqn:E; [reflexivity|]. apply parse_idents_join; [|discriminate|exact W5].
    intros y Hy. eapply ident_char_no; [apply build_ident_chars; exact Hy|reflexivity]. }
  unfold parse_version. rewrite Sp.
  assert (Fin : forall b, parse_idents build_ident_wf b = Some (build v) ->
    (let (n0, p) := match split_once "-" main with Some (m, p) => (m, Some p) | None => (main, None) end in
     match split_on "." n0 with
     | [x; y; z] =>
      match parse_numeric x, parse_numeric y, parse_numeric z, parse_idents ident_wf p, parse_idents build_ident_wf b with
      | Some ma, Some mi, Some pa, Some pl, Some bl => Some (mkVersion ma mi pa pl bl)
      | _, _, _, _, _ => None
      end
     | _ => None end) = Some v).
  { intros b Hb. rewrite Sm, Hb.
    assert (Q : match pre v with [] => main = num | _ => True end).
    { destruct (pre v) eqn:E; [|exact I]. rewrite Em. apply sapp_nil_r. }
    destruct (pre v) as [|x l] eqn:E.
    - rewrite Q, Split, !parse_numeric_print by assumption. cbn. rewrite <- E. destruct v; reflexivity.
    - rewrite Split, !parse_numeric_print by assumption. rewrite Ip. rewrite <- E. destruct v; reflexivity. }
  destruct (build v) as [|x l] eqn:E; cbv iota beta.
  - rewrite sapp_nil_r. apply (Fin None). reflexivity.
  - apply Fin. exact Ib.
Qed.

Lemma parse_idents_inv ok t l : parse_idents ok t = Some l -> forallb ok l = true /\ 
  match t with None => l = [] | Some u => l <> [] /\ join_on "." l = u end.
Proof.
  unfold parse_idents. destruct t as [u|]; [|intros H; injection H as <-; split; reflexivity].
  cbv zeta. destruct (forallb ok (split_on "." u)) eqn:F; [|discriminate]. intros H; injection H as <-.
  split; [exact F|]. split; [apply split_on_nonempty|apply join_split].
Qed.

Theorem parse_version_inv s v : parse_version s = Some v -> version_wf v = true /\ print_version v = s.
Proof.
  unfold parse_version.
  destruct (match split_once "+" s with Some (m, b) => (m, Some b) | None => (s, None) end) as [main b] eqn:Eb.
  destruct (match split_once "-" main with Some (m, p) => (m, Some p) | None => (main, None) end) as [num p] eqn:Ep.
  destruct (split_on "." num) as [|x [|y [|z [|? ?]]]] eqn:En; try discriminate.
  destruct (parse_numeric x) as [ma|] eqn:Ex; [|discriminate].
  destruct (parse_numeric y) as [mi|] eqn:Ey; [|discriminate].
  destruct (parse_numeric z) as [pa|] eqn:Ez; [|discriminate].
  destruct (parse_idents ident_wf p) as [pl|] eqn:Epl; [|discriminate].
  destruct (parse_idents build_ident_wf b) as [bl|] eqn:Ebl; [|discriminate].
  intros H; injection H as <-.
  apply parse_numeric_inv in Ex as [-> Lx]. apply parse_numeric_inv in Ey as [-> Ly]. apply parse_numeric_inv in Ez as [-> Lz].
  apply parse_idents_inv in Epl as [Wp Jp]. apply parse_idents_inv in Ebl as [Wb Jb].
  split; [apply version_wf_iff; cbn; auto|].
  assert (Num : num = print_dec ma ++ "." ++ print_dec mi ++ "." ++ print_dec pa).
  { rewrite <- (join_split "." num), En. reflexivity. }
  assert (Main : main = num ++ match pl with [] => "" | l => "-" ++ join_on "." l end).
  { destruct (split_once "-" main) as [[m q]|] eqn:E; injection Ep as <- <-.
    - destruct Jp as [Hn <-]. apply split_once_spec in E as [-> _]. destruct pl; [congruence|]. reflexivity.
    - rewrite Jp, sapp_nil_r. reflexivity. }
  assert (S : s = main ++ match bl with [] => "" | l => "+" ++ join_on "." l end).
  { destruct (split_once "+" s) as [[m q]|] eqn:E; injection Eb as <- <-.
    - destruct Jb as [Hn <-]. apply split_once_spec in E as [-> _]. destruct bl; [congruence|]. reflexivity.
    - rewrite Jb, sapp_nil_r. reflexivity. }
  unfold print_version. cbn [major minor patch pre build]. rewrite S, Main, Num, !sapp_assoc. destruct pl, bl; reflexivity.
Qed.

Lemma print_version_inj a b : version_wf a = true -> version_wf b = true -> print_version a = print_version b -> a = b.
Proof. intros Wa Wb E. apply parse_print_version in Wa. rewrite E, parse_print_version in Wa by exact Wb. congruence. Qed.

(** Characters of a printed version: digits, letters, ['-'], ['.'], ['+']. *)
Definition version_char (a : ascii) : bool := is_ident_char a || Ascii.eqb a "." || Ascii.eqb a "+".
Lemma str_forall_join P d l : P d = true -> (forall x, In x l -> str_forall P x = true) -> str_forall P (join_on d l) = true.
Proof.
  intros Hd. induction l as [|x l IH]; intros H; [reflexivity|].
  destruct l as [|y l]; [apply H; left; reflexivity|]. rewrite join_cons2, str_forall_app. cbn [str_forall].
  rewrite Hd, IH; [rewrite (H x); [reflexivity|left; reflexivity]|]. intros z Hz. apply H. right. exact Hz.
Qed.
Lemma str_forall_imp (P Q : ascii -> bool) s : (forall a, P a = true -> Q a = true) -> str_forall P s = true -> str_forall Q s = true.
Proof.
  intros H. induction s as [|a s IH]; cbn; [reflexivity|]. intros K. apply andb_prop in K as [K1 K2].
  rewrite (H a K1), (IH K2). reflexivity.
Qed.
Lemma dig_ident a : is_dig a = true -> is_ident_char a = true.
Proof.
  unfold is_dig, digit_of, is_ident_char, is_digit.
  destruct ((48 <=? N_of_ascii a) && (N_of_ascii a <=? 57))%bool; [reflexivity|discriminate].
Qed.
Lemma print_version_chars v : version_wf v = true -> str_forall version_char (print_version v) = true.
Proof.
  intros W. apply version_wf_iff in W as (_ & _ & _ & W4 & W5).
  assert (D : forall n, str_forall version_char (print_dec n) = true).
  { intros n. eapply str_forall_imp; [|apply print_dec_digits]. intros a Ha. unfold version_char. rewrite dig_ident by exact Ha. reflexivity. }
  assert (I : forall x, str_forall is_ident_char x = true -> str_forall version_char x = true).
  { intros x. apply str_forall_imp. intros a Ha. unfold version_char. rewrite Ha. reflexivity. }
  unfold print_version. rewrite !str_forall_app, !D. cbn [str_forall andb].
  assert (forall (l : list string) c, (forall x, In x l -> str_forall version_char x = true) -> version_char c = true ->
     str_forall version_char (match l with [] => "" | y :: r => String c "" ++ join_on "." (y :: r) end) = true) as K.
  { intros l c Hl Hc. destruct l; [reflexivity|]. rewrite str_forall_app. cbn [str_forall]. rewrite Hc. cbn [andb].
    apply str_forall_join; [reflexivity|exact Hl]. }
  change (version_char ".") with true. cbn [andb]. apply andb_true_intro. split.
  - apply (K (pre v) "-"%char); [|reflexivity]. intros x Hx. apply I, ident_chars. eapply forallb_In; eauto.
  - apply (K (build v) "+"%char); [|reflexivity]. intros x Hx. apply I, build_ident_chars. eapply forallb_In; eauto.
Qed.
Lemma print_version_nonempty v : print_version v <> "".
Proof. unfold print_version. pose proof (print_dec_nonempty (major v)). destruct (print_dec (major v)); [congruence|discriminate]. Qed.

(** [PartialEq for Version] is derived, hence structural; it agrees with comparing [Equal]. *)
Fixpoint zeros (k : nat) : string := match k with O => "" | S m => String "0" (zeros m) end.
Lemma trim0_zeros x : exists k, (String.length x = k + String.length (trim0 x))%nat /\ x = zeros k ++ trim0 x.
Proof.
  induction x as [|c x IH]; [exists 0%nat; auto|]. cbn [trim0]. destruct (Ascii.eqb_spec c "0") as [->|n].
  - destruct IH as (k & L & E). exists (S k). split; [cbn; rewrite L; reflexivity|]. cbn [zeros String.append]. rewrite <- E. reflexivity.
  - exists 0%nat. split; reflexivity.
Qed.
Lemma build_ident_cmp_eq a b : build_ident_cmp a b = Eq <-> a = b.
Proof.
  split; [|intros ->; unfold build_ident_cmp; destruct (all_digits b);
           rewrite ?Nat.compare_refl, ?(cmp_refl _ str_cmp_laws); reflexivity].
  unfold build_ident_cmp. destruct (all_digits a) eqn:Da, (all_digits b) eqn:Db; try discriminate.
  - intros H. unfold then_cmp in H. destruct (Nat.compare (String.length (trim0 a)) _) eqn:E1; try discriminate.
    destruct (str_cmp (trim0 a) (trim0 b)) eqn:E2; try discriminate.
    apply (cmp_eq _ str_cmp_laws) in E2. apply Nat.compare_eq in H.
    destruct (trim0_zeros a) as (k1 & L1 & Ea), (trim0_zeros b) as (k2 & L2 & Eb). rewrite E2 in L1.
    assert (k1 = k2) as -> by lia. rewrite Ea, Eb, E2. reflexivity.
  - apply (cmp_eq _ str_cmp_laws).
Qed.
Lemma build_cmp_eq a : forall b, build_cmp a b = Eq <-> a = b.
Proof.
  unfold build_cmp. induction a as [|x a IH]; intros [|y b]; cbn; try (split; congruence).
  unfold then_cmp. destruct (build_ident_cmp x y) eqn:E.
  - apply build_ident_cmp_eq in E as ->. rewrite IH. split; congruence.
  - split; [discriminate|]. intros H; injection H as -> ->. rewrite (proj2 (build_ident_cmp_eq y y) eq_refl) in E. discriminate.
  - split; [discriminate|]. intros H; injection H as -> ->. rewrite (proj2 (build_ident_cmp_eq y y) eq_refl) in E. discriminate.
Qed.
Lemma version_cmp_eq a b : version_cmp a b = Eq <-> a = b.
Proof.
  unfold version_cmp, then_cmp. rewrite prec_cmp_core. split.
  - destruct (core_cmp _ _) eqn:E; try discriminate. intros H. apply build_cmp_eq in H.
    apply (cmp_eq _ core_cmp_laws) in E. apply version_core_inj; assumption.
  - intros ->. rewrite (cmp_refl _ core_cmp_laws). apply build_cmp_eq. reflexivity.
Qed.
Lemma version_eqb_spec a b : reflect (a = b) (version_eqb a b).
Proof.
  unfold version_eqb. destruct (version_cmp a b) eqn:E; constructor.
  - apply version_cmp_eq; exact E.
  - intros ->. rewrite (proj2 (version_cmp_eq b b) eq_refl) in E. discriminate.
  - intros ->. rewrite (proj2 (version_cmp_eq b b) eq_refl) in E. discriminate.
Qed.
