From Coq Require Import List NArith ZArith Ascii String Bool Lia Arith.
From Verif Require Import Base StrLib IdModel IdSpec.
Import ListNotations.
Local Open Scope string_scope.
Local Open Scope N_scope.
Local Infix "++" := String.append (right associativity, at level 60).

Lemma dec_val_value s : str_forall is_dig s = true -> forall acc, dec_val acc s = Some (value_from acc s).
Proof.
  induction s as [|a s IH]; simpl; intros H acc; [reflexivity|].
  apply andb_prop in H as [H1 H2]. unfold is_dig in H1. destruct (digit_of a) as [d|] eqn:E; [|discriminate].
  rewrite IH by exact H2. unfold digit_of in E.
  destruct ((48 <=? N_of_ascii a) && (N_of_ascii a <=? 57)); [|discriminate]. injection E as <-. reflexivity.
Qed.

Lemma parse_dec_iff s n : parse_dec s = Some n <-> digits s /\ value s = n.
Proof.
  unfold digits, value. split.
  - intros H. destruct s as [|a s]; [discriminate|].
    assert (D : str_forall is_dig (String a s) = true) by (eapply dec_val_digits; exact H).
    split; [split; [discriminate|exact D]|]. unfold parse_dec in H. rewrite (dec_val_value _ D) in H. congruence.
  - intros [[H1 H2] <-]. destruct s as [|a s]; [congruence|]. unfold parse_dec. apply dec_val_value. exact H2.
Qed.

Lemma parse_u32_iff s n : parse_u32 s = Some n <-> u32_numeral s n.
Proof.
  unfold parse_u32, parse_uint, u32_numeral, u32_max.
  assert (B : forall b, match parse_dec b with Some x => if x <=? 4294967295 then Some x else None | None => None end = Some n
              <-> digits b /\ value b = n /\ n <= 4294967295).
  { intros b. destruct (parse_dec b) as [x|] eqn:E.
    - apply parse_dec_iff in E as [D V]. destruct (N.leb_spec x 4294967295).
      + split; [intros H1; injection H1 as <-; repeat split; auto; apply D|]. intros (_ & V' & _). congruence.
      + split; [discriminate|]. intros (_ & V' & L). subst. lia.
    - split; [discriminate|]. intros (D & V & _).
      assert (parse_dec b = Some n) by (apply parse_dec_iff; auto). congruence. }
  destruct s as [|a r].
  - rewrite B. split.
    + intros (D & V & L). exists "". auto.
    + intros (ds & [<-|E] & D & V & L); [auto|]. destruct D as [D _]. destruct ds; discriminate.
  - destruct (Ascii.eqb_spec a "+") as [->|n0].
    + destruct r as [|b r].
      * rewrite B. split.
        -- intros ([_ D] & _). discriminate.
        -- intros (ds & [<-|E] & D & V & L); [auto|]. injection E as <-. destruct D as [D _]. congruence.
      * rewrite B. split.
        -- intros (D & V & L). exists (String b r). auto.
        -- intros (ds & [<-|E] & D & V & L).
           ++ destruct D as [_ D]. simpl in D. discriminate.
           ++ injection E as <-. auto.
    + assert (match String a r with String "+" (String _ _ as r0) => r0 | _ => String a r end = String a r) as ->.
      { destruct a as [[] [] [] [] [] [] [] []]; try reflexivity. exfalso. apply n0. reflexivity. }
      rewrite B. split.
      * intros (D & V & L). exists (String a r). auto.
      * intros (ds & [<-|E] & D & V & L); [auto|]. injection E as E _. congruence.
Qed.

Lemma u32_numeral_nodash s n : u32_numeral s n -> has_char "-" s = false.
Proof.
  rewrite <- parse_u32_iff. intros H. eapply parse_uint_nochar; [exact H|reflexivity|discriminate].
Qed.

(** ** Kinds *)

Lemma detect_spec s :
  match detect s with
  | KRustSec => has_prefix "RUSTSEC-" s
  | KCve => has_prefix "CVE-" s
  | KTalos => has_prefix "TALOS-" s
  | KGhsa => has_prefix "GHSA-" s
  | KOther => ~ has_prefix "RUSTSEC-" s /\ ~ has_prefix "CVE-" s /\ ~ has_prefix "TALOS-" s /\ ~ has_prefix "GHSA-" s
  end.
Proof.
  unfold detect, has_prefix.
  destruct (starts_with "RUSTSEC-" s) eqn:E1; [apply starts_with_spec; exact E1|].
  destruct (starts_with "CVE-" s) eqn:E2; [apply starts_with_spec; exact E2|].
  destruct (starts_with "TALOS-" s) eqn:E3; [apply starts_with_spec; exact E3|].
  destruct (starts_with "GHSA-" s) eqn:E4; [apply starts_with_spec; exact E4|].
  rewrite <- !starts_with_false. auto.
Qed.
Lemma detect_prefix s :
  (has_prefix "RUSTSEC-" s -> detect s = KRustSec) /\ (has_prefix "CVE-" s -> detect s = KCve) /\
  (has_prefix "TALOS-" s -> detect s = KTalos) /\ (has_prefix "GHSA-" s -> detect s = KGhsa).
Proof. repeat split; intros [t ->]; reflexivity. Qed.

Lemma prefix_nonpanic s p : has_char "-" p = false -> has_prefix (p ++ "-") s ->
  exists t, s = p ++ String "-" t /\ split_on "-" s = p :: split_on "-" t.
Proof.
  intros Hp [t ->]. exists t. rewrite sapp_assoc. split; [reflexivity|]. apply split_on_app. exact Hp.
Qed.

Lemma parse_year_spec pfx t y : has_char "-" pfx = false ->
  parse_year (pfx ++ String "-" t) = Ok y <->
  2000 <= y <= 2100 /\ exists ys ns m, t = ys ++ String "-" ns /\ u32_numeral ys y /\ u32_numeral ns m.
Proof.
  intros Hp. unfold parse_year. rewrite split_on_app by exact Hp.
  pose proof (split_on_nonempty "-" t) as NE. pose proof (join_split "-" t) as J.
  destruct (split_on "-" t) as [|ys rest] eqn:Es; [congruence|].
  assert (R : forall ys' ns m, t = ys' ++ String "-" ns -> u32_numeral ys' y -> u32_numeral ns m ->
              ys = ys' /\ rest = [ns]).
  { intros ys' ns m -> H1 H2. rewrite split_on_app in Es by (eapply u32_numeral_nodash; eauto).
    rewrite (split_on_nochar "-" ns) in Es by (eapply u32_numeral_nodash; eauto). injection Es as <- <-. auto. }
  unfold YEAR_MIN, YEAR_MAX, YEAR_MIN. change (2000 + 100) with 2100.
  split.
  - destruct (parse_u32 ys) as [n|] eqn:Ey; [|discriminate].
    destruct ((2000 <=? n) && (n <=? 2100)) eqn:Er; [|discriminate].
    destruct rest as [|num rest']; [discriminate|].
    destruct (parse_u32 num) as [m|] eqn:En; [|discriminate].
    destruct rest'; [|discriminate]. intros H; injection H as <-.
    apply andb_prop in Er as [R1 R2]. apply N.leb_le in R1, R2. split; [lia|].
    exists ys, num, m. rewrite <- J. cbn [join_on]. split; [reflexivity|]. rewrite <- !parse_u32_iff. auto.
  - intros (HR & ys' & ns & m & Et & H1 & H2). destruct (R ys' ns m Et H1 H2) as [-> ->].
    apply parse_u32_iff in H1, H2. rewrite H1, H2.
    destruct (N.leb_spec 2000 y); [|lia]. destruct (N.leb_spec y 2100); [|lia]. reflexivity.
Qed.
Lemma parse_year_nopanic pfx t : has_char "-" pfx = false -> parse_year (pfx ++ String "-" t) <> Panic.
Proof.
  intros Hp. unfold parse_year. rewrite split_on_app by exact Hp.
  pose proof (split_on_nonempty "-" t) as NE.
  destruct (split_on "-" t) as [|ys rest]; [congruence|].
  destruct (parse_u32 ys); [|discriminate]. destruct (_ && _); [|discriminate].
  destruct rest as [|num rest]; [discriminate|]. destruct (parse_u32 num); [|discriminate]. destruct rest; discriminate.
Qed.

Lemma dated_shape s pfx : dated_prefix (detect s) = Some pfx ->
  has_char "-" pfx = false /\ exists t, s = pfx ++ String "-" t.
Proof.
  pose proof (detect_spec s) as D. destruct (detect s); simpl; intros H; try discriminate;
    injection H as <-; (split; [reflexivity|]); destruct D as [t ->]; exists t; reflexivity.
Qed.

Lemma id_from_str_nopanic s : id_from_str s <> Panic.
Proof.
  unfold id_from_str. destruct (String.eqb s placeholder); [discriminate|].
  pose proof (dated_shape s) as D.
  destruct (detect s) eqn:Ed; try discriminate;
    (destruct (D _ eq_refl) as (Hp & t & Et); pose proof (parse_year_nopanic _ t Hp) as NP; rewrite <- Et in NP;
     destruct (parse_year s); simpl; congruence).
Qed.

Lemma id_roundtrip s i : id_from_str s = Ok i ->
  id_string i = s /\ id_kind_of i = detect s /\ (is_placeholder i = true <-> s = placeholder).
Proof.
  unfold id_from_str. destruct (String.eqb_spec s placeholder) as [->|n].
  - intros H; injection H as <-. repeat split; reflexivity.
  - intros H. assert (E : id_string i = s /\ id_kind_of i = detect s).
    { destruct (detect s); try (injection H as <-; auto);
      (destruct (parse_year s); simpl in H; try discriminate; injection H as <-; auto). }
    destruct E as [E1 E2]. split; [exact E1|]. split; [exact E2|].
    unfold is_placeholder. rewrite E1. destruct (String.eqb_spec s placeholder); split; congruence.
Qed.

Lemma id_parsed_unique s i : id_from_str s = Ok i -> id_from_str (id_string i) = Ok i.
Proof. intros H. destruct (id_roundtrip s i H) as [E _]. rewrite E. exact H. Qed.

(** ** Years and numbers *)
Lemma id_dated_iff s pfx : s <> placeholder -> dated_prefix (detect s) = Some pfx ->
  forall i, id_from_str s = Ok i <->
  exists ys ns y m, s = pfx ++ "-" ++ ys ++ "-" ++ ns /\ u32_numeral ys y /\ u32_numeral ns m /\
    2000 <= y <= 2100 /\ i = mkId (detect s) (Some y) s.
Proof.
  intros Hne Hd i. destruct (dated_shape s pfx Hd) as (Hp & t & Et).
  unfold id_from_str. destruct (String.eqb_spec s placeholder); [contradiction|].
  assert (K : match detect s with KRustSec | KCve | KTalos => (let? y := parse_year s in Ok (mkId (detect s) (Some y) s))
              | _ => Ok (mkId (detect s) None s) end = (let? y := parse_year s in Ok (mkId (detect s) (Some y) s))).
  { destruct (detect s); try reflexivity; discriminate. }
  cbv zeta. rewrite K. clear K. split.
  - destruct (parse_year s) as [y| |] eqn:Ey; simpl; try discriminate. intros H; injection H as <-.
    rewrite Et in Ey. apply parse_year_spec in Ey; [|exact Hp].
    destruct Ey as (HR & ys & ns & m & -> & H1 & H2). exists ys, ns, y, m. rewrite Et at 1. simpl. auto.
  - intros (ys & ns & y & m & Es & H1 & H2 & HR & ->).
    assert (parse_year s = Ok y) as ->; [|reflexivity].
    rewrite Es. change (pfx ++ "-" ++ ys ++ "-" ++ ns) with (pfx ++ String "-" (ys ++ String "-" ns)).
    apply parse_year_spec; [exact Hp|]. split; [exact HR|]. exists ys, ns, m. auto.
Qed.

Lemma numerical_part_spec s i pfx ys ns m : id_from_str s = Ok i -> s <> placeholder ->
  s = pfx ++ "-" ++ ys ++ "-" ++ ns -> has_char "-" pfx = false -> has_char "-" ys = false ->
  u32_numeral ns m -> numerical_part i = Some m.
Proof.
  intros H Hne Es Hp Hy Hn. destruct (id_roundtrip s i H) as (E1 & _ & E3).
  unfold numerical_part. destruct (is_placeholder i) eqn:Ei; [exfalso; apply Hne, E3; reflexivity|].
  rewrite E1, Es. change (pfx ++ "-" ++ ys ++ "-" ++ ns) with (pfx ++ String "-" (ys ++ String "-" ns)).
  rewrite split_on_app by exact Hp. rewrite split_on_app by exact Hy.
  rewrite split_on_nochar by (eapply u32_numeral_nodash; eauto). cbn. apply parse_u32_iff. exact Hn.
Qed.

Lemma id_undated s : s <> placeholder -> dated_prefix (detect s) = None ->
  id_from_str s = Ok (mkId (detect s) None s).
Proof.
  intros Hne Hd. unfold id_from_str. destruct (String.eqb_spec s placeholder); [contradiction|].
  destruct (detect s); try discriminate; reflexivity.
Qed.

(** equal-length digit strings with the same value are equal *)
Lemma value_from_acc s : forall acc, value_from acc s = acc * 10 ^ N.of_nat (String.length s) + value_from 0 s.
Proof.
  induction s as [|a s IH]; intros acc; cbn [value_from String.length].
  - change (N.of_nat 0) with 0. rewrite N.pow_0_r. lia.
  - rewrite IH, (IH (0 * 10 + (N_of_ascii a - 48))), Nat2N.inj_succ, N.pow_succ_r'. lia.
Qed.
Lemma value_lt s : str_forall is_dig s = true -> value s < 10 ^ N.of_nat (String.length s).
Proof.
  unfold value. induction s as [|a s IH]; intros H.
  - simpl. lia.
  - cbn [value_from String.length]. simpl in H. apply andb_prop in H as [H1 H2]. specialize (IH H2).
    rewrite value_from_acc, Nat2N.inj_succ, N.pow_succ_r'.
    unfold is_dig, digit_of in H1. destruct (N.leb_spec 48 (N_of_ascii a)); [|discriminate].
    destruct (N.leb_spec (N_of_ascii a) 57); [|discriminate].
    assert (N_of_ascii a - 48 <= 9) by lia.
    set (P := 10 ^ N.of_nat (String.length s)) in *. clearbody P. nia.
Qed.
Lemma value_inj a : forall b, str_forall is_dig a = true -> str_forall is_dig b = true ->
  String.length a = String.length b -> value a = value b -> a = b.
Proof.
  unfold value. induction a as [|x a IH]; intros b Ha Hb Hl Hv; destruct b as [|y b]; try discriminate; [reflexivity|].
  cbn [value_from String.length] in *. injection Hl as Hl.
  pose proof Ha as Ha'. pose proof Hb as Hb'. simpl in Ha', Hb'.
  apply andb_prop in Ha' as [X1 X2]. apply andb_prop in Hb' as [Y1 Y2].
  rewrite value_from_acc in Hv. rewrite (value_from_acc b) in Hv.
  pose proof (value_lt a X2) as LA. pose proof (value_lt b Y2) as LB. unfold value in *.
  rewrite Hl in *. set (P := 10 ^ N.of_nat (String.length b)) in *. clearbody P.
  unfold is_dig, digit_of in X1, Y1.
  destruct (N.leb_spec 48 (N_of_ascii x)); [|discriminate]. destruct (N.leb_spec (N_of_ascii x) 57); [|discriminate].
  destruct (N.leb_spec 48 (N_of_ascii y)); [|discriminate]. destruct (N.leb_spec (N_of_ascii y) 57); [|discriminate].
  assert (E1 : N_of_ascii x - 48 = N_of_ascii y - 48).
  { set (dx := N_of_ascii x - 48) in *. set (dy := N_of_ascii y - 48) in *. clearbody dx dy.
    destruct (N.lt_trichotomy dx dy) as [L|[L|L]]; [exfalso|exact L|exfalso].
    - assert (dx + 1 <= dy) by lia. assert ((dx + 1) * P <= dy * P) by (apply N.mul_le_mono_r; lia). lia.
    - assert (dy + 1 <= dx) by lia. assert ((dy + 1) * P <= dx * P) by (apply N.mul_le_mono_r; lia). lia. }
  assert (E2 : value_from 0 a = value_from 0 b) by (rewrite E1 in Hv; lia).
  f_equal; [|apply IH; auto]. rewrite <- (ascii_N_embedding x), <- (ascii_N_embedding y). f_equal. lia.
Qed.

Lemma id_injective_canonical ys1 ns1 ys2 ns2 y m :
  digits ys1 -> digits ns1 -> digits ys2 -> digits ns2 ->
  String.length ys1 = String.length ys2 -> String.length ns1 = String.length ns2 ->
  u32_numeral ys1 y -> u32_numeral ys2 y -> u32_numeral ns1 m -> u32_numeral ns2 m ->
  "RUSTSEC-" ++ ys1 ++ "-" ++ ns1 = "RUSTSEC-" ++ ys2 ++ "-" ++ ns2.
Proof.
  assert (K : forall s n, digits s -> u32_numeral s n -> value s = n).
  { intros s n D (ds & [->|E] & Dd & V & _); [exact V|]. subst s. destruct D as [_ D]. simpl in D. discriminate. }
  intros D1 D2 D3 D4 L1 L2 U1 U2 U3 U4.
  apply K in U1, U2, U3, U4; auto.
  rewrite (value_inj ys1 ys2), (value_inj ns1 ns2); try reflexivity; try congruence; try apply D1; try apply D2; try apply D3; apply D4.
Qed.

(** ** Dates *)
Lemma date_accept civil s d : date_from_str civil s = Ok d ->
  d = s /\ exists y m dd, civil s = Some (y, m, dd) /\ ((-32768 <= y <= 32767)%Z -> (2000 <= y <= 2100)%Z).
Proof.
  unfold date_from_str. destruct (civil s) as [[[y m] dd]|] eqn:E; [|discriminate].
  destruct (_ && _) eqn:R; [|discriminate]. intros H; injection H as <-. split; [reflexivity|].
  exists y, m, dd. split; [reflexivity|]. intros Hy. apply andb_prop in R as [R1 R2].
  apply N.leb_le in R1, R2. unfold YEAR_MAX, YEAR_MIN, i16_as_u32 in *.
  destruct (Z.ltb_spec y 0).
  - exfalso. assert (y mod 4294967296 = y + 4294967296)%Z.
    { symmetry. apply Z.mod_unique_pos with (-1)%Z; lia. }
    rewrite H0 in *. lia.
  - rewrite Z.mod_small in * by lia. lia.
Qed.
Lemma date_accept_iff civil s y m dd : civil s = Some (y, m, dd) -> (-32768 <= y <= 32767)%Z ->
  (date_from_str civil s = Ok s <-> (2000 <= y <= 2100)%Z) /\
  (date_from_str civil s = Err <-> ~ (2000 <= y <= 2100)%Z).
Proof.
  intros E Hy. assert (K : date_from_str civil s = if ((2000 <=? y) && (y <=? 2100))%Z then Ok s else Err).
  { unfold date_from_str. rewrite E. unfold YEAR_MAX, YEAR_MIN, i16_as_u32.
    assert ((2000 <=? Z.to_N (y mod 4294967296)) && (Z.to_N (y mod 4294967296) <=? 2000 + 100) = ((2000 <=? y) && (y <=? 2100))%Z) as ->; [|reflexivity].
    destruct (Z.ltb_spec y 0).
    - assert (y mod 4294967296 = y + 4294967296)%Z as -> by (symmetry; apply Z.mod_unique_pos with (-1)%Z; lia).
      destruct (Z.leb_spec 2000 y); [lia|]. cbn [andb].
      destruct (N.leb_spec (Z.to_N (y + 4294967296)) (2000 + 100)); [lia|]. apply andb_false_r.
    - rewrite Z.mod_small by lia.
      destruct (N.leb_spec 2000 (Z.to_N y)); destruct (N.leb_spec (Z.to_N y) (2000 + 100));
        destruct (Z.leb_spec 2000 y); destruct (Z.leb_spec y 2100); cbn [andb]; try reflexivity; lia. }
  rewrite K. destruct (Z.leb_spec 2000 y); destruct (Z.leb_spec y 2100); simpl; split; split; intros; try discriminate; try reflexivity; try lia.
Qed.

Lemma iso_split y m d : has_char "-" y = false -> has_char "-" m = false -> has_char "-" d = false ->
  split_on "-" (iso_date y m d) = [y; m; d].
Proof.
  intros Hy Hm Hd. unfold iso_date. cbn [String.append].
  change (y ++ String "-" (m ++ String "-" d)) with (y ++ String "-" (m ++ String "-" d)).
  rewrite split_on_app by exact Hy. rewrite split_on_app by exact Hm. rewrite split_on_nochar by exact Hd. reflexivity.
Qed.
Lemma iso_components ys ms ds y m d : u32_numeral ys y -> u32_numeral ms m -> u32_numeral ds d ->
  date_year (iso_date ys ms ds) = Ok y /\ date_month (iso_date ys ms ds) = Ok m /\ date_day (iso_date ys ms ds) = Ok d.
Proof.
  intros Hy Hm Hd. unfold date_year, date_month, date_day, date_component.
  rewrite iso_split by (eapply u32_numeral_nodash; eauto). cbn [nth_error].
  apply parse_u32_iff in Hy, Hm, Hd. rewrite Hy, Hm, Hd. auto.
Qed.

(** byte order of equal-length digit strings is numeric order *)
Lemma str_cmp_cons a b x y : str_cmp (String a x) (String b y) = then_cmp (N_of_ascii a ?= N_of_ascii b) (str_cmp x y).
Proof. reflexivity. Qed.
Lemma str_cmp_digits a : forall b r1 r2, str_forall is_dig a = true -> str_forall is_dig b = true ->
  String.length a = String.length b ->
  str_cmp (a ++ r1) (b ++ r2) = then_cmp (value a ?= value b) (str_cmp r1 r2).
Proof.
  unfold value. induction a as [|x a IH]; intros b r1 r2 Ha Hb Hl; destruct b as [|y b]; try discriminate; [reflexivity|].
  cbn [String.length] in Hl. injection Hl as Hl.
  pose proof Ha as Ha'. pose proof Hb as Hb'. simpl in Ha', Hb'.
  apply andb_prop in Ha' as [X1 X2]. apply andb_prop in Hb' as [Y1 Y2].
  cbn [String.append]. rewrite str_cmp_cons, (IH b r1 r2 X2 Y2 Hl).
  cbn [value_from]. rewrite (value_from_acc a (0 * 10 + (N_of_ascii x - 48))).
  rewrite (value_from_acc b (0 * 10 + (N_of_ascii y - 48))).
  pose proof (value_lt a X2) as LA. pose proof (value_lt b Y2) as LB. unfold value in *.
  rewrite Hl in *. set (P := 10 ^ N.of_nat (String.length b)) in *. clearbody P.
  unfold is_dig, digit_of in X1, Y1.
  destruct (N.leb_spec 48 (N_of_ascii x)); [|discriminate]. destruct (N.leb_spec (N_of_ascii x) 57); [|discriminate].
  destruct (N.leb_spec 48 (N_of_ascii y)); [|discriminate]. destruct (N.leb_spec (N_of_ascii y) 57); [|discriminate].
  set (va := value_from 0 a) in *. set (vb := value_from 0 b) in *. clearbody va vb.
  destruct (N.compare_spec (N_of_ascii x) (N_of_ascii y)) as [E|E|E].
  - rewrite E. cbn [then_cmp]. f_equal.
    destruct (N.compare_spec va vb) as [F|F|F]; symmetry; [apply N.compare_eq_iff|apply N.compare_lt_iff|apply N.compare_gt_iff]; nia.
  - cbn [then_cmp]. symmetry.
    assert ((((0 * 10 + (N_of_ascii x - 48)) * P + va) ?= ((0 * 10 + (N_of_ascii y - 48)) * P + vb)) = Lt) as ->; [|reflexivity].
    apply N.compare_lt_iff. nia.
  - cbn [then_cmp]. symmetry.
    assert ((((0 * 10 + (N_of_ascii x - 48)) * P + va) ?= ((0 * 10 + (N_of_ascii y - 48)) * P + vb)) = Gt) as ->; [|reflexivity].
    apply N.compare_gt_iff. nia.
Qed.
Lemma iso_order y1 m1 d1 y2 m2 d2 :
  (forall s, In s [y1; m1; d1; y2; m2; d2] -> str_forall is_dig s = true) ->
  String.length y1 = String.length y2 -> String.length m1 = String.length m2 -> String.length d1 = String.length d2 ->
  date_cmp (iso_date y1 m1 d1) (iso_date y2 m2 d2) =
  then_cmp (value y1 ?= value y2) (then_cmp (value m1 ?= value m2) (value d1 ?= value d2)).
Proof.
  intros H L1 L2 L3. unfold date_cmp, iso_date.
  rewrite str_cmp_digits by (first [assumption | apply H; simpl; tauto]). f_equal.
  change ("-" ++ m1 ++ "-" ++ d1) with (String "-" (m1 ++ "-" ++ d1)).
  change ("-" ++ m2 ++ "-" ++ d2) with (String "-" (m2 ++ "-" ++ d2)).
  rewrite str_cmp_cons, N.compare_refl. cbn [then_cmp].
  rewrite str_cmp_digits by (first [assumption | apply H; simpl; tauto]). f_equal.
  change ("-" ++ d1) with (String "-" d1). change ("-" ++ d2) with (String "-" d2).
  rewrite str_cmp_cons, N.compare_refl. cbn [then_cmp].
  rewrite <- (sapp_nil_r d1) at 1. rewrite <- (sapp_nil_r d2) at 1.
  rewrite str_cmp_digits by (first [assumption | apply H; simpl; tauto]).
  destruct (value d1 ?= value d2); reflexivity.
Qed.
