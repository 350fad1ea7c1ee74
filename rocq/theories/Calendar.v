(** The Gregorian calendar (PropsMtime.gregorian) and the text of dates: facts used about the external calendars. *)
From Coq Require Import List NArith ZArith Ascii String Bool Lia.
From Verif Require Import Base StrLib IdModel IdSpec IdProofs VerText MtimeModel PropsMtime WebModel.
Import ListNotations.
Local Open Scope Z_scope.

(** Year, month, day in the order of dates. *)
Definition date_lt (a b : Z * N * N) : Prop :=
  let '(y, m, d) := a in let '(y', m', d') := b in
  y < y' \/ (y = y' /\ ((m < m')%N \/ (m = m' /\ (d < d')%N))).
Definition date_ltb (a b : Z * N * N) : bool :=
  let '(y, m, d) := a in let '(y', m', d') := b in
  (y <? y') || ((y =? y') && ((m <? m')%N || ((m =? m')%N && (d <? d')%N))).
Lemma date_ltb_lt a b : date_ltb a b = true -> date_lt a b.
Proof.
  destruct a as [[y m] d], b as [[y' m'] d']. unfold date_ltb, date_lt. intros H. apply orb_prop in H as [H|H]; [left; apply Z.ltb_lt, H|].
  apply andb_prop in H as [E H]. apply Z.eqb_eq in E. right. split; [exact E|]. apply orb_prop in H as [H|H]; [left; apply N.ltb_lt, H|].
  apply andb_prop in H as [E' H]. right. split; [apply N.eqb_eq, E'|apply N.ltb_lt, H].
Qed.
Lemma date_lt_trans a b c : date_lt a b -> date_lt b c -> date_lt a c.
Proof. destruct a as [[y m] d], b as [[y' m'] d'], c as [[y'' m''] d'']. unfold date_lt. lia. Qed.
Lemma date_lt_irrefl a : ~ date_lt a a.
Proof. destruct a as [[y m] d]. unfold date_lt. lia. Qed.

(** A date that exists. *)
Definition is_date (a : Z * N * N) : Prop :=
  let '(y, m, d) := a in (1 <= m <= 12)%N /\ (1 <= d)%N /\ (d <= month_days (Z.to_N (y mod 400)) m)%N.
Definition is_dateb (a : Z * N * N) : bool :=
  let '(y, m, d) := a in ((1 <=? m) && (m <=? 12) && (1 <=? d) && (d <=? month_days (Z.to_N (y mod 400)) m))%N.
Lemma is_dateb_ok a : is_dateb a = true -> is_date a.
Proof.
  destruct a as [[y m] d]. unfold is_dateb, is_date. rewrite !andb_true_iff, !N.leb_le. lia.
Qed.

(** Days since 1970-01-01 of a date. *)
Definition day_number (a : Z * N * N) : Z :=
  let '(y, m, d) := a in
  let y' := if (m <=? 2)%N then y - 1 else y in
  let era := y' / 400 in
  let yoe := y' - era * 400 in
  let mp := (Z.of_N m + 9) mod 12 in
  let doy := (153 * mp + 2) / 5 + Z.of_N d - 1 in
  era * 146097 + (yoe * 365 + yoe / 4 - yoe / 100 + doy) - 719468.

(** Adding 400 years. *)
Definition later (k : Z) (a : Z * N * N) : Z * N * N := let '(y, m, d) := a in (y + 400 * k, m, d).
Lemma gregorian_later n k : gregorian (n + 146097 * k) = later k (gregorian n).
Proof.
  unfold gregorian, later. replace (n + 146097 * k + 719468) with (n + 719468 + k * 146097) by ring. rewrite Z.div_add by lia.
  replace (n + 719468 + k * 146097 - ((n + 719468) / 146097 + k) * 146097) with (n + 719468 - (n + 719468) / 146097 * 146097) by ring.
  f_equal. f_equal. ring.
Qed.
Lemma day_number_later k a : day_number (later k a) = day_number a + 146097 * k.
Proof.
  destruct a as [[y m] d]. unfold day_number, later.
  replace (if (m <=? 2)%N then y + 400 * k - 1 else y + 400 * k) with ((if (m <=? 2)%N then y - 1 else y) + k * 400) by (destruct (m <=? 2)%N; ring).
  rewrite Z.div_add by lia. set (y' := if (m <=? 2)%N then y - 1 else y).
  replace (y' + k * 400 - (y' / 400 + k) * 400) with (y' - y' / 400 * 400) by ring. ring.
Qed.
Lemma is_date_later k a : is_date a -> is_date (later k a).
Proof. destruct a as [[y m] d]. unfold is_date, later. rewrite Z.mul_comm, Z.mod_add by lia. auto. Qed.
Lemma date_lt_later k a b : date_lt a b -> date_lt (later k a) (later k b).
Proof. destruct a as [[y m] d], b as [[y' m'] d']. unfold date_lt, later. lia. Qed.

(** Years are counted from March 1: [start y] days precede year [y] of a cycle; [in_year y doy] is the date of one of its days. *)
Definition start (y : Z) : Z := 365 * y + y / 4 - y / 100.
Definition in_year (y doy : Z) : Z * N * N :=
  let mp := (5 * doy + 2) / 153 in
  let d := doy - (153 * mp + 2) / 5 + 1 in
  let m := if mp <? 10 then mp + 3 else mp - 9 in
  (y + (if m <=? 2 then 1 else 0), Z.to_N m, Z.to_N d).
Definition year_len (y : Z) : Z := if y =? 399 then 366 else start (y + 1) - start y.
Definition num (doe : Z) : Z := doe - doe / 1460 + doe / 36524 - doe / 146096.
Lemma num_step a : num a <= num (a + 1).
Proof.
  unfold num. replace (a / 146096) with (a / 36524 / 4) by (rewrite Z.div_div by lia; reflexivity).
  replace ((a + 1) / 146096) with ((a + 1) / 36524 / 4) by (rewrite Z.div_div by lia; reflexivity).
  pose proof (Z.div_mod a 36524 ltac:(lia)). pose proof (Z.mod_pos_bound a 36524 ltac:(lia)).
  pose proof (Z.div_mod (a + 1) 36524 ltac:(lia)). pose proof (Z.mod_pos_bound (a + 1) 36524 ltac:(lia)).
  pose proof (Z.div_mod a 1460 ltac:(lia)). pose proof (Z.mod_pos_bound a 1460 ltac:(lia)).
  pose proof (Z.div_mod (a + 1) 1460 ltac:(lia)). pose proof (Z.mod_pos_bound (a + 1) 1460 ltac:(lia)).
  assert (Q : (a + 1) / 36524 = a / 36524 \/ (a + 1) / 36524 = a / 36524 + 1) by lia.
  assert (R : (a + 1) / 1460 <= a / 1460 + 1) by lia.
  destruct Q as [->| ->]; [lia|]. set (q := a / 36524) in *. pose proof (Z.div_mod q 4 ltac:(lia)). pose proof (Z.mod_pos_bound q 4 ltac:(lia)).
  pose proof (Z.div_mod (q + 1) 4 ltac:(lia)). pose proof (Z.mod_pos_bound (q + 1) 4 ltac:(lia)). lia.
Qed.
Lemma num_mono a b : a <= b -> num a <= num b.
Proof.
  intros L. replace b with (a + Z.of_nat (Z.to_nat (b - a))) by lia. induction (Z.to_nat (b - a)) as [|k IH]; [rewrite Z.add_0_r; reflexivity|].
  etransitivity; [exact IH|]. replace (a + Z.of_nat (S k)) with (a + Z.of_nat k + 1) by lia. apply num_step.
Qed.
Fixpoint range_ok (f : Z -> bool) (k : nat) (z : Z) : bool :=
  match k with O => true | S k' => f z && range_ok f k' (z + 1) end.
Lemma range_ok_in f : forall k z, range_ok f k z = true -> forall i, z <= i < z + Z.of_nat k -> f i = true.
Proof.
  induction k as [|k IH]; intros z H i I; [lia|]. cbn [range_ok] in H. apply andb_prop in H as [A B].
  destruct (Z.eq_dec i z) as [->|N]; [exact A|]. apply (IH _ B). lia.
Qed.
Definition year_ok (y : Z) : bool :=
  (num (start y) / 365 =? y) && (num (start y + year_len y - 1) / 365 =? y) && (365 <=? year_len y) && (year_len y <=? 366)
  && (Bool.eqb (year_len y =? 366) (is_leap (Z.to_N ((y + 1) mod 400)))).
Lemma years : range_ok year_ok 400 0 = true.
Proof. vm_compute. reflexivity. Qed.
Definition doy_ok (doy : Z) : bool :=
  let a := in_year 0 doy in
  (if doy <? 365 then date_ltb a (in_year 0 (doy + 1)) else true)
  && (if 364 <=? doy then date_ltb a (in_year 1 0) else true)
  && (let '(y, m, d) := a in
      ((1 <=? m) && (m <=? 12) && (1 <=? d) && (d <=? month_days (if (doy <? 365)%Z then 1 else 4) m))%N
      && (y =? if (m <=? 2)%N then 1 else 0) && (((153 * ((Z.of_N m + 9) mod 12) + 2) / 5 + Z.of_N d - 1) =? doy)).
Lemma doys : range_ok doy_ok 366 0 = true.
Proof. vm_compute. reflexivity. Qed.
Lemma start_next y : 0 <= y < 399 -> start (y + 1) = start y + year_len y.
Proof. intros H. unfold year_len. destruct (Z.eqb_spec y 399); lia. Qed.
(** Every day lies in a year of a cycle. *)
Lemma split_day n : exists era y doy, 0 <= y < 400 /\ 0 <= doy < year_len y /\ n = era * 146097 + start y + doy - 719468.
Proof.
  set (z := n + 719468). set (doe := z mod 146097). assert (D : 0 <= doe < 146097) by (apply Z.mod_pos_bound; lia).
  assert (E : z = z / 146097 * 146097 + doe) by (pose proof (Z.div_mod z 146097 ltac:(lia)); lia).
  assert (C : forall k : nat, (k <= 399)%nat -> doe < start (Z.of_nat k) -> exists y, 0 <= y < Z.of_nat k /\ start y <= doe < start y + year_len y).
  { induction k as [|k IH]; intros K L; [change (start (Z.of_nat 0)) with 0 in L; lia|]. destruct (Z.lt_ge_cases doe (start (Z.of_nat k))) as [A|A].
    - destruct (IH ltac:(lia) A) as (y & Y & B). exists y. split; [lia|exact B].
    - exists (Z.of_nat k). split; [lia|]. split; [exact A|]. rewrite <- start_next by lia. replace (Z.of_nat k + 1) with (Z.of_nat (S k)) by lia. exact L. }
  destruct (Z.lt_ge_cases doe (start 399)) as [A|A].
  - destruct (C 399%nat (le_n _) A) as (y & Y & B). exists (z / 146097), y, (doe - start y). lia.
  - exists (z / 146097), 399, (doe - start 399). split; [lia|]. split; [|lia]. change (year_len 399) with 366. change (start 399) with 145731 in *. lia.
Qed.
Lemma year_facts y : 0 <= y < 400 -> num (start y) / 365 = y /\ num (start y + year_len y - 1) / 365 = y /\ 365 <= year_len y <= 366 /\
  (year_len y = 366 -> is_leap (Z.to_N ((y + 1) mod 400)) = true).
Proof.
  intros Y. pose proof (range_ok_in _ _ _ years y ltac:(lia)) as H. unfold year_ok in H. rewrite !andb_true_iff in H.
  destruct H as ((((A & B) & C) & D) & E). apply Z.eqb_eq in A, B. apply Z.leb_le in C, D. apply Bool.eqb_prop in E. repeat split; try assumption.
  intros L. rewrite L in E. rewrite <- E. reflexivity.
Qed.
Lemma gregorian_at era y doy : 0 <= y < 400 -> 0 <= doy < year_len y ->
  gregorian (era * 146097 + start y + doy - 719468) = later era (in_year y doy).
Proof.
  intros Y D. destruct (year_facts y Y) as (A & B & C & _).
  assert (S0 : 0 <= start y /\ start y + year_len y <= 146097).
  { split.
    - unfold start. pose proof (Z.div_pos y 4 ltac:(lia) ltac:(lia)). pose proof (Z.div_le_upper_bound y 100 y ltac:(lia) ltac:(lia)). lia.
    - unfold start. pose proof (Z.div_mod y 4 ltac:(lia)). pose proof (Z.mod_pos_bound y 4 ltac:(lia)). pose proof (Z.div_mod y 100 ltac:(lia)). pose proof (Z.mod_pos_bound y 100 ltac:(lia)).
      destruct (Z.eq_dec y 399) as [->|N]; [vm_compute; discriminate|]. unfold year_len. rewrite (proj2 (Z.eqb_neq y 399) N). unfold start.
      pose proof (Z.div_mod (y + 1) 4 ltac:(lia)). pose proof (Z.mod_pos_bound (y + 1) 4 ltac:(lia)). pose proof (Z.div_mod (y + 1) 100 ltac:(lia)). pose proof (Z.mod_pos_bound (y + 1) 100 ltac:(lia)). lia. }
  unfold gregorian. replace (era * 146097 + start y + doy - 719468 + 719468) with (start y + doy + era * 146097) by ring.
  rewrite Z.div_add by lia. rewrite (Z.div_small (start y + doy)) by lia. replace (start y + doy + era * 146097 - (0 + era) * 146097) with (start y + doy) by ring. fold (num (start y + doy)).
  assert (Q : num (start y + doy) / 365 = y).
  { pose proof (num_mono (start y) (start y + doy) ltac:(lia)) as M1. pose proof (num_mono (start y + doy) (start y + year_len y - 1) ltac:(lia)) as M2.
    apply (Z.div_le_mono _ _ 365 ltac:(lia)) in M1. apply (Z.div_le_mono _ _ 365 ltac:(lia)) in M2. lia. }
  rewrite Q. cbv zeta. fold (start y). replace (start y + doy - start y) with doy by ring. unfold later, in_year. cbv zeta.
  f_equal. f_equal. ring.
Qed.
Definition shift (k : Z) (a : Z * N * N) : Z * N * N := let '(y, m, d) := a in (y + k, m, d).
Lemma in_year_shift y k doy : in_year (y + k) doy = shift k (in_year y doy).
Proof. unfold in_year, shift. f_equal. f_equal. ring. Qed.
Lemma date_lt_shift k a b : date_lt a b -> date_lt (shift k a) (shift k b).
Proof. destruct a as [[y m] d], b as [[y' m'] d']. unfold date_lt, shift. lia. Qed.
Lemma doy_facts doy : 0 <= doy < 366 ->
  (doy < 365 -> date_lt (in_year 0 doy) (in_year 0 (doy + 1))) /\ (364 <= doy -> date_lt (in_year 0 doy) (in_year 1 0)) /\
  (forall y m d, in_year 0 doy = (y, m, d) -> (1 <= m <= 12)%N /\ (1 <= d <= month_days (if (doy <? 365)%Z then 1 else 4) m)%N /\
     y = (if (m <=? 2)%N then 1 else 0) /\ (153 * ((Z.of_N m + 9) mod 12) + 2) / 5 + Z.of_N d - 1 = doy).
Proof.
  intros D. pose proof (range_ok_in _ _ _ doys doy ltac:(lia)) as H. unfold doy_ok in H. destruct (in_year 0 doy) as [[y m] d] eqn:E.
  rewrite !andb_true_iff in H. destruct H as ((A & B) & ((((C1 & C2) & C3) & C4) & C5) & C6). apply N.leb_le in C1, C2, C3, C4. apply Z.eqb_eq in C5, C6.
  split; [|split; [|intros y0 m0 d0 [= <- <- <-]; repeat split; assumption]].
  - intros L. apply Z.ltb_lt in L. rewrite L in A. exact (date_ltb_lt _ _ A).
  - intros L. apply Z.leb_le in L. rewrite L in B. exact (date_ltb_lt _ _ B).
Qed.
(** The calendar: later days have later dates, all of which exist; the day can be read off the date. *)
Lemma gregorian_next n : date_lt (gregorian n) (gregorian (n + 1)).
Proof.
  destruct (split_day n) as (era & y & doy & Y & D & ->). rewrite (gregorian_at era y doy Y D). destruct (year_facts y Y) as (_ & _ & L & _).
  destruct (Z.eq_dec doy (year_len y - 1)) as [E|E].
  - (* the last day of a year *)
    assert (N : date_lt (in_year y doy) (in_year (y + 1) 0)).
    { pose proof (proj1 (proj2 (doy_facts doy ltac:(lia))) ltac:(lia)) as H. apply (date_lt_shift y) in H. rewrite <- !in_year_shift in H.
      rewrite (Z.add_comm y 1). exact H. }
    destruct (Z.eq_dec y 399) as [->|Y'].
    + replace (era * 146097 + start 399 + doy - 719468 + 1) with ((era + 1) * 146097 + start 0 + 0 - 719468)
        by (rewrite E; change (start 399) with 145731; change (year_len 399) with 366; change (start 0) with 0; lia).
      rewrite (gregorian_at (era + 1) 0 0) by (change (year_len 0) with 365; lia). apply (date_lt_later era) in N. change (399 + 1) with (0 + 400) in N.
      rewrite in_year_shift in N. destruct (in_year 399 doy) as [[a b] c], (in_year 0 0) as [[a' b'] c']. unfold later, shift in *. unfold date_lt in *. lia.
    + replace (era * 146097 + start y + doy - 719468 + 1) with (era * 146097 + start (y + 1) + 0 - 719468) by (rewrite start_next by lia; lia).
      rewrite (gregorian_at era (y + 1) 0); [apply date_lt_later, N|lia|]. destruct (year_facts (y + 1) ltac:(lia)) as (_ & _ & L' & _). lia.
  - replace (era * 146097 + start y + doy - 719468 + 1) with (era * 146097 + start y + (doy + 1) - 719468) by ring.
    rewrite (gregorian_at era y (doy + 1)) by lia. apply date_lt_later. pose proof (proj1 (doy_facts doy ltac:(lia)) ltac:(lia)) as H.
    apply (date_lt_shift y) in H. rewrite <- !in_year_shift in H. exact H.
Qed.
Lemma gregorian_is_date n : is_date (gregorian n).
Proof.
  destruct (split_day n) as (era & y & doy & Y & D & ->). rewrite (gregorian_at era y doy Y D). apply is_date_later.
  destruct (year_facts y Y) as (_ & _ & L & LP). pose proof (proj2 (proj2 (doy_facts doy ltac:(lia)))) as H.
  replace (in_year y doy) with (shift y (in_year 0 doy)) by (rewrite <- in_year_shift; reflexivity). destruct (in_year 0 doy) as [[a m] d]. specialize (H _ _ _ eq_refl). unfold shift, is_date.
  destruct H as (M & (D1 & D2) & A & _). split; [exact M|]. split; [exact D1|]. etransitivity; [exact D2|]. unfold month_days.
  destruct (N.eqb_spec m 2) as [->|N2]; [|reflexivity]. destruct (Z.ltb_spec doy 365) as [B|B].
  - destruct (is_leap (Z.to_N ((a + y) mod 400))); vm_compute; discriminate.
  - cbn [N.leb N.compare] in A. change (2 <=? 2)%N with true in A. subst a. rewrite (Z.add_comm 1 y), (LP ltac:(lia)). vm_compute. discriminate.
Qed.
Lemma day_number_gregorian n : day_number (gregorian n) = n.
Proof.
  destruct (split_day n) as (era & y & doy & Y & D & ->). rewrite (gregorian_at era y doy Y D), day_number_later.
  destruct (year_facts y Y) as (_ & _ & L & _). pose proof (proj2 (proj2 (doy_facts doy ltac:(lia)))) as H.
  replace (in_year y doy) with (shift y (in_year 0 doy)) by (rewrite <- in_year_shift; reflexivity). destruct (in_year 0 doy) as [[a m] d]. specialize (H _ _ _ eq_refl). unfold shift, day_number.
  destruct H as (_ & _ & A & E). replace (if (m <=? 2)%N then a + y - 1 else a + y) with y by (destruct (m <=? 2)%N; lia).
  rewrite Z.div_small by lia. replace (y - 0 * 400) with y by ring. unfold start. lia.
Qed.
Lemma gregorian_lt a b : a < b -> date_lt (gregorian a) (gregorian b).
Proof.
  intros L. replace b with (a + 1 + Z.of_nat (Z.to_nat (b - a - 1))) by lia. generalize (Z.to_nat (b - a - 1)) as k. clear L b.
  induction k as [|k IH]; [rewrite Z.add_0_r; apply gregorian_next|]. eapply date_lt_trans; [exact IH|].
  replace (a + 1 + Z.of_nat (S k)) with (a + 1 + Z.of_nat k + 1) by lia. apply gregorian_next.
Qed.

(** ** Dates as text *)
Local Open Scope string_scope.
Definition day_text (n : Z) : string :=
  let '(y, m, d) := gregorian n in pad_left 4 (print_int y) ++ "-" ++ pad_left 2 (print_dec m) ++ "-" ++ pad_left 2 (print_dec d).
Lemma time_day_text t : time_date_text gregorian t = day_text (local_day t).
Proof. unfold time_date_text, day_text, local_day. reflexivity. Qed.
Definition four_digit_year (n : Z) : Prop := 0 <= fst (fst (gregorian n)) <= 9999.
Lemma zeros_digits k : str_forall is_dig (zeros k) = true.
Proof. induction k as [|k IH]; [reflexivity|exact IH]. Qed.
Lemma zeros_length k : String.length (zeros k) = k.
Proof. induction k as [|k IH]; [reflexivity|cbn; rewrite IH; reflexivity]. Qed.
Lemma zeros_value k t : value (zeros k ++ t) = value t.
Proof. induction k as [|k IH]; [reflexivity|exact IH]. Qed.
Lemma print_length w n : (0 < w)%nat -> (n < 10 ^ N.of_nat w)%N -> (String.length (print_dec n) <= w)%nat.
Proof.
  intros W L. destruct (Nat.le_gt_cases (String.length (print_dec n)) w) as [H|H]; [exact H|exfalso].
  pose proof (print_dec_nlz n) as Z. pose proof (print_dec_is_digits n) as PD. pose proof (print_dec_value n) as PV.
  destruct (print_dec n) as [|c r]; [cbn in H; lia|]. apply nlz_cons in Z as [Z|Z].
  - pose proof (proj2 PD) as P2. cbn [str_forall] in P2. apply andb_true_iff in P2 as [P2 P3].
    pose proof (value_ge c r P2 Z P3) as G. rewrite PV in G. cbn [String.length] in H.
    assert (10 ^ N.of_nat w <= 10 ^ N.of_nat (String.length r))%N by (apply N.pow_le_mono_r; lia). lia.
  - subst r. cbn in H. lia.
Qed.
(** A number written with a fixed number of digits. *)
Lemma padded w n : (0 < w)%nat -> (n < 10 ^ N.of_nat w)%N ->
  digits (pad_left w (print_dec n)) /\ String.length (pad_left w (print_dec n)) = w /\ value (pad_left w (print_dec n)) = n.
Proof.
  intros W L. pose proof (print_length w n W L) as K. unfold pad_left.
  assert (LN : String.length (zeros (w - String.length (print_dec n)) ++ print_dec n) = w) by (rewrite slength_app, zeros_length; lia).
  split; [split|split].
  - intros E. rewrite E in LN. cbn in LN. lia.
  - rewrite str_forall_app, zeros_digits. exact (proj2 (print_dec_is_digits n)).
  - exact LN.
  - rewrite zeros_value. apply print_dec_value.
Qed.
Lemma month_days_le y m : (month_days y m <= 31)%N.
Proof. unfold month_days. destruct (m =? 2)%N; [destruct (is_leap y); vm_compute; discriminate|]. destruct (_ || _ || _ || _)%bool; vm_compute; discriminate. Qed.
Lemma is_leap_mod y : is_leap (y mod 400)%N = is_leap y.
Proof.
  unfold is_leap. assert (X : forall k, (k * (400 / k) = 400)%N -> k <> 0%N -> ((y mod 400) mod k = y mod k)%N).
  { intros k K N. rewrite (N.div_mod y 400) at 2 by lia. rewrite <- K at 2. rewrite N.add_comm, <- N.mul_assoc, N.mul_comm, N.mod_add by exact N. reflexivity. }
  rewrite (X 4%N), (X 100%N), (X 400%N) by (reflexivity || discriminate). reflexivity.
Qed.
Lemma month_days_mod y m : month_days (y mod 400)%N m = month_days y m.
Proof. unfold month_days. rewrite is_leap_mod. reflexivity. Qed.
(** The text of a day with a year of four digits, and what it says. *)
Lemma day_text_iso n : four_digit_year n -> exists y m d ys ms ds,
  gregorian n = (Z.of_N y, m, d) /\ day_text n = iso_date ys ms ds /\
  (digits ys /\ String.length ys = 4%nat /\ value ys = y) /\ (digits ms /\ String.length ms = 2%nat /\ value ms = m) /\
  (digits ds /\ String.length ds = 2%nat /\ value ds = d) /\
  ys = pad_left 4 (print_dec y) /\
  (y <= 9999)%N /\ (1 <= m <= 12)%N /\ (1 <= d <= month_days y m)%N.
Proof.
  unfold four_digit_year, day_text. pose proof (gregorian_is_date n) as I. destruct (gregorian n) as [[y m] d]. cbn [fst]. intros Y.
  unfold is_date in I. destruct I as (M & D1 & D2).
  assert (E : month_days (Z.to_N (y mod 400)) m = month_days (Z.to_N y) m).
  { rewrite Z2N.inj_mod by lia. change (Z.to_N 400) with 400%N. apply month_days_mod. }
  rewrite E in D2. pose proof (month_days_le (Z.to_N y) m) as L31. exists (Z.to_N y), m, d. unfold print_int. destruct (Z.ltb_spec y 0) as [H|_]; [lia|].
  exists (pad_left 4 (print_dec (Z.to_N y))), (pad_left 2 (print_dec m)), (pad_left 2 (print_dec d)).
  split; [rewrite Z2N.id by lia; reflexivity|]. split; [reflexivity|].
  split; [apply padded; [lia|change (10 ^ N.of_nat 4)%N with 10000%N; lia]|].
  split; [apply padded; [lia|change (10 ^ N.of_nat 2)%N with 100%N; lia]|].
  split; [apply padded; [lia|change (10 ^ N.of_nat 2)%N with 100%N; lia]|].
  split; [reflexivity|]. lia.
Qed.
Lemma small_numeral s : digits s -> (String.length s <= 4)%nat -> u32_numeral s (value s).
Proof.
  intros D L. exists s. split; [left; reflexivity|]. split; [exact D|]. split; [reflexivity|]. pose proof (value_lt s (proj2 D)) as V.
  assert (10 ^ N.of_nat (String.length s) <= 10 ^ 4)%N by (apply N.pow_le_mono_r; lia). change (10 ^ 4)%N with 10000%N in H. lia.
Qed.
Lemma day_text_nodash s : digits s -> has_char "-" s = false.
Proof. intros [_ D]. induction s as [|c s IH]; [reflexivity|]. cbn in *. apply andb_prop in D as [C D]. rewrite (IH D), orb_false_r. destruct (Ascii.eqb_spec c "-"); [subst c; discriminate|reflexivity]. Qed.

(** A parser of ISO dates: four, two and two digits of a date that exists. *)
Definition iso_civil (s : string) : option (Z * N * N) :=
  match split_on "-" s with
  | [a; b; c] =>
      if (Nat.eqb (String.length a) 4 && Nat.eqb (String.length b) 2 && Nat.eqb (String.length c) 2 &&
          str_forall is_dig a && str_forall is_dig b && str_forall is_dig c &&
          is_dateb (Z.of_N (value a), value b, value c))%bool
      then Some (Z.of_N (value a), value b, value c) else None
  | _ => None
  end.
Definition iso_day (s : string) : option Z := match iso_civil s with Some c => Some (day_number c) | None => None end.
Lemma iso_civil_day n : four_digit_year n -> iso_civil (day_text n) = Some (gregorian n).
Proof.
  intros F. pose proof (gregorian_is_date n) as ID. destruct (day_text_iso n F) as (y & m & d & ys & ms & ds & G & T & (A1 & A2 & A3) & (B1 & B2 & B3) & (C1 & C2 & C3) & _ & Y & M & D).
  unfold iso_civil. rewrite T, iso_split by (apply day_text_nodash; assumption). rewrite A2, B2, C2, A3, B3, C3, (proj2 A1), (proj2 B1), (proj2 C1).
  change (4 =? 4)%nat with true. change (2 =? 2)%nat with true. cbn [andb]. rewrite <- G.
  assert (X : is_dateb (gregorian n) = true).
  { rewrite G in *. unfold is_date in ID. unfold is_dateb. rewrite !andb_true_iff, !N.leb_le. lia. }
  rewrite X. reflexivity.
Qed.
(** The hypothesis of C52_dates is met. *)
Theorem reads_iso_dates : reads_dates gregorian iso_civil.
Proof. intros t Y. rewrite time_day_text. apply iso_civil_day. exact Y. Qed.
Lemma iso_day_text n : four_digit_year n -> iso_day (day_text n) = Some n.
Proof. intros F. unfold iso_day. rewrite (iso_civil_day n F), day_number_gregorian. reflexivity. Qed.

(** The order of the texts is that of the days. *)
Lemma day_text_cmp a b : four_digit_year a -> four_digit_year b -> str_cmp (day_text a) (day_text b) = Z.compare a b.
Proof.
  assert (X : forall a b, four_digit_year a -> four_digit_year b -> a < b -> str_cmp (day_text a) (day_text b) = Lt).
  { intros a' b' FA FB L. apply gregorian_lt in L.
    destruct (day_text_iso a' FA) as (y & m & d & ys & ms & ds & G & T & (A1 & A2 & A3) & (B1 & B2 & B3) & (C1 & C2 & C3) & _ & _).
    destruct (day_text_iso b' FB) as (y' & m' & d' & ys' & ms' & ds' & G' & T' & (A1' & A2' & A3') & (B1' & B2' & B3') & (C1' & C2' & C3') & _ & _).
    rewrite T, T', G, G' in *. pose proof (iso_order ys ms ds ys' ms' ds') as O. unfold date_cmp in O. rewrite O by (try congruence; intros s [<-|[<-|[<-|[<-|[<-|[<-|[]]]]]]]; match goal with H : digits ?t |- _ ?t = true => exact (proj2 H) end).
    rewrite A3, B3, C3, A3', B3', C3'. unfold date_lt in L. unfold then_cmp.
    destruct (N.compare_spec y y'); [|reflexivity|lia]. destruct (N.compare_spec m m'); [|reflexivity|lia]. destruct (N.compare_spec d d'); [lia|reflexivity|lia]. }
  intros FA FB. destruct (Z.compare_spec a b) as [->|L|L].
  - apply (cmp_refl _ str_cmp_laws).
  - apply X; assumption.
  - rewrite (cmp_antisym _ str_cmp_laws), (X b a FB FA L). reflexivity.
Qed.

(** The day as pages show it. *)
Lemma friendly_day n : four_digit_year n -> exists y m d,
  gregorian n = (Z.of_N y, m, d) /\
  friendly_date (day_text n) = Ok (nth (N.to_nat m - 1) MONTHS "" ++ " " ++ (if (d <? 10)%N then " " else "") ++ print_dec d ++ ", " ++ pad_left 4 (print_dec y)).
Proof.
  intros F. destruct (day_text_iso n F) as (y & m & d & ys & ms & ds & G & T & (A1 & A2 & A3) & (B1 & B2 & B3) & (C1 & C2 & C3) & _ & Y & M & D).
  exists y, m, d. split; [exact G|]. rewrite T.
  destruct (iso_components ys ms ds y m d) as (P & Q & R); [rewrite <- A3; apply small_numeral; [exact A1|lia]|rewrite <- B3; apply small_numeral; [exact B1|lia]|rewrite <- C3; apply small_numeral; [exact C1|lia]|].
  unfold friendly_date. rewrite P, Q, R. cbn [obind]. unfold from_ymd.
  assert (E : ((y <=? 262142) && (1 <=? m) && (m <=? 12) && (1 <=? d) && (d <=? month_days y m))%N%bool = true) by (rewrite !andb_true_iff, !N.leb_le; lia).
  rewrite E. cbn [obind]. rewrite (proj2 (N.ltb_ge 9999 y)) by lia. reflexivity.
Qed.
