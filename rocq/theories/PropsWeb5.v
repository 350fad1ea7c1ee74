(** C77 (continued): which dates pages can show, and when showing one crashes. *)
From Coq Require Import List NArith ZArith Ascii String Bool Lia.
From Verif Require Import Base StrLib IdModel IdSpec IdProofs DbModel AdvModel MtimeModel WebModel WebSpec.
Import ListNotations.
Local Open Scope string_scope.
Local Open Scope N_scope.
Local Infix "++" := String.append (right associativity, at level 60).

Definition leap (y : N) : Prop := (y mod 4 = 0 /\ y mod 100 <> 0) \/ y mod 400 = 0.
(** The day [d] of the month [m] of the year [y] exists. *)
Definition on_the_calendar (y m d : N) : Prop :=
  1 <= d /\
  ((In m [1; 3; 5; 7; 8; 10; 12] /\ d <= 31) \/ (In m [4; 6; 9; 11] /\ d <= 30) \/
   (m = 2 /\ d <= 28) \/ (m = 2 /\ d <= 29 /\ leap y)).
(** The first three parts of a text between dashes are these numbers (what follows a third dash is not looked at). *)
Definition names_day (s : string) (y m d : N) : Prop :=
  exists ys ms ds rest, u32_numeral ys y /\ u32_numeral ms m /\ u32_numeral ds d /\
    s = ys ++ "-" ++ ms ++ "-" ++ ds ++ rest /\ (rest = "" \/ exists r, rest = "-" ++ r).

Lemma leap_iff y : is_leap y = true <-> leap y.
Proof.
  unfold is_leap, leap. rewrite andb_true_iff, orb_true_iff, negb_true_iff, !N.eqb_eq, N.eqb_neq.
  split; [intros [A [B|B]]; auto|]. intros [[A B]|B]; [auto|]. split; [|auto].
  rewrite (N.div_mod y 400), B by lia. rewrite N.add_0_r. replace (400 * (y / 400)) with (y / 400 * 100 * 4) by lia. apply N.mod_mul. lia.
Qed.
Lemma calendar_iff y m d : on_the_calendar y m d <-> 1 <= m <= 12 /\ 1 <= d /\ d <= month_days y m.
Proof.
  unfold on_the_calendar, month_days. split.
  - intros (D & X). assert (M : 1 <= m <= 12) by (cbn [In] in X; lia). split; [exact M|]. split; [exact D|].
    assert (K : In m [1; 2; 3; 4; 5; 6; 7; 8; 9; 10; 11; 12]) by (cbn; lia).
    destruct (is_leap y) eqn:L.
    + repeat (destruct K as [<-|K]; [cbn [N.eqb Pos.eqb orb]; cbn [In] in X; lia|]). destruct K.
    + assert (NL : ~ leap y) by (rewrite <- leap_iff; congruence).
      assert (X' : (In m [1; 3; 5; 7; 8; 10; 12] /\ d <= 31) \/ (In m [4; 6; 9; 11] /\ d <= 30) \/ (m = 2 /\ d <= 28)) by tauto.
      repeat (destruct K as [<-|K]; [cbn [N.eqb Pos.eqb orb]; cbn [In] in X'; lia|]). destruct K.
  - intros (M & D & X). split; [exact D|]. assert (K : In m [1; 2; 3; 4; 5; 6; 7; 8; 9; 10; 11; 12]) by (cbn; lia).
    destruct (is_leap y) eqn:L.
    + assert (Y : leap y) by (apply leap_iff; exact L).
      repeat (destruct K as [<-|K]; [cbn [N.eqb Pos.eqb orb] in X; cbn [In]; intuition lia|]). destruct K.
    + repeat (destruct K as [<-|K]; [cbn [N.eqb Pos.eqb orb] in X; cbn [In]; intuition lia|]). destruct K.
Qed.
Lemma component_iff i s n : date_component i s = Ok n <-> exists p, nth_error (split_on "-" s) i = Some p /\ u32_numeral p n.
Proof.
  unfold date_component. destruct (nth_error (split_on "-" s) i) as [p|]; [|split; [discriminate|intros (? & ? & _); discriminate]].
  destruct (parse_u32 p) as [k|] eqn:P; split.
  - intros H. injection H as <-. exists p. split; [reflexivity|]. apply parse_u32_iff. exact P.
  - intros (p' & H & U). injection H as <-. apply parse_u32_iff in U. congruence.
  - discriminate.
  - intros (p' & H & U). injection H as <-. apply parse_u32_iff in U. congruence.
Qed.
Lemma component_crashes i s : date_component i s = Panic \/ exists n, date_component i s = Ok n.
Proof. unfold date_component. destruct (nth_error _ _) as [p|]; [|auto]. destruct (parse_u32 p); eauto. Qed.
Lemma names_iff s y m d : names_day s y m d <-> date_year s = Ok y /\ date_month s = Ok m /\ date_day s = Ok d.
Proof.
  unfold date_year, date_month, date_day. rewrite !component_iff. split.
  - intros (ys & ms & ds & rest & U & V & W & -> & R).
    assert (E : exists t, split_on "-" (ys ++ "-" ++ ms ++ "-" ++ ds ++ rest) = ys :: ms :: ds :: t).
    { change (ys ++ "-" ++ ms ++ "-" ++ ds ++ rest) with (ys ++ String "-" (ms ++ String "-" (ds ++ rest))).
      rewrite split_on_app by (eapply u32_numeral_nodash; exact U). rewrite split_on_app by (eapply u32_numeral_nodash; exact V).
      destruct R as [->|[r ->]].
      - rewrite sapp_nil_r, split_on_nochar by (eapply u32_numeral_nodash; exact W). eauto.
      - change ("-" ++ r) with (String "-" r). rewrite split_on_app by (eapply u32_numeral_nodash; exact W). eauto. }
    destruct E as [t ->]. cbn [nth_error]. split; [exists ys; auto|]. split; [exists ms; auto|exists ds; auto].
  - intros ((ys & A & U) & (ms & B & V) & (ds & C & W)). pose proof (join_split "-" s) as J.
    destruct (split_on "-" s) as [|a [|b [|c t]]]; cbn [nth_error] in A, B, C; try discriminate.
    injection A as ->. injection B as ->. injection C as ->. exists ys, ms, ds.
    destruct t as [|e t].
    + exists "". repeat (split; [assumption|]). split; [rewrite sapp_nil_r; symmetry; exact J|auto].
    + exists ("-" ++ join_on "-" (e :: t)). repeat (split; [assumption|]). split; [|eauto].
      rewrite !join_cons2 in J. symmetry. exact J.
Qed.
Lemma from_ymd_iff y m d r : from_ymd y m d = Ok r <-> y <= 262142 /\ on_the_calendar y m d /\ r = (y, m, d).
Proof.
  unfold from_ymd. rewrite calendar_iff.
  destruct ((y <=? 262142) && (1 <=? m) && (m <=? 12) && (1 <=? d) && (d <=? month_days y m))%bool eqn:E.
  - rewrite !andb_true_iff, !N.leb_le in E. split; [intros H; injection H as <-; tauto|intros (_ & _ & ->); reflexivity].
  - split; [discriminate|]. intros (A & B & _). exfalso. apply not_true_iff_false in E. apply E. rewrite !andb_true_iff, !N.leb_le. tauto.
Qed.
Lemma from_ymd_crashes y m d : from_ymd y m d = Panic \/ exists r, from_ymd y m d = Ok r.
Proof. unfold from_ymd. destruct (_ && _)%bool; eauto. Qed.
Lemma month_name_nth m : 1 <= m <= 12 -> nth (N.to_nat m - 1) MONTHS "" = month_name m.
Proof. intros H. assert (K : In m [1; 2; 3; 4; 5; 6; 7; 8; 9; 10; 11; 12]) by (cbn; lia). repeat (destruct K as [<-|K]; [reflexivity|]). destruct K. Qed.

Lemma Ok_inj {A} (a b : A) : Ok a = Ok b -> a = b.
Proof. congruence. Qed.
(** *** C77: a page shows a date exactly if its first three parts name a day of the calendar, and shows that day... *)
Theorem C77_which_dates : forall s t, friendly_date s = Ok t <->
  exists y m d, names_day s y m d /\ on_the_calendar y m d /\ y <= 262142 /\
    t = month_name m ++ " " ++ (if N.ltb d 10 then " " else "") ++ print_dec d ++ ", " ++ (if N.ltb 9999 y then "+" else "") ++ pad_left 4 (print_dec y).
Proof.
  intros s t. unfold friendly_date. split.
  - intros H. destruct (date_year s) as [y| |] eqn:Y; cbn [obind] in H; try discriminate. destruct (date_month s) as [m| |] eqn:M; cbn [obind] in H; try discriminate.
    destruct (date_day s) as [d| |] eqn:D; cbn [obind] in H; try discriminate. destruct (from_ymd y m d) as [r| |] eqn:F; cbn [obind] in H; try discriminate.
    apply from_ymd_iff in F as (A & B & _). exists y, m, d. split; [apply names_iff; auto|]. split; [exact B|]. split; [exact A|].
    rewrite month_name_nth in H by (apply calendar_iff in B; lia). symmetry. exact (Ok_inj _ _ H).
  - intros (y & m & d & Nm & C & L & ->). apply names_iff in Nm as (-> & -> & ->). cbn [obind].
    rewrite (proj2 (from_ymd_iff y m d (y, m, d)) (conj L (conj C eq_refl))). cbn [obind].
    rewrite month_name_nth by (apply calendar_iff in C; lia). reflexivity.
Qed.
(** *** C77: ... and every other text crashes the generator: it is never reported as an error. *)
Theorem C77_other_dates_crash : forall s, friendly_date s = Panic <->
  ~ exists y m d, names_day s y m d /\ on_the_calendar y m d /\ y <= 262142.
Proof.
  intros s.
  assert (X : friendly_date s = Panic \/ exists t, friendly_date s = Ok t).
  { unfold friendly_date. destruct (component_crashes 0 s) as [E|[y E]]; unfold date_year; rewrite E; cbn [obind]; [auto|].
    destruct (component_crashes 1 s) as [E1|[m E1]]; unfold date_month; rewrite E1; cbn [obind]; [auto|].
    destruct (component_crashes 2 s) as [E2|[d E2]]; unfold date_day; rewrite E2; cbn [obind]; [auto|].
    destruct (from_ymd_crashes y m d) as [F|[r F]]; rewrite F; cbn [obind]; eauto. }
  split.
  - intros P (y & m & d & A & B & C). assert (Y : exists t, friendly_date s = Ok t) by (eexists; apply C77_which_dates; exists y, m, d; auto). destruct Y as [t Y]. congruence.
  - intros Nn. destruct X as [X|[t X]]; [exact X|]. exfalso. apply Nn. apply C77_which_dates in X as (y & m & d & A & B & C & _). exists y, m, d. auto.
Qed.
(** An advisory can be accepted with such a date: a parser of dates that also takes dates without dashes (as jiff's does) makes one whose page crashes. *)
Theorem C77_accepted_dates_can_crash : exists civil s, civil s = Some (2024%Z, 1, 2) /\ date_from_str civil s = Ok s /\ friendly_date s = Panic.
Proof. exists (fun s => if String.eqb s "20240102" then Some (2024%Z, 1, 2) else None), "20240102". repeat split; reflexivity. Qed.
Example C77_which_dates_nonvacuous : friendly_date "2024-02-29" = Ok "February 29, 2024" /\ friendly_date "2023-02-29" = Panic.
Proof. split; reflexivity. Qed.
Print Assumptions C77_which_dates.
Print Assumptions C77_other_dates_crash.
