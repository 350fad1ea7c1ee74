(** Property theorems C12-C15, C66 (advisory ids and dates). *)
From Coq Require Import List NArith ZArith Ascii String Bool Lia Wf_nat.
From Verif Require Import Base StrLib IdModel IdSpec IdProofs.
Import ListNotations.
Local Open Scope string_scope.
Local Open Scope N_scope.
Local Infix "++" := String.append (right associativity, at level 60).

(** ** C12 *)
Theorem C12_parsing_never_panics : forall s, id_from_str s <> Panic.
Proof. exact id_from_str_nopanic. Qed.
Print Assumptions C12_parsing_never_panics.

Theorem C12_id_round_trips : forall s i, id_from_str s = Ok i ->
  id_string i = s /\ id_from_str (id_string i) = Ok i /\ (is_placeholder i = true <-> s = "RUSTSEC-0000-0000").
Proof.
  intros s i H. destruct (id_roundtrip s i H) as (A & _ & C).
  split; [exact A|]. split; [exact (id_parsed_unique s i H)|exact C].
Qed.
Print Assumptions C12_id_round_trips.

Theorem C12_kind_is_the_prefix : forall s i, id_from_str s = Ok i ->
  (id_kind_of i = KRustSec <-> has_prefix "RUSTSEC-" s) /\
  (id_kind_of i = KCve <-> has_prefix "CVE-" s) /\
  (id_kind_of i = KTalos <-> has_prefix "TALOS-" s) /\
  (id_kind_of i = KGhsa <-> has_prefix "GHSA-" s) /\
  (id_kind_of i = KOther <-> ~ has_prefix "RUSTSEC-" s /\ ~ has_prefix "CVE-" s /\
                             ~ has_prefix "TALOS-" s /\ ~ has_prefix "GHSA-" s).
Proof.
  intros s i H. destruct (id_roundtrip s i H) as (_ & -> & _).
  pose proof (detect_spec s) as D. destruct (detect_prefix s) as (P1 & P2 & P3 & P4).
  split; [|split; [|split; [|split]]]; split; intros K; try (rewrite K in D; exact D); try (now auto).
  destruct K as (K1 & K2 & K3 & K4). destruct (detect s); [contradiction|contradiction|contradiction|contradiction|reflexivity].
Qed.
Print Assumptions C12_kind_is_the_prefix.

Example C12_nonvacuous :
  id_from_str "RUSTSEC-2018-0001" = Ok (mkId KRustSec (Some 2018) "RUSTSEC-2018-0001") /\
  id_from_str "GHSA-4grx-2x9w-596c" = Ok (mkId KGhsa None "GHSA-4grx-2x9w-596c") /\
  id_from_str "RUSTSEC-0000-0000" = Ok id_default /\ id_from_str "CVE-1999-0067" = Err.
Proof. repeat split. Qed.

(** ** C13 *)
Theorem C13_dated_ids : forall s pfx, s <> "RUSTSEC-0000-0000" -> dated_prefix (detect s) = Some pfx ->
  forall i, id_from_str s = Ok i <->
  exists ys ns y m, s = pfx ++ "-" ++ ys ++ "-" ++ ns /\ u32_numeral ys y /\ u32_numeral ns m /\
    2000 <= y <= 2100 /\ i = mkId (detect s) (Some y) s.
Proof. exact id_dated_iff. Qed.
Print Assumptions C13_dated_ids.

Theorem C13_year_and_number_are_those_written : forall s i pfx ys ns y m,
  id_from_str s = Ok i -> dated_prefix (id_kind_of i) = Some pfx -> s <> "RUSTSEC-0000-0000" ->
  s = pfx ++ "-" ++ ys ++ "-" ++ ns -> u32_numeral ys y -> u32_numeral ns m ->
  id_year i = Some y /\ numerical_part i = Some m.
Proof.
  intros s i pfx ys ns y m H Hd Hne Es Hy Hm.
  destruct (id_roundtrip s i H) as (_ & Ek & _). rewrite Ek in Hd.
  pose proof (u32_numeral_nodash ys y Hy) as Ny. pose proof (u32_numeral_nodash ns m Hm) as Nm.
  destruct (dated_shape s pfx Hd) as (Hp & _).
  split; [|eapply numerical_part_spec; eauto].
  apply (id_dated_iff s pfx Hne Hd) in H as (ys' & ns' & y' & m' & Es' & Hy' & Hm' & _ & ->). cbn [id_year].
  assert (E : split_on "-" s = [pfx; ys; ns]).
  { rewrite Es. change (pfx ++ "-" ++ ys ++ "-" ++ ns) with (pfx ++ String "-" (ys ++ String "-" ns)).
    rewrite !split_on_app, split_on_nochar by assumption. reflexivity. }
  assert (E' : split_on "-" s = [pfx; ys'; ns']).
  { rewrite Es'. change (pfx ++ "-" ++ ys' ++ "-" ++ ns') with (pfx ++ String "-" (ys' ++ String "-" ns')).
    rewrite !split_on_app, split_on_nochar by (assumption || eapply u32_numeral_nodash; eassumption). reflexivity. }
  rewrite E in E'. injection E' as <- <-. apply parse_u32_iff in Hy, Hy'. congruence.
Qed.
Print Assumptions C13_year_and_number_are_those_written.

Theorem C13_other_ids_have_no_year : forall s, dated_prefix (detect s) = None ->
  id_from_str s = Ok (mkId (detect s) None s).
Proof. intros s H. apply id_undated; [|exact H]. intros ->. discriminate H. Qed.
Print Assumptions C13_other_ids_have_no_year.

Example C13_nonvacuous :
  dated_prefix (detect "CVE-2021-44228") = Some "CVE" /\
  "CVE-2021-44228" = "CVE" ++ "-" ++ "2021" ++ "-" ++ "44228" /\
  u32_numeral "2021" 2021 /\ u32_numeral "44228" 44228 /\
  id_from_str "CVE-2021-44228" = Ok (mkId KCve (Some 2021) "CVE-2021-44228") /\
  numerical_part (mkId KCve (Some 2021) "CVE-2021-44228") = Some 44228 /\
  id_from_str "CVE-2021-1-2" = Err /\ id_from_str "CVE-2021" = Err /\ id_from_str "TALOS-2101-1" = Err.
Proof.
  repeat split; try reflexivity; rewrite <- parse_u32_iff; reflexivity.
Qed.

(** ** C14: refuted in general (leading zeros and plus signs are not canonicalised) ... *)
Theorem C14_number_determines_id_refuted :
  exists a b, a <> b /\
    id_from_str "RUSTSEC-2018-0001" = Ok a /\ id_from_str "RUSTSEC-2018-1" = Ok b /\
    id_kind_of a = id_kind_of b /\ id_year a = id_year b /\ numerical_part a = numerical_part b /\
    numerical_part a = Some 1 /\
    (exists c, id_from_str "RUSTSEC-+2018-+1" = Ok c /\ id_year c = Some 2018 /\ numerical_part c = Some 1).
Proof.
  exists (mkId KRustSec (Some 2018) "RUSTSEC-2018-0001"), (mkId KRustSec (Some 2018) "RUSTSEC-2018-1").
  split; [discriminate|]. repeat split. eexists; repeat split.
Qed.
Print Assumptions C14_number_determines_id_refuted.

(** ... but true of ids whose parts are digits of the same widths. *)
Theorem C14_same_width_ids_are_determined_partial : forall ys1 ns1 ys2 ns2 y m,
  digits ys1 -> digits ns1 -> digits ys2 -> digits ns2 ->
  String.length ys1 = String.length ys2 -> String.length ns1 = String.length ns2 ->
  u32_numeral ys1 y -> u32_numeral ys2 y -> u32_numeral ns1 m -> u32_numeral ns2 m ->
  "RUSTSEC-" ++ ys1 ++ "-" ++ ns1 = "RUSTSEC-" ++ ys2 ++ "-" ++ ns2.
Proof. exact id_injective_canonical. Qed.
Print Assumptions C14_same_width_ids_are_determined_partial.
Example C14_nonvacuous : digits "2018" /\ digits "0001" /\ u32_numeral "2018" 2018 /\ u32_numeral "0001" 1.
Proof.
  split; [split; [discriminate|reflexivity]|]. split; [split; [discriminate|reflexivity]|].
  split; rewrite <- parse_u32_iff; reflexivity.
Qed.

(** ** C15.  [civil] is the external parser [jiff::civil::Date::from_str]. *)
Theorem C15_accepted_years : forall civil s y m d, civil s = Some (y, m, d) -> (-32768 <= y <= 32767)%Z ->
  (date_from_str civil s = Ok s <-> (2000 <= y <= 2100)%Z) /\
  (date_from_str civil s = Err <-> ~ (2000 <= y <= 2100)%Z).
Proof. exact date_accept_iff. Qed.
Print Assumptions C15_accepted_years.

Theorem C15_iso_components_are_those_written_partial : forall civil ys ms ds y m d s,
  u32_numeral ys y -> u32_numeral ms m -> u32_numeral ds d ->
  date_from_str civil (iso_date ys ms ds) = Ok s ->
  date_year s = Ok y /\ date_month s = Ok m /\ date_day s = Ok d.
Proof.
  intros civil ys ms ds y m d s Hy Hm Hd H. apply date_accept in H as (-> & _).
  apply iso_components; assumption.
Qed.
Print Assumptions C15_iso_components_are_those_written_partial.

Theorem C15_iso_dates_order_chronologically : forall y1 m1 d1 y2 m2 d2,
  (forall s, In s [y1; m1; d1; y2; m2; d2] -> str_forall is_dig s = true) ->
  String.length y1 = String.length y2 -> String.length m1 = String.length m2 -> String.length d1 = String.length d2 ->
  date_cmp (iso_date y1 m1 d1) (iso_date y2 m2 d2) =
  then_cmp (value y1 ?= value y2) (then_cmp (value m1 ?= value m2) (value d1 ?= value d2)).
Proof. exact iso_order. Qed.
Print Assumptions C15_iso_dates_order_chronologically.

(** Dates written in the other forms the external parser takes (basic format, date-time) are accepted,
    and then asking for a component panics. *)
Theorem C15_accepted_dates_are_usable_refuted : forall civil,
  civil "20240102" = Some (2024%Z, 1, 2) -> civil "2017-01-01T00:00:00" = Some (2017%Z, 1, 1) ->
  (date_from_str civil "20240102" = Ok "20240102" /\
   date_year "20240102" = Ok 20240102 /\ date_month "20240102" = Panic) /\
  (date_from_str civil "2017-01-01T00:00:00" = Ok "2017-01-01T00:00:00" /\
   date_day "2017-01-01T00:00:00" = Panic).
Proof.
  intros civil H1 H2. unfold date_from_str. rewrite H1, H2. repeat split.
Qed.
Print Assumptions C15_accepted_dates_are_usable_refuted.

Definition ex_civil (s : string) : option (Z * N * N) :=
  if String.eqb s "2024-03-09" then Some (2024%Z, 3, 9)
  else if String.eqb s "20240102" then Some (2024%Z, 1, 2)
  else if String.eqb s "2017-01-01T00:00:00" then Some (2017%Z, 1, 1) else None.
Example C15_nonvacuous :
  date_from_str ex_civil "2024-03-09" = Ok "2024-03-09" /\ date_year "2024-03-09" = Ok 2024 /\
  date_month "2024-03-09" = Ok 3 /\ date_day "2024-03-09" = Ok 9 /\
  date_cmp "2024-03-09" "2024-02-28" = Gt.
Proof. repeat split. Qed.

Lemma has_char_srev c s : has_char c (srev s) = has_char c s.
Proof.
  induction s as [|a s IH]; [reflexivity|]. rewrite srev_cons, has_char_app, IH. cbn. rewrite orb_false_r. apply orb_comm.
Qed.
(** *** C13, C66: the placeholder has no year, number or link; *)
Theorem C13_placeholder_has_no_number : forall i, id_from_str "RUSTSEC-0000-0000" = Ok i ->
  id_year i = None /\ numerical_part i = None /\ id_url i = None.
Proof. intros i [= <-]. repeat split; reflexivity. Qed.
Print Assumptions C13_placeholder_has_no_number.
(** an id has the number of its last dash-separated part, when that is one. *)
Theorem C13_number_of_any_id : forall s i m, id_from_str s = Ok i -> s <> "RUSTSEC-0000-0000" ->
  (numerical_part i = Some m <->
   (exists before last, s = before ++ "-" ++ last /\ has_char "-" last = false /\ u32_numeral last m) \/
   (has_char "-" s = false /\ u32_numeral s m)).
Proof.
  intros s i m H N. destruct (id_roundtrip s i H) as (E1 & _ & E3).
  unfold numerical_part. destruct (is_placeholder i) eqn:Ei; [exfalso; apply N, E3; reflexivity|]. rewrite E1. clear.
  assert (L : forall s, exists l, rev (split_on "-" s) = l :: tl (rev (split_on "-" s)) /\ has_char "-" l = false /\
     ((exists b, s = b ++ "-" ++ l) \/ (has_char "-" s = false /\ l = s))).
  { clear. intros s. remember (String.length s) as n eqn:En. revert s En. induction n as [n IH] using lt_wf_ind. intros s ->.
    destruct (split_once "-" s) as [[a b]|] eqn:S.
    - apply split_once_spec in S as [-> Ha]. destruct (IH (String.length b)) with (s := b) as (l & L1 & L2 & L3); [rewrite slength_app; cbn; lia|reflexivity|].
      rewrite split_on_app by exact Ha. cbn [rev]. exists l. split; [rewrite L1; reflexivity|]. split; [exact L2|]. left.
      destruct L3 as [(c & ->)|[_ ->]]; [|exists a; reflexivity]. exists (a ++ "-" ++ c). rewrite !sapp_assoc. reflexivity.
    - apply split_once_none in S. exists s. rewrite split_on_nochar by exact S. split; [reflexivity|]. split; [exact S|]. right. auto. }
  destruct (L s) as (l & L1 & L2 & L3). rewrite L1, parse_u32_iff. split.
  - intros U. destruct L3 as [(b & ->)|[L3 ->]]; [left; exists b, l; auto|right; auto].
  - intros [(b & l' & Es & H1 & H2)|[H1 H2]].
    + destruct L3 as [(c & Es')|[L3 ->]].
      * assert (l = l'); [|congruence]. clear -Es Es' L2 H1. rewrite Es in Es'. clear Es.
        assert (X : split_once "-" (srev (b ++ "-" ++ l')) = split_once "-" (srev (c ++ "-" ++ l))) by (rewrite Es'; reflexivity).
        assert (Y : forall x y, has_char "-" y = false -> split_once "-" (srev (x ++ "-" ++ y)) = Some (srev y, srev x)).
        { intros x y Hy. change (x ++ "-" ++ y) with (x ++ String "-" y). rewrite srev_sapp, srev_cons, sapp_assoc. apply split_once_spec; split; [reflexivity|].
          rewrite has_char_srev. exact Hy. }
        rewrite !Y in X by assumption. injection X as X _. rewrite <- (srev_involutive l), <- X. apply srev_involutive.
      * exfalso. rewrite Es in L3. rewrite !has_char_app in L3. cbn in L3. rewrite orb_true_r in L3. discriminate.
    + destruct L3 as [(c & Es')|[L3 ->]]; [|exact H2]. exfalso. rewrite Es' in H1. rewrite !has_char_app in H1. cbn in H1. rewrite orb_true_r in H1. discriminate.
Qed.
Print Assumptions C13_number_of_any_id.
(** Known kinds of ids link to their database; nothing else has a link. *)
Theorem C66_links : forall s i, id_from_str s = Ok i -> s <> "RUSTSEC-0000-0000" ->
  (has_prefix "RUSTSEC-" s -> id_url i = Some ("https://rustsec.org/advisories/" ++ s)) /\
  (has_prefix "CVE-" s -> id_url i = Some ("https://www.cve.org/CVERecord?id=" ++ s)) /\
  (has_prefix "GHSA-" s -> id_url i = Some ("https://github.com/advisories/" ++ s)) /\
  (has_prefix "TALOS-" s -> id_url i = Some ("https://www.talosintelligence.com/reports/" ++ s)) /\
  (~ has_prefix "RUSTSEC-" s -> ~ has_prefix "CVE-" s -> ~ has_prefix "TALOS-" s -> ~ has_prefix "GHSA-" s -> id_url i = None).
Proof.
  intros s i H N. destruct (id_roundtrip s i H) as (E1 & _ & E3).
  destruct (C12_kind_is_the_prefix s i H) as (K1 & K2 & K3 & K4 & K5). unfold id_url.
  assert (P : is_placeholder i = false) by (destruct (is_placeholder i); [exfalso; apply N, E3; reflexivity|reflexivity]).
  rewrite P, E1.
  split; [intros X; apply K1 in X; rewrite X; reflexivity|]. split; [intros X; apply K2 in X; rewrite X; reflexivity|].
  split; [intros X; apply K4 in X; rewrite X; reflexivity|]. split; [intros X; apply K3 in X; rewrite X; reflexivity|].
  intros A B C D. assert (X : id_kind_of i = KOther) by (apply K5; auto). rewrite X. reflexivity.
Qed.
Print Assumptions C66_links.
(** Two ids never share a link. *)
Theorem C66_links_are_distinct : forall s s' i i' u, id_from_str s = Ok i -> id_from_str s' = Ok i' ->
  id_url i = Some u -> id_url i' = Some u -> s = s'.
Proof.
  intros s s' i i' u H H' U U'. destruct (id_roundtrip s i H) as (E1 & K & _). destruct (id_roundtrip s' i' H') as (E1' & K' & _).
  unfold id_url in *. rewrite K, E1 in U. rewrite K', E1' in U'.
  destruct (detect s), (detect s'); try destruct (is_placeholder i); try destruct (is_placeholder i'); try discriminate;
    rewrite <- U in U'; injection U'; intros; subst; congruence.
Qed.
Print Assumptions C66_links_are_distinct.
Example C66_nonvacuous : exists i j, id_from_str "RUSTSEC-2018-0001" = Ok i /\ id_url i = Some "https://rustsec.org/advisories/RUSTSEC-2018-0001" /\
  id_from_str "Anonymous-42" = Ok j /\ id_url j = None /\ numerical_part j = Some 42.
Proof. eexists; eexists. repeat split; reflexivity. Qed.
