(** C14, C15, C35: exact forms of three properties that fail as first stated — all the ids of one number, what
    the parts of any date text answer, and which equal sources break transitivity. *)
From Coq Require Import List NArith ZArith Ascii String Bool Lia Arith.
From Verif Require Import Base SemverModel StrLib IdModel IdSpec IdProofs VerText PkgModel UrlModel UrlSpec UrlProofs SumModel PropsSource.
Import ListNotations.
Local Open Scope string_scope.
Local Open Scope N_scope.
Local Infix "++" := String.append (right associativity, at level 60).

(** * C14 *)
(** [s] spells the number [n]: perhaps a plus sign, any number of zeros, then its decimal digits. *)
Fixpoint zeros (k : nat) : string := match k with O => "" | S k => String "0" (zeros k) end.
Definition spells (n : N) (s : string) : Prop :=
  exists sign k, (sign = "" \/ sign = "+") /\ s = sign ++ zeros k ++ print_dec n.

Lemma zeros_digits k s : str_forall is_dig (zeros k ++ s) = str_forall is_dig s.
Proof. induction k as [|k IH]; cbn; [reflexivity|exact IH]. Qed.
Lemma zeros_value k s : value (zeros k ++ s) = value s.
Proof. induction k as [|k IH]; [reflexivity|]. exact IH. Qed.
Lemma digits_zeros k n : digits (zeros k ++ print_dec n) /\ value (zeros k ++ print_dec n) = n.
Proof.
  split; [split|].
  - destruct k; [apply print_dec_nonempty|discriminate].
  - rewrite zeros_digits. apply print_dec_digits.
  - rewrite zeros_value. apply print_dec_value.
Qed.
Lemma zeros_prefix ds : digits ds -> exists k, ds = zeros k ++ print_dec (value ds).
Proof.
  assert (C : forall d, digits d -> no_leading_zero d = true -> d = print_dec (value d)).
  { intros d D Z. apply canonical_inj; auto using print_dec_is_digits, print_dec_nlz. symmetry. apply print_dec_value. }
  induction ds as [|a r IH]; intros [H1 H2]; [congruence|].
  destruct (Ascii.eqb_spec a "0") as [->|Na].
  - destruct r as [|b r]; [exists O; apply C; [split; assumption|reflexivity]|].
    destruct IH as [k E]; [split; [discriminate|exact H2]|]. exists (S k).
    change (value (String "0" (String b r))) with (value (String b r)). cbn [zeros]. rewrite E at 1. reflexivity.
  - exists O. apply C; [split; assumption|]. apply nlz_cons. auto.
Qed.
Lemma numeral_spells s n : u32_numeral s n <-> n <= 4294967295 /\ spells n s.
Proof.
  unfold u32_numeral, spells. split.
  - intros (ds & Hs & D & V & L). split; [exact L|]. destruct (zeros_prefix ds D) as [k E]. rewrite V in E.
    destruct Hs as [-> | ->]; [exists "", k|exists "+", k]; rewrite E at 1; auto.
  - intros [L (sign & k & Hs & ->)]. destruct (digits_zeros k n) as [D V]. exists (zeros k ++ print_dec n).
    destruct Hs as [-> | ->]; auto.
Qed.

(** Exactly these texts are ids of year [y] and number [m]. *)
Theorem C14_ids_of_a_number : forall k pfx y m s,
  dated_prefix k = Some pfx -> 2000 <= y <= 2100 -> m <= 4294967295 -> 
  ((exists i, id_from_str s = Ok i /\ id_kind_of i = k /\ id_year i = Some y /\ numerical_part i = Some m) <->
   exists ys ns, s = pfx ++ "-" ++ ys ++ "-" ++ ns /\ spells y ys /\ spells m ns).
Proof.
  intros k pfx y m s Hk Hy Hm. split.
  - intros (i & H & Ki & Yi & Ni).
    assert (NP : s <> placeholder).
    { intros ->. cbn in H. injection H as <-. discriminate Yi. }
    destruct (id_roundtrip s i H) as (Es & Ek & _).
    assert (Hd : dated_prefix (detect s) = Some pfx) by (rewrite <- Ek, Ki; exact Hk).
    pose proof H as H0. apply (id_dated_iff s pfx NP Hd) in H as (ys & ns & y' & m' & E & N1 & N2 & _ & Ei).
    rewrite Ei in Yi. cbn in Yi. injection Yi as ->.
    destruct (dated_shape s pfx Hd) as (Hp & _).
    rewrite (numerical_part_spec s i pfx ys ns m' H0 NP E Hp (u32_numeral_nodash _ _ N1) N2) in Ni. injection Ni as ->.
    exists ys, ns. split; [exact E|]. split; [apply numeral_spells in N1; apply N1|apply numeral_spells in N2; apply N2].
  - intros (ys & ns & -> & S1 & S2).
    assert (N1 : u32_numeral ys y) by (apply numeral_spells; split; [lia|exact S1]).
    assert (N2 : u32_numeral ns m) by (apply numeral_spells; split; assumption).
    set (s := pfx ++ "-" ++ ys ++ "-" ++ ns).
    assert (Ek : detect s = k /\ has_char "-" pfx = false).
    { unfold s. destruct k; try discriminate Hk; injection Hk as <-; split; reflexivity. }
    destruct Ek as [Ek Hp].
    assert (NP : s <> placeholder).
    { intros E. assert (X : split_on "-" s = split_on "-" placeholder) by (rewrite E; reflexivity).
      unfold s in X. change (pfx ++ "-" ++ ys ++ "-" ++ ns) with (pfx ++ String "-" (ys ++ String "-" ns)) in X.
      rewrite split_on_app in X by exact Hp. rewrite split_on_app in X by exact (u32_numeral_nodash _ _ N1).
      cbn in X. injection X as _ -> _. apply parse_u32_iff in N1. cbn in N1. injection N1 as <-. lia. }
    assert (Hd : dated_prefix (detect s) = Some pfx) by (rewrite Ek; exact Hk).
    assert (H : id_from_str s = Ok (mkId (detect s) (Some y) s)).
    { apply (id_dated_iff s pfx NP Hd). exists ys, ns, y, m. repeat split; try assumption; lia. }
    exists (mkId (detect s) (Some y) s). split; [exact H|]. cbn [id_kind_of id_year]. split; [exact Ek|]. split; [reflexivity|].
    exact (numerical_part_spec s _ pfx ys ns m H NP eq_refl Hp (u32_numeral_nodash _ _ N1) N2).
Qed.
Print Assumptions C14_ids_of_a_number.
Example C14_ids_nonvacuous : spells 2018 "2018" /\ spells 1 "0001" /\ spells 1 "+1" /\ ~ spells 1 "10".
Proof.
  split; [exists "", 0%nat; auto|]. split; [exists "", 3%nat; auto|]. split; [exists "+", 0%nat; auto|].
  intros H. assert (K : u32_numeral "10" 1) by (apply numeral_spells; split; [lia|exact H]).
  apply parse_u32_iff in K. discriminate.
Qed.

(** * C15: the parts of any date text *)
Lemma join_concat l : join_on "-" l = String.concat "-" l.
Proof.
  induction l as [|x l IH]; [reflexivity|]. destruct l as [|y l]; [reflexivity|]. rewrite join_cons2, IH. reflexivity.
Qed.
Lemma component_exact i d l : l <> [] -> (forall x, In x l -> has_char "-" x = false) -> d = String.concat "-" l ->
  (forall n, date_component i d = Ok n <-> exists p, nth_error l i = Some p /\ u32_numeral p n) /\
  date_component i d <> Err.
Proof.
  intros H1 H2 ->. unfold date_component. rewrite <- join_concat, split_join by assumption.
  destruct (nth_error l i) as [p|]; [|split; [split; [discriminate|intros (p & H & _); discriminate]|discriminate]].
  split.
  - intros n. split.
    + intros H. destruct (parse_u32 p) as [m|] eqn:E; [|discriminate]. injection H as ->. exists p. split; [reflexivity|]. apply parse_u32_iff, E.
    + intros (q & [= <-] & H). apply parse_u32_iff in H. rewrite H. reflexivity.
  - destruct (parse_u32 p); discriminate.
Qed.
(** Cut at its dashes, a text's first, second and third part are its year, month and day: the number the part
    spells, or a crash when there is no such part or it spells none. *)
Theorem C15_components_of_any_text : forall d l,
  l <> [] -> (forall x, In x l -> has_char "-" x = false) -> d = String.concat "-" l ->
  forall n,
    (date_year d = Ok n <-> exists p, nth_error l 0 = Some p /\ u32_numeral p n) /\
    (date_month d = Ok n <-> exists p, nth_error l 1 = Some p /\ u32_numeral p n) /\
    (date_day d = Ok n <-> exists p, nth_error l 2 = Some p /\ u32_numeral p n) /\
    (date_year d <> Err /\ date_month d <> Err /\ date_day d <> Err).
Proof.
  intros d l H1 H2 E n. unfold date_year, date_month, date_day.
  split; [|split; [|split; [|repeat split]]]; apply (component_exact _ d l H1 H2 E).
Qed.
Print Assumptions C15_components_of_any_text.
(** Every text is cut in exactly one way. *)
Theorem C15_every_text_is_cut_once : forall d, exists! l,
  l <> [] /\ (forall x, In x l -> has_char "-" x = false) /\ d = String.concat "-" l.
Proof.
  intros d. exists (split_on "-" d). split.
  - split; [apply split_on_nonempty|]. split; [intros x; apply split_on_parts|]. rewrite <- join_concat. symmetry. apply join_split.
  - intros l (H1 & H2 & ->). rewrite <- join_concat. apply split_join; assumption.
Qed.
Print Assumptions C15_every_text_is_cut_once.
(** All three are there exactly for texts that begin with three dash-separated numbers. *)
Theorem C15_which_texts_are_readable : forall d,
  (exists y m e, date_year d = Ok y /\ date_month d = Ok m /\ date_day d = Ok e) <->
  exists ys ms ds rest y m e, d = ys ++ "-" ++ ms ++ "-" ++ ds ++ rest /\
    (rest = "" \/ exists t, rest = "-" ++ t) /\ u32_numeral ys y /\ u32_numeral ms m /\ u32_numeral ds e.
Proof.
  intros d. split.
  - intros (y & m & e & H1 & H2 & H3).
    pose proof (join_split "-" d) as J.
    destruct (component_exact 0 d (split_on "-" d)) as [K0 _]; [apply split_on_nonempty|intros x; apply split_on_parts|rewrite <- join_concat; auto|].
    destruct (component_exact 1 d (split_on "-" d)) as [K1 _]; [apply split_on_nonempty|intros x; apply split_on_parts|rewrite <- join_concat; auto|].
    destruct (component_exact 2 d (split_on "-" d)) as [K2 _]; [apply split_on_nonempty|intros x; apply split_on_parts|rewrite <- join_concat; auto|].
    apply K0 in H1 as (ys & E1 & N1). apply K1 in H2 as (ms & E2 & N2). apply K2 in H3 as (ds & E3 & N3).
    destruct (split_on "-" d) as [|a [|b [|c l]]]; try discriminate. cbn in E1, E2, E3. injection E1 as ->. injection E2 as ->. injection E3 as ->.
    destruct l as [|x l].
    + exists ys, ms, ds, "", y, m, e. rewrite sapp_nil_r. split; [symmetry; exact J|]. auto.
    + exists ys, ms, ds, ("-" ++ join_on "-" (x :: l)), y, m, e. split; [symmetry; exact J|]. split; [right; eauto|]. auto.
  - intros (ys & ms & ds & rest & y & m & e & -> & Hr & N1 & N2 & N3). exists y, m, e.
    pose proof (u32_numeral_nodash _ _ N1) as D1. pose proof (u32_numeral_nodash _ _ N2) as D2. pose proof (u32_numeral_nodash _ _ N3) as D3.
    assert (S : exists l, split_on "-" (ys ++ "-" ++ ms ++ "-" ++ ds ++ rest) = ys :: ms :: ds :: l).
    { change (ys ++ "-" ++ ms ++ "-" ++ ds ++ rest) with (ys ++ String "-" (ms ++ String "-" (ds ++ rest))).
      rewrite split_on_app by exact D1. rewrite split_on_app by exact D2.
      destruct Hr as [-> |[t ->]].
      - rewrite sapp_nil_r, split_on_nochar by exact D3. eauto.
      - change (ds ++ "-" ++ t) with (ds ++ String "-" t). rewrite split_on_app by exact D3. eauto. }
    destruct S as [l S]. unfold date_year, date_month, date_day, date_component. rewrite S. cbn [nth_error].
    apply parse_u32_iff in N1, N2, N3. rewrite N1, N2, N3. auto.
Qed.
Print Assumptions C15_which_texts_are_readable.
Example C15_readable_nonvacuous :
  date_month "2024-02-03T10:00" = Ok 2 /\ date_day "2024-02-03T10:00" = Panic /\ date_day "+2024-02-03-x" = Ok 3.
Proof. repeat split. Qed.

(** * C35: which equal sources break transitivity *)
Theorem C35_transitivity_fails_exactly : forall a b c,
  source_eqb a b = true -> source_eqb b c = true ->
  (source_eqb a c = false <->
   both_git a b /\ both_git b c /\ s_precise b = None /\
   exists p q, s_precise a = Some p /\ s_precise c = Some q /\ p <> q).
Proof.
  intros a b c H1 H2. apply C35_equality_means in H1 as (U1 & N1 & H1). apply C35_equality_means in H2 as (U2 & N2 & H2).
  assert (G : forall x y, (s_kind x = s_kind y /\ ~ both_git x y) -> ~ (exists r, s_kind x = SGit r) /\ ~ (exists r, s_kind y = SGit r)).
  { intros x y [E K]. split; intros [r Hr]; apply K; split; exists r; congruence. }
  assert (EQ : source_eqb a c = false <-> source_eqb a c <> true) by (destruct (source_eqb a c); split; congruence).
  rewrite EQ, C35_equality_means. clear EQ. split.
  - intros K. destruct H1 as [[G1 P1]|K1].
    + destruct H2 as [[G2 P2]|K2]; [|destruct (G _ _ K2) as [X _]; destruct G1 as [_ G1]; contradiction].
      split; [exact G1|]. split; [exact G2|].
      assert (GA : both_git a c) by (split; [apply G1|apply G2]).
      destruct (s_precise a) as [p|] eqn:Ea, (s_precise c) as [q|] eqn:Ec.
      * destruct (string_dec p q) as [->|Npq].
        { exfalso. apply K. split; [congruence|]. split; [congruence|]. left. split; [exact GA|]. intros p' q' X Y. congruence. }
        split; [|exists p, q; auto]. destruct (s_precise b) as [m|] eqn:Eb; [|reflexivity].
        exfalso. apply Npq. transitivity m; [apply P1|apply P2]; reflexivity.
      * exfalso. apply K. split; [congruence|]. split; [congruence|]. left. split; [exact GA|]. intros p' q' X Y. congruence.
      * exfalso. apply K. split; [congruence|]. split; [congruence|]. left. split; [exact GA|]. intros p' q' X Y. congruence.
      * exfalso. apply K. split; [congruence|]. split; [congruence|]. left. split; [exact GA|]. intros p' q' X Y. congruence.
    + destruct (G _ _ K1) as [A1 B1]. destruct H2 as [[G2 _]|K2]; [destruct G2; contradiction|].
      exfalso. apply K. split; [congruence|]. split; [congruence|]. right. split; [destruct K1, K2; congruence|]. intros [X _]. contradiction.
  - intros (GA & GB & Eb & p & q & Ea & Ec & Npq) (_ & _ & [[_ P]|[_ K]]).
    + apply Npq, P; assumption.
    + apply K. split; [apply GA|apply GB].
Qed.
Print Assumptions C35_transitivity_fails_exactly.
Example C35_fails_nonvacuous :
  source_eqb (git_repo GDefaultBranch (Some "1")) (git_repo GDefaultBranch None) = true /\
  source_eqb (git_repo GDefaultBranch None) (git_repo GDefaultBranch (Some "2")) = true /\
  both_git (git_repo GDefaultBranch (Some "1")) (git_repo GDefaultBranch None).
Proof. split; [reflexivity|]. split; [reflexivity|]. split; eexists; reflexivity. Qed.

(** * C33: which checksums are accepted, and which crash *)
Definition continuation_byte (a : ascii) : Prop := 128 <= N_of_ascii a < 192.
Lemma boundary_false a : boundary_before a = false <-> continuation_byte a.
Proof.
  unfold boundary_before, continuation_byte. rewrite negb_false_iff, andb_true_iff, N.leb_le, N.ltb_lt. reflexivity.
Qed.
Lemma loosely_head s d : spells_loosely s d -> match s with String c _ => boundary_before c | EmptyString => true end = true.
Proof.
  destruct s as [|a [|b r]]; intros H; [reflexivity|destruct d; destruct H|]. destruct d; [destruct H|].
  destruct H as [(l & _ & [(h & Ha & _)|[-> _]]) _]; [apply (hex_boundary a h Ha)|reflexivity].
Qed.
Lemma loosely_accepted : forall n s d, (String.length s <= n)%nat -> spells_loosely s d -> digest_loop s = Ok d.
Proof.
  induction n as [|n IH]; intros s d L H.
  - destruct s; [|cbn in L; lia]. destruct d; [reflexivity|destruct H].
  - destruct s as [|a [|b r]]; [destruct d; [reflexivity|destruct H]|destruct d; destruct H|].
    destruct d as [|x d]; [destruct H|]. pose proof (loosely_head _ _ H) as B. cbv iota in B. destruct H as [(l & Hb & Ha) H].
    cbn [digest_loop]. rewrite B, (loosely_head r d H). cbn [andb negb].
    rewrite (IH r d) by (cbn in L; lia || assumption). unfold hex_byte. rewrite Hb.
    destruct Ha as [(h & -> & ->)|[-> ->]]; reflexivity.
Qed.
Theorem C33_accepted_exactly : forall s d,
  checksum_from_str s = Ok d <-> String.length s = 64%nat /\ spells_loosely s d.
Proof.
  intros s d. split; [apply C33_accepted_strings|]. intros [L H]. unfold checksum_from_str. rewrite L. cbn [Nat.eqb negb].
  apply (loosely_accepted 64); [lia|exact H].
Qed.
Print Assumptions C33_accepted_exactly.

(** Off a character boundary: after pairs that are read, a pair that begins or ends inside a character. *)
Theorem C33_crashes_exactly : forall s,
  checksum_from_str s = Panic <->
  String.length s = 64%nat /\ exists q d a b r, s = q ++ String a (String b r) /\ spells_loosely q d /\
    (continuation_byte a \/ exists c r', r = String c r' /\ continuation_byte c).
Proof.
  assert (K : forall n s, (String.length s <= n)%nat -> (digest_loop s = Panic <->
     exists q d a b r, s = q ++ String a (String b r) /\ spells_loosely q d /\
       (continuation_byte a \/ exists c r', r = String c r' /\ continuation_byte c))).
  { induction n as [|n IH]; intros s L.
    - destruct s; [|cbn in L; lia]. split; [discriminate|]. intros (q & d & a & b & r & E & _). destruct q; discriminate.
    - destruct s as [|a [|b r]].
      + split; [discriminate|]. intros (q & d & a & b & r & E & _). destruct q; discriminate.
      + split; [discriminate|]. intros (q & d & a' & b & r & E & _). destruct q as [|? [|]]; discriminate.
      + cbn [digest_loop].
        destruct (boundary_before a && match r with String c _ => boundary_before c | EmptyString => true end) eqn:B; cbn [negb].
        * apply andb_prop in B as [B1 B2].
          assert (Hr : (String.length r <= n)%nat) by (cbn in L; lia). specialize (IH r Hr).
          destruct (hex_byte a b) as [x|] eqn:Eb.
          -- assert (S1 : forall q d, spells_loosely q d -> spells_loosely (String a (String b q)) (x :: d)).
             { intros q d H. split; [|exact H]. unfold hex_byte in Eb.
               destruct (hex_val a) as [h|] eqn:Ea, (hex_val b) as [y|] eqn:Eb'; try discriminate.
               - injection Eb as <-. exists y. split; [reflexivity|]. left. eauto.
               - destruct (Ascii.eqb_spec a "+") as [->|]; [|discriminate]. injection Eb as <-. exists y. auto. }
             assert (EQ : obind (digest_loop r) (fun l => Ok (x :: l)) = Panic <-> digest_loop r = Panic).
             { destruct (digest_loop r); cbn; split; congruence. }
             rewrite EQ, IH. split.
             ++ intros (q & d & a' & b' & r' & -> & H & C). exists (String a (String b q)), (x :: d), a', b', r'. split; [reflexivity|]. auto.
             ++ intros (q & d & a' & b' & r' & E & H & C). destruct q as [|a1 [|b1 q]].
                ** exfalso. cbn in E. injection E as <- <- <-. destruct C as [C|(c & r2 & -> & C)]; apply boundary_false in C; congruence.
                ** destruct d; destruct H.
                ** cbn in E. injection E as <- <- ->. destruct d as [|y d]; [destruct H|]. destruct H as [_ H]. exists q, d, a', b', r'. auto.
          -- split; [discriminate|]. intros (q & d & a' & b' & r' & E & H & C). exfalso. destruct q as [|a1 [|b1 q]].
             ++ cbn in E. injection E as <- <- <-. destruct C as [C|(c & r2 & -> & C)]; apply boundary_false in C; congruence.
             ++ destruct d; destruct H.
             ++ cbn in E. injection E as <- <- ->. destruct d as [|y d]; [destruct H|]. destruct H as [(l & Hl & Ha) _].
                unfold hex_byte in Eb. rewrite Hl in Eb. destruct Ha as [(h & Ha & _)|[-> _]]; [rewrite Ha in Eb; discriminate|discriminate Eb].
        * split; [intros _|reflexivity]. exists "", [], a, b, r. split; [reflexivity|]. split; [exact Logic.I|].
          apply andb_false_iff in B as [B|B]; [left; apply boundary_false, B|right].
          destruct r as [|c r']; [discriminate|]. exists c, r'. split; [reflexivity|]. apply boundary_false, B. }
  intros s. unfold checksum_from_str. destruct (Nat.eqb_spec (String.length s) 64) as [L|L]; cbn [negb].
  - rewrite (K 64%nat s) by lia. tauto.
  - split; [discriminate|intros [H _]; contradiction].
Qed.
Print Assumptions C33_crashes_exactly.
