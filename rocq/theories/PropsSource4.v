(** C34 continued: exactly which branches, tags and revisions survive the unescaped form (lock file formats 1 to 3). *)
From Coq Require Import List NArith Ascii String Bool Arith Lia.
From Verif Require Import Base StrLib VerText PkgModel UrlModel UrlSpec UrlProofs PropsSource PropsSource2.
Import ListNotations.
Local Open Scope string_scope.
Local Infix "++" := String.append (right associativity, at level 60).

(** ** The statement *)
Definition without (c : ascii) (v : string) : Prop := forall x y, v <> x ++ String c y.
Definition hexadecimal (c : ascii) : Prop := In c (list_ascii_of_string "0123456789abcdefABCDEF").
(** What the unescaped form can carry: no ['#'] (it starts the revision), no ['&'] (it ends the reference), no ['+'] (it is read as a
    space), no tab or line end (they are dropped), no ['%'] before two hexadecimal digits (it is read as a byte); and, if no revision
    is pinned, no blank at the end (it is trimmed). *)
Definition carried (v : string) (pinned : option string) : Prop :=
  without "#" v /\ without "&" v /\ without "+" v /\ (forall c, line_char c -> without c v) /\
  (forall x h l y, v = x ++ String "%" (String h (String l y)) -> ~ (hexadecimal h /\ hexadecimal l)) /\
  (pinned = None -> forall x c, v = x ++ String c "" -> (32 < N_of_ascii c)%N).

(** ** Decoding what the query holds *)
Lemma without_iff c v : without c v <-> has_char c v = false.
Proof.
  unfold without. induction v as [|a v IH].
  - split; [reflexivity|]. intros _ [|] y; discriminate.
  - cbn [has_char]. split.
    + intros H. apply orb_false_iff. split.
      * destruct (Ascii.eqb_spec a c) as [->|]; [|reflexivity]. exfalso. exact (H "" v eq_refl).
      * apply IH. intros x y ->. exact (H (String a x) y eq_refl).
    + intros H x y E. apply orb_false_iff in H as [H1 H2]. destruct x as [|b x]; cbn in E; injection E as E1 E2.
      * subst a. rewrite Ascii.eqb_refl in H1. discriminate.
      * exact (proj2 IH H2 x y E2).
Qed.
Definition is_hex (c : ascii) : bool := match hex_val c with Some _ => true | None => false end.
Lemma is_hex_iff c : is_hex c = true <-> hexadecimal c.
Proof.
  assert (K : forall c, eqb (is_hex c) (existsb (Ascii.eqb c) (list_ascii_of_string "0123456789abcdefABCDEF")) = true) by (apply ascii_forall; reflexivity).
  specialize (K c). apply eqb_prop in K. rewrite K. unfold hexadecimal. rewrite existsb_exists. split.
  - intros (x & Hx & E). apply Ascii.eqb_eq in E as ->. exact Hx.
  - intros H. exists c. split; [exact H|apply Ascii.eqb_refl].
Qed.
Definition hex_pair (r : string) : bool := match r with String h (String l _) => is_hex h && is_hex l | _ => false end.
Fixpoint has_escape (v : string) : bool := match v with String a r => (Ascii.eqb a "%" && hex_pair r) || has_escape r | EmptyString => false end.
Lemma has_escape_iff v : has_escape v = false <-> (forall x h l y, v = x ++ String "%" (String h (String l y)) -> ~ (hexadecimal h /\ hexadecimal l)).
Proof.
  induction v as [|a v IH].
  - split; [|reflexivity]. intros _ [|] h l y E; discriminate.
  - cbn [has_escape]. split.
    + intros H x h l y E [Hh Hl]. apply orb_false_iff in H as [H1 H2]. destruct x as [|b x].
      * assert (a = "%"%char /\ v = String h (String l y)) as [-> ->] by (cbn in E; split; congruence). cbn [hex_pair] in H1.
        rewrite (proj2 (is_hex_iff h) Hh), (proj2 (is_hex_iff l) Hl) in H1. discriminate.
      * assert (Ev : v = x ++ String "%" (String h (String l y))) by (cbn [String.append] in E; congruence).
        exact (proj1 IH H2 x h l y Ev (conj Hh Hl)).
    + intros H. apply orb_false_iff. split.
      * destruct (Ascii.eqb_spec a "%") as [->|]; [|reflexivity]. destruct v as [|h [|l y]]; try reflexivity. cbn [andb hex_pair].
        destruct (is_hex h) eqn:Eh; [|reflexivity]. destruct (is_hex l) eqn:El; [|reflexivity]. exfalso.
        apply (H "" h l y eq_refl). split; apply is_hex_iff; assumption.
      * apply IH. intros x h l y ->. exact (H (String a x) h l y eq_refl).
Qed.
Lemma hex_kept sp c : is_hex c = true -> query_set sp c = false /\ Ascii.eqb c "+" = false /\ c <> "%"%char.
Proof.
  intros H. split; [|split].
  - apply negb_true_iff. revert H. apply (ascii_imp is_hex (fun c => negb (query_set sp c))). destruct sp; reflexivity.
  - apply negb_true_iff. revert H. apply (ascii_imp is_hex (fun c => negb (Ascii.eqb c "+"))). reflexivity.
  - intros ->. discriminate.
Qed.
Definition read_back (sp : bool) (v : string) : string := form_decode (encode (query_set sp) v).
Lemma percent_other w : hex_pair w = false -> percent_decode (String "%" w) = String "%" (percent_decode w).
Proof.
  destruct w as [|x [|y z]]; try reflexivity. cbn [hex_pair]. unfold is_hex. intros H. cbn [percent_decode].
  destruct (hex_val x); [|reflexivity]. destruct (hex_val y); [discriminate|reflexivity].
Qed.
Lemma first_of sp r c w : plus_to_space (encode (query_set sp) r) = String c w -> is_hex c = true ->
  exists r', r = String c r' /\ w = plus_to_space (encode (query_set sp) r').
Proof.
  destruct r as [|a r]; [discriminate|]. cbn [encode]. destruct (query_set sp a) eqn:Q.
  - rewrite plus_pct. unfold pct. cbn [String.append]. intros E H. assert (c = "%"%char) as -> by congruence. discriminate.
  - cbn [plus_to_space]. destruct (Ascii.eqb a "+"); intros E H.
    + assert (c = " "%char) as -> by congruence. discriminate.
    + exists r. split; congruence.
Qed.
Lemma read_back_set sp a r : query_set sp a = true -> read_back sp (String a r) = String a (read_back sp r).
Proof. intros Q. unfold read_back. cbn [encode]. rewrite Q. apply form_decode_pct. Qed.
Lemma read_back_escape sp h l r : is_hex h = true -> is_hex l = true -> exists b, read_back sp (String "%" (String h (String l r))) = String b (read_back sp r).
Proof.
  intros Hh Hl. destruct (hex_kept sp h Hh) as (Q1 & P1 & _). destruct (hex_kept sp l Hl) as (Q2 & P2 & _). unfold read_back, form_decode.
  assert (Qp : query_set sp "%" = false) by (destruct sp; reflexivity).
  cbn [encode]. rewrite Qp, Q1, Q2. cbn [plus_to_space]. rewrite P1, P2. change (Ascii.eqb "%" "+") with false. cbv iota.
  cbn [percent_decode]. unfold is_hex in *. destruct (hex_val h); [|discriminate]. destruct (hex_val l); [|discriminate]. eexists. reflexivity.
Qed.
Lemma read_back_percent sp r : hex_pair r = false -> read_back sp (String "%" r) = String "%" (read_back sp r).
Proof.
  intros H. unfold read_back, form_decode. assert (Qp : query_set sp "%" = false) by (destruct sp; reflexivity). cbn [encode]. rewrite Qp. cbn [plus_to_space].
  change (Ascii.eqb "%" "+") with false. cbv iota. apply percent_other.
  destruct (plus_to_space (encode (query_set sp) r)) as [|h w] eqn:E; [reflexivity|]. destruct w as [|l w]; [reflexivity|]. cbn [hex_pair].
  destruct (is_hex h) eqn:Hh; [|reflexivity]. destruct (is_hex l) eqn:Hl; [|reflexivity]. exfalso.
  destruct (first_of sp r h _ E Hh) as (r' & -> & E'). symmetry in E'. destruct (first_of sp r' l w E' Hl) as (r2 & -> & _).
  cbn [hex_pair] in H. rewrite Hh, Hl in H. discriminate.
Qed.
Lemma read_back_plus sp r : read_back sp (String "+" r) = String " " (read_back sp r).
Proof. unfold read_back. assert (Q : query_set sp "+" = false) by (destruct sp; reflexivity). cbn [encode]. rewrite Q. reflexivity. Qed.
Lemma read_back_cons sp a r : query_set sp a = false -> a <> "%"%char -> a <> "+"%char -> read_back sp (String a r) = String a (read_back sp r).
Proof. intros Q H1 H2. unfold read_back. cbn [encode]. rewrite Q. apply form_decode_cons; assumption. Qed.
Lemma read_back_spec sp v : (String.length (read_back sp v) <= String.length v)%nat /\
  (read_back sp v = v <-> has_char "+" v = false /\ has_escape v = false).
Proof.
  remember (String.length v) as n eqn:En. assert (L : (String.length v <= n)%nat) by lia. rewrite En. clear En.
  revert v L. induction n as [|n IH]; intros v L; [destruct v; [|cbn in L; lia]; split; [cbn; lia|split; auto]|].
  destruct v as [|a r]; [split; [cbn; lia|split; auto]|]. cbn [String.length] in L. assert (Lr : (String.length r <= n)%nat) by lia.
  assert (STEP : forall b, a <> "+"%char -> (Ascii.eqb a "%" && hex_pair r) = false -> b = a -> read_back sp (String a r) = String b (read_back sp r) ->
    (String.length (read_back sp (String a r)) <= String.length (String a r))%nat /\ (read_back sp (String a r) = String a r <-> has_char "+" (String a r) = false /\ has_escape (String a r) = false)).
  { intros b N1 N2 -> ->. destruct (IH r Lr) as [I1 I2]. split; [cbn [String.length]; lia|]. cbn [has_char has_escape]. rewrite N2.
    destruct (Ascii.eqb_spec a "+") as [->|_]; [congruence|]. cbn [orb]. rewrite <- I2. split; congruence. }
  destruct (query_set sp a) eqn:Q.
  - apply (STEP a); [intros ->; destruct sp; discriminate| |reflexivity|apply read_back_set; exact Q].
    destruct (Ascii.eqb_spec a "%") as [->|]; [destruct sp; discriminate|reflexivity].
  - destruct (Ascii.eqb_spec a "+") as [->|N1].
    + rewrite read_back_plus. destruct (IH r Lr) as [I1 _]. split; [cbn [String.length]; lia|]. cbn [has_char]. rewrite Ascii.eqb_refl. split; [discriminate|intros [K _]; discriminate].
    + destruct (Ascii.eqb_spec a "%") as [->|N2].
      * destruct (hex_pair r) eqn:H.
        -- destruct r as [|h [|l r]]; try discriminate. cbn [hex_pair] in H. apply andb_true_iff in H as [Hh Hl]. destruct (read_back_escape sp h l r Hh Hl) as (b & ->).
           cbn [String.length] in L. assert (L2 : (String.length r <= n)%nat) by lia. destruct (IH r L2) as [I1 _]. split; [cbn [String.length]; lia|]. split.
           ++ intros E. exfalso. apply (f_equal String.length) in E. cbn [String.length] in E. lia.
           ++ intros [_ K]. cbn [has_escape hex_pair] in K. rewrite Hh, Hl in K. discriminate.
        -- apply (STEP "%"%char); [exact N1|reflexivity|reflexivity|apply read_back_percent; exact H].
      * apply (STEP a); [exact N1|reflexivity|reflexivity|apply read_back_cons; assumption].
Qed.

(** ** The pairs of the query *)
Lemma split_on_encode sp c s : query_set sp c = false -> (forall a, has_char c (pct a) = false) ->
  split_on c (encode (query_set sp) s) = map (encode (query_set sp)) (split_on c s).
Proof.
  intros Qc Pc. induction s as [|a s IH]; [reflexivity|]. cbn [encode split_on]. destruct (query_set sp a) eqn:Q.
  - destruct (Ascii.eqb_spec a c) as [->|_]; [congruence|].
    assert (A : forall p w, has_char c p = false -> split_on c (p ++ w) = match split_on c w with [] => [p] | h :: t => (p ++ h) :: t end).
    { clear. induction p as [|x p IHp]; intros w H; [cbn [String.append]; pose proof (split_on_nonempty c w); destruct (split_on c w); [congruence|reflexivity]|].
      cbn [has_char] in H. apply orb_false_iff in H as [H1 H2]. cbn [String.append split_on]. rewrite H1, (IHp w H2). destruct (split_on c w); reflexivity. }
    rewrite (A _ _ (Pc a)), IH. destruct (split_on c s) as [|h t]; cbn [map encode]; rewrite Q; [|reflexivity]. cbn [encode]. rewrite sapp_nil_r. reflexivity.
  - cbn [split_on]. rewrite IH. destruct (Ascii.eqb a c); [reflexivity|]. destruct (split_on c s) as [|h t]; cbn [map encode]; rewrite Q; reflexivity.
Qed.
Lemma split_once_encode sp c s : query_set sp c = false -> (forall a, has_char c (pct a) = false) ->
  split_once c (encode (query_set sp) s) = match split_once c s with Some (x, y) => Some (encode (query_set sp) x, encode (query_set sp) y) | None => None end.
Proof.
  intros Qc Pc. destruct (split_once c s) as [[x y]|] eqn:E.
  - apply split_once_spec in E as [-> H]. apply split_once_spec. rewrite encode_app. cbn [encode]. rewrite Qc. split; [reflexivity|].
    clear -Pc H. induction x as [|a x IH]; [reflexivity|]. cbn [has_char] in H. apply orb_false_iff in H as [H1 H2]. cbn [encode].
    destruct (query_set sp a); [rewrite has_char_app, Pc, (IH H2); reflexivity|cbn [has_char]; rewrite H1, (IH H2); reflexivity].
  - apply split_once_none in E. apply split_once_none. clear -Pc E. induction s as [|a s IH]; [reflexivity|].
    cbn [has_char] in E. apply orb_false_iff in E as [H1 H2]. cbn [encode].
    destruct (query_set sp a); [rewrite has_char_app, Pc, (IH H2); reflexivity|cbn [has_char]; rewrite H1, (IH H2); reflexivity].
Qed.
Lemma pct_without c : forallb (fun a => negb (has_char c (pct a))) all_ascii = true -> forall a, has_char c (pct a) = false.
Proof. intros H a. apply negb_true_iff. apply (ascii_forall (fun a => negb (has_char c (pct a))) H). Qed.
(** The length of a value in a query is that of a part of it. *)
Lemma value_from sp q k v : In (k, v) (query_pairs (Some (encode (query_set sp) q))) ->
  exists piece, In piece (split_on "&" q) /\ ((exists k0 y, split_once "=" piece = Some (k0, y) /\ v = read_back sp y) \/ (split_once "=" piece = None /\ v = "")).
Proof.
  unfold query_pairs. rewrite split_on_encode; [|destruct sp; reflexivity|apply pct_without; reflexivity].
  intros H. apply in_map_iff in H as (e & E & H). apply filter_In in H as [H _]. apply in_map_iff in H as (piece & <- & H).
  exists piece. split; [exact H|]. unfold query_pair in E. rewrite split_once_encode in E; [|destruct sp; reflexivity|apply pct_without; reflexivity].
  destruct (split_once "=" piece) as [[k0 y]|]; [left; exists k0, y; split; [reflexivity|]; unfold read_back; congruence|right; split; congruence].
Qed.
Lemma piece_length c s p : In p (split_on c s) -> (String.length p <= String.length s)%nat.
Proof.
  revert p. induction s as [|a s IH]; intros p; cbn [split_on String.length].
  - intros [<-|[]]. cbn. lia.
  - destruct (Ascii.eqb a c).
    + intros [<-|H]; [cbn; lia|]. specialize (IH p H). lia.
    + destruct (split_on c s) as [|h t]; [intros [<-|[]]; cbn; lia|]. intros [<-|H].
      * cbn [String.length]. specialize (IH h (or_introl eq_refl)). lia.
      * specialize (IH p (or_intror H)). lia.
Qed.
Lemma has_char_inv c v : has_char c v = true -> exists x y, v = x ++ String c y /\ has_char c x = false.
Proof.
  intros H. destruct (split_once c v) as [[x y]|] eqn:E; [apply split_once_spec in E; eauto|]. apply split_once_none in E. congruence.
Qed.
Lemma once_length c p k y : split_once c p = Some (k, y) -> (String.length y < String.length p)%nat.
Proof. intros H. apply split_once_spec in H as [-> _]. rewrite slength_app. cbn [String.length]. lia. Qed.
(** A query that starts with a key: its values are no longer than what follows the key, and shorter if there is another pair. *)
Lemma values_bounded sp key x k v : has_char "=" key = false -> has_char "&" key = false ->
  In (k, v) (query_pairs (Some (encode (query_set sp) (key ++ String "=" x)))) ->
  (has_char "&" x = false /\ v = read_back sp x) \/ (has_char "&" x = true /\ String.length v < String.length x)%nat.
Proof.
  intros Ke Ka H. apply value_from in H as (piece & Hp & HV). destruct (has_char "&" x) eqn:Ex.
  - right. split; [reflexivity|]. apply has_char_inv in Ex as (x0 & x1 & -> & N0).
    assert (S : split_on "&" (key ++ String "=" (x0 ++ String "&" x1)) = (key ++ String "=" x0) :: split_on "&" x1).
    { replace (key ++ String "=" (x0 ++ String "&" x1)) with ((key ++ String "=" x0) ++ String "&" x1) by (rewrite sapp_assoc; reflexivity).
      apply split_on_app. rewrite has_char_app, Ka. cbn [has_char]. rewrite N0. reflexivity. }
    rewrite S in Hp. rewrite slength_app. cbn [String.length].
    destruct Hp as [<-|Hp].
    + rewrite (proj2 (split_once_spec "=" _ key x0) (conj eq_refl Ke)) in HV. destruct HV as [(k0 & y & Hs & ->)|[K _]]; [|discriminate].
      assert (y = x0) as -> by congruence. pose proof (proj1 (read_back_spec sp x0)). lia.
    + apply piece_length in Hp. destruct HV as [(k0 & y & Hs & ->)|[_ ->]].
      * apply once_length in Hs. pose proof (proj1 (read_back_spec sp y)). lia.
      * cbn [String.length]. lia.
  - left. split; [reflexivity|]. rewrite split_on_nochar in Hp by (rewrite has_char_app, Ka; cbn [has_char]; rewrite Ex; reflexivity). destruct Hp as [<-|[]].
    rewrite (proj2 (split_once_spec "=" _ key x) (conj eq_refl Ke)) in HV. destruct HV as [(k0 & y & Hs & ->)|[K _]]; [|discriminate]. f_equal. congruence.
Qed.

(** ** Cleaning *)
Definition rtrim (s : string) : string := srev (trim_left c0_or_space (srev s)).
Lemma clean_not_blank s : str_forall clean_char s = true -> str_forall (fun a => negb (c0_or_space a)) s = true /\ str_forall (fun a => negb (tab_or_newline a)) s = true.
Proof. intros H. split; (eapply str_forall_imp; [|exact H]; apply ascii_imp; reflexivity). Qed.
Lemma clean_prefix A w : str_forall clean_char A = true -> A <> "" -> clean_input (A ++ w) = A ++ drop_chars tab_or_newline (rtrim w).
Proof.
  intros HA NA. destruct (clean_not_blank A HA) as [B T]. unfold clean_input, trim_both.
  assert (F : str_forall c0_or_space A = false).
  { destruct A as [|a A]; [congruence|]. cbn [str_forall] in *. apply andb_true_iff in B as [B _]. apply negb_true_iff in B. rewrite B. reflexivity. }
  rewrite (trim_stop _ A w F), (trim_left_id _ A B), srev_sapp.
  assert (E : trim_left c0_or_space (srev w ++ srev A) = trim_left c0_or_space (srev w) ++ srev A).
  { destruct (str_forall c0_or_space (srev w)) eqn:W.
    - rewrite (trim_blank _ _ _ W), (trim_all _ _ W). apply (trim_left_id c0_or_space (srev A)). rewrite (str_forall_srev _ A). exact B.
    - apply (trim_stop c0_or_space (srev w) (srev A)). exact W. }
  rewrite E, srev_sapp, srev_involutive, drop_app, (drop_chars_id _ A T). reflexivity.
Qed.
Lemma rtrim_tail v t : str_forall clean_char t = true -> t <> "" -> rtrim (v ++ t) = v ++ t.
Proof.
  intros H N. destruct (clean_not_blank t H) as [B _]. unfold rtrim. rewrite srev_sapp, trim_stop.
  - rewrite trim_left_id by (rewrite str_forall_srev; exact B). rewrite srev_sapp, !srev_involutive. reflexivity.
  - rewrite str_forall_srev. destruct t as [|a t]; [congruence|]. cbn [str_forall] in *. apply andb_true_iff in B as [B _]. apply negb_true_iff in B. rewrite B. reflexivity.
Qed.
Lemma drop_length P s : (String.length (drop_chars P s) <= String.length s)%nat /\ (String.length (drop_chars P s) = String.length s -> str_forall (fun a => negb (P a)) s = true).
Proof.
  induction s as [|a s [I1 I2]]; [split; [cbn; lia|reflexivity]|]. cbn [drop_chars str_forall]. destruct (P a); cbn [String.length].
  - split; [lia|]. intros H. lia.
  - split; [lia|]. intros H. rewrite I2 by lia. reflexivity.
Qed.
Lemma srev_length s : String.length (srev s) = String.length s.
Proof. induction s as [|a s IH]; [reflexivity|]. rewrite srev_cons, slength_app, IH. cbn [String.length]. lia. Qed.
Lemma trim_length P s : (String.length (trim_left P s) <= String.length s)%nat /\ (String.length (trim_left P s) = String.length s -> trim_left P s = s).
Proof.
  induction s as [|a s [I1 I2]]; [split; [cbn; lia|reflexivity]|]. cbn [trim_left]. destruct (P a); [|split; [lia|reflexivity]].
  cbn [String.length]. split; [lia|]. intros H. lia.
Qed.
Lemma rtrim_spec s : (String.length (rtrim s) <= String.length s)%nat /\ (String.length (rtrim s) = String.length s <-> forall x c, s = x ++ String c "" -> (32 < N_of_ascii c)%N) /\
  ((forall x c, s = x ++ String c "" -> (32 < N_of_ascii c)%N) -> rtrim s = s).
Proof.
  unfold rtrim. rewrite srev_length, <- (srev_length s). destruct (trim_length c0_or_space (srev s)) as [T1 T2]. split; [exact T1|].
  assert (K : (forall x c, s = x ++ String c "" -> (32 < N_of_ascii c)%N) -> trim_left c0_or_space (srev s) = srev s).
  { intros H. destruct (srev s) as [|a r] eqn:E; [reflexivity|]. cbn [trim_left].
    assert (S : s = srev r ++ String a "") by (rewrite <- (srev_involutive s), E, srev_cons; reflexivity).
    specialize (H _ _ S). unfold c0_or_space. destruct (N.leb_spec (N_of_ascii a) 32); [lia|reflexivity]. }
  split; [split; [|intros H; rewrite (K H); reflexivity]|intros H; rewrite (K H); apply srev_involutive].
  intros H x c ->. specialize (T2 H). rewrite srev_sapp in T2. cbn in T2. unfold c0_or_space in T2.
  destruct (N.leb_spec (N_of_ascii c) 32); [|assumption]. exfalso. pose proof (proj1 (trim_length c0_or_space (srev x))) as L.
  change (match srev x with | "" => "" | String a r => if (N_of_ascii a <=? 32)%N then trim_left c0_or_space r else srev x end) with (trim_left c0_or_space (srev x)) in T2.
  change (fun a : ascii => (N_of_ascii a <=? 32)%N) with c0_or_space in T2.
  apply (f_equal String.length) in T2. cbn [String.length] in T2.
  assert (X : (String.length (trim_left c0_or_space (srev x)) = S (String.length (srev x)))%nat) by exact T2. lia.
Qed.
Lemma no_line_chars v : (forall c, line_char c -> without c v) <-> str_forall (fun a => negb (tab_or_newline a)) v = true.
Proof.
  split.
  - intros H. induction v as [|a v IH]; [reflexivity|]. cbn [str_forall]. apply andb_true_iff. split.
    + destruct (tab_or_newline a) eqn:E; [|reflexivity]. exfalso. refine (H a _ "" v eq_refl). unfold tab_or_newline in E. cbv zeta in E. unfold line_char.
      apply orb_true_iff in E as [E|E]; [apply orb_true_iff in E as [E|E]|]; apply N.eqb_eq in E; rewrite E; cbn; auto.
    + apply IH. intros c Hc x y ->. exact (H c Hc (String a x) y eq_refl).
  - intros H c Hc x y ->. rewrite str_forall_app in H. apply andb_true_iff in H as [_ H]. cbn [str_forall] in H. apply andb_true_iff in H as [H _].
    unfold tab_or_newline in H. cbv zeta in H. unfold line_char in Hc. destruct Hc as [E|[E|[E|[]]]]; rewrite <- E in H; discriminate.
Qed.

(** ** The theorem *)
Definition tail_of (p : option string) : string := match p with Some x => "#" ++ x | None => "" end.
(** What is left of a value that is read: blanks trimmed, line ends dropped, cut at the first ['#']. *)
Definition left_of (v : string) (p : option string) : string :=
  let v1 := drop_chars tab_or_newline (match p with Some _ => v | None => rtrim v end) in
  match split_once "#" v1 with Some (x, _) => x | None => v1 end.
Lemma left_length v p : (String.length (left_of v p) <= String.length v)%nat /\
  (String.length (left_of v p) = String.length v -> without "#" v /\ (forall c, line_char c -> without c v) /\ (p = None -> forall x c, v = x ++ String c "" -> (32 < N_of_ascii c)%N)) .
Proof.
  unfold left_of. set (v0 := match p with Some _ => v | None => rtrim v end). set (v1 := drop_chars tab_or_newline v0). cbv zeta.
  destruct (rtrim_spec v) as (R1 & R2 & R3).
  assert (L0 : (String.length v0 <= String.length v)%nat) by (unfold v0; destruct p; lia).
  destruct (drop_length tab_or_newline v0) as [L1 D]. fold v1 in L1, D.
  assert (K : String.length v1 = String.length v -> v0 = v /\ v1 = v /\ (forall c, line_char c -> without c v) /\ (p = None -> forall x c, v = x ++ String c "" -> (32 < N_of_ascii c)%N)).
  { intros E. assert (E0 : String.length v0 = String.length v) by lia. assert (V : v0 = v /\ (p = None -> forall x c, v = x ++ String c "" -> (32 < N_of_ascii c)%N)).
    { unfold v0 in *. destruct p; [split; [reflexivity|discriminate]|]. assert (Q := proj1 R2 E0). split; [apply R3; exact Q|intros _; exact Q]. }
    destruct V as [V B]. assert (DD : str_forall (fun a => negb (tab_or_newline a)) v0 = true) by (apply D; lia).
    split; [exact V|]. split; [unfold v1; rewrite (drop_chars_id _ v0 DD); exact V|]. split; [apply no_line_chars; rewrite <- V; exact DD|exact B]. }
  destruct (split_once "#" v1) as [[x y]|] eqn:SO.
  - apply split_once_spec in SO as [SO _]. assert (X : (String.length v1 = String.length x + S (String.length y))%nat) by (rewrite SO, slength_app; reflexivity).
    split; [lia|]. intros E. lia.
  - split; [lia|]. intros E. destruct (K E) as (_ & V & C & B). split; [|split; [exact C|exact B]]. apply split_once_none in SO. rewrite V in SO. apply without_iff. exact SO.
Qed.
Lemma left_carried v p : without "#" v -> (forall c, line_char c -> without c v) -> (p = None -> forall x c, v = x ++ String c "" -> (32 < N_of_ascii c)%N) -> left_of v p = v.
Proof.
  intros H1 H2 H3. unfold left_of. assert (V : match p with Some _ => v | None => rtrim v end = v).
  { destruct p; [reflexivity|]. destruct (rtrim_spec v) as (_ & _ & R). apply R. apply H3. reflexivity. }
  rewrite V, drop_chars_id by (apply no_line_chars; exact H2). cbv zeta.
  rewrite (proj2 (split_once_none "#" v)) by (apply without_iff; exact H1). reflexivity.
Qed.
Lemma parse_reference norm u key v p : norm_laws norm -> normal_base norm u -> match p with Some x => plain_precise x | None => True end ->
  str_forall clean_char key = true -> has_char "#" key = false -> has_char "?" key = false ->
  exists f, url_parse norm (u ++ "?" ++ key ++ String "=" v ++ tail_of p) = Some (mkUrl u (Some (encode (query_set (is_special u)) (key ++ String "=" (left_of v p)))) f) /\
            (without "#" v -> f = p).
Proof.
  intros L B P Kc Kh Kq. destruct (L u u B) as (_ & V & Q & F). set (A := u ++ "?" ++ key ++ "=").
  assert (CA : str_forall clean_char A = true).
  { unfold A. rewrite !str_forall_app, Kc. assert (str_forall clean_char u = true) as -> by (eapply str_forall_imp; [apply visible_clean|exact V]). reflexivity. }
  assert (NA : A <> "") by (unfold A; destruct u; discriminate).
  assert (TX : u ++ "?" ++ key ++ String "=" v ++ tail_of p = A ++ (v ++ tail_of p)).
  { unfold A. rewrite !sapp_assoc. reflexivity. }
  set (v1 := drop_chars tab_or_newline (match p with Some _ => v | None => rtrim v end)).
  assert (CL : clean_input (A ++ (v ++ tail_of p)) = A ++ v1 ++ tail_of p).
  { rewrite clean_prefix by assumption. f_equal. destruct p as [x|]; cbn [tail_of].
    - assert (CT : str_forall clean_char ("#" ++ x) = true).
      { cbn [String.append str_forall]. change (clean_char "#") with true. cbn [andb]. eapply str_forall_imp; [|exact P]. intros a Ha. apply visible_clean, plain_fragment_visible. exact Ha. }
      rewrite rtrim_tail by (assumption || discriminate). rewrite drop_app. f_equal. apply drop_chars_id. apply (clean_not_blank _ CT).
    - rewrite sapp_nil_r. unfold v1. rewrite sapp_nil_r. reflexivity. }
  assert (HA : has_char "#" A = false) by (unfold A; rewrite !has_char_app, F, Kh; reflexivity).
  assert (AX : forall x, A ++ x = u ++ String "?" (key ++ String "=" x)).
  { intros x. unfold A. rewrite !sapp_assoc. reflexivity. }
  unfold url_parse. rewrite TX, CL. cbv zeta.
  assert (SP : exists f, split_once "#" (A ++ v1 ++ tail_of p) = match f with Some y => Some (A ++ left_of v p, y) | None => None end /\
                         (f = None -> A ++ v1 ++ tail_of p = A ++ left_of v p) /\ (without "#" v -> f = p)).
  { unfold left_of. cbv zeta. fold v1. destruct (split_once "#" v1) as [[x y]|] eqn:S.
    - apply split_once_spec in S as [S Hx]. exists (Some (y ++ tail_of p)). split; [|split; [discriminate|]].
      + apply split_once_spec. split; [rewrite S, !sapp_assoc; reflexivity|rewrite has_char_app, HA, Hx; reflexivity].
      + intros W. exfalso. apply without_iff in W. assert (K : has_char "#" v1 = true) by (rewrite S, has_char_app; cbn [has_char]; rewrite Ascii.eqb_refl; destruct (has_char "#" x); reflexivity).
        assert (DR : forall w, has_char "#" w = false -> has_char "#" (drop_chars tab_or_newline w) = false).
        { clear. induction w as [|a w IH]; [reflexivity|]. cbn [has_char drop_chars]. intros H. apply orb_false_iff in H as [H1 H2]. destruct (tab_or_newline a); [auto|]. cbn [has_char]. rewrite H1. auto. }
        assert (RV : forall w, has_char "#" (srev w) = has_char "#" w).
        { clear. induction w as [|a w IH]; [reflexivity|]. rewrite srev_cons, has_char_app, IH. cbn [has_char]. rewrite orb_false_r. apply orb_comm. }
        assert (TR : forall w, has_char "#" w = false -> has_char "#" (trim_left c0_or_space w) = false).
        { clear. induction w as [|a w IH]; [reflexivity|]. intros H. cbn [trim_left]. destruct (c0_or_space a); [|exact H]. cbn [has_char] in H. apply orb_false_iff in H as [_ H]. auto. }
        unfold v1 in K. rewrite DR in K; [discriminate|]. destruct p; [exact W|]. unfold rtrim. rewrite RV. apply TR. rewrite RV. exact W.
    - apply split_once_none in S. exists p. split; [|split; [|reflexivity]].
      + destruct p as [x|]; cbn [tail_of].
        * apply split_once_spec. split; [rewrite !sapp_assoc; reflexivity|rewrite has_char_app, HA, S; reflexivity].
        * apply split_once_none. rewrite sapp_nil_r, has_char_app, HA, S. reflexivity.
      + intros ->. cbn [tail_of]. rewrite sapp_nil_r. reflexivity. }
  destruct SP as (f & SP & SN & SW).
  assert (SQ : split_once "?" (A ++ left_of v p) = Some (u, key ++ String "=" (left_of v p))) by (apply split_once_spec; split; [apply AX|exact Q]).
  exists (option_map (encode fragment_set) f). rewrite SP. split.
  - destruct f as [y|]; [|rewrite (SN eq_refl)]; cbv iota beta; rewrite SQ; cbv iota beta; rewrite B; reflexivity.
  - intros W. rewrite (SW W). destruct p as [x|]; [|reflexivity]. cbn [option_map]. rewrite encode_id by exact P. reflexivity.
Qed.
(** A kind of reference and the key it is written with. *)
Definition written_with (key : string) (mk : string -> git_reference) : Prop :=
  (key = "branch" /\ mk = GBranch) \/ (key = "tag" /\ mk = GTag) \/ (key = "rev" /\ mk = GRev).
Lemma one_reference norm key mk u v p : written_with key mk -> norm_laws norm -> normal_base norm u -> match p with Some x => plain_precise x | None => True end ->
  (from_url norm (as_url false (mkSource u (SGit (mk v)) p None)) = Ok (mkSource u (SGit (mk v)) p None) <-> carried v p).
Proof.
  intros W L B P.
  assert (K : str_forall clean_char key = true /\ has_char "#" key = false /\ has_char "?" key = false /\ has_char "=" key = false /\ has_char "&" key = false).
  { destruct W as [[-> _]|[[-> _]|[-> _]]]; repeat split; reflexivity. }
  destruct K as (K1 & K2 & K3 & K4 & K5).
  assert (AU : as_url false (mkSource u (SGit (mk v)) p None) = "git+" ++ (u ++ "?" ++ key ++ String "=" v ++ tail_of p)).
  { unfold as_url, tail_of. cbn [s_kind s_url s_precise]. destruct W as [[-> ->]|[[-> ->]|[-> ->]]]; cbn [pretty_ref]; rewrite ?sapp_assoc; reflexivity. }
  destruct (parse_reference norm u key v p L B P K1 K2 K3) as (f & PU & PF).
  rewrite AU. unfold from_url. change (split_once "+" ("git+" ++ (u ++ "?" ++ key ++ String "=" v ++ tail_of p))) with (Some ("git", u ++ "?" ++ key ++ String "=" v ++ tail_of p)).
  cbn [String.eqb Ascii.eqb Bool.eqb]. rewrite PU. cbn [u_base u_query u_fragment]. set (sp := is_special u). set (x := left_of v p).
  destruct (left_length v p) as [LL LE]. fold x in LL, LE.
  assert (MKI : forall k w, names_reference k w (mk v) -> w = v).
  { intros k w. unfold names_reference. destruct W as [[_ ->]|[[_ ->]|[_ ->]]]; intros [[_ E]|[[_ E]|[_ E]]]; congruence. }
  assert (MKD : mk v <> GDefaultBranch) by (destruct W as [[_ ->]|[[_ ->]|[_ ->]]]; discriminate).
  split.
  - intros H. assert (R : fold_left apply_pair (query_pairs (Some (encode (query_set sp) (key ++ String "=" x)))) GDefaultBranch = mk v) by congruence. clear H.
    destruct (last_reference_fold (query_pairs (Some (encode (query_set sp) (key ++ String "=" x))))) as [(l1 & k & w & l2 & EQ & NR & _)|[_ D]]; [|congruence].
    rewrite R in NR. apply MKI in NR as ->.
    assert (IN : In (k, v) (query_pairs (Some (encode (query_set sp) (key ++ String "=" x))))) by (rewrite EQ; apply in_elt).
    destruct (values_bounded sp key x k v K4 K5 IN) as [[NA RB]|[_ LT]]; [|lia].
    destruct (read_back_spec sp x) as [RL RI]. assert (EL : String.length x = String.length v) by (rewrite RB in LL |- *; lia).
    destruct (LE EL) as (C1 & C2 & C3).
    assert (XV : x = v) by (apply left_carried; assumption). rewrite XV in *. symmetry in RB. apply RI in RB as [RB1 RB2].
    split; [exact C1|]. split; [apply without_iff; exact NA|]. split; [apply without_iff; exact RB1|]. split; [exact C2|]. split; [apply has_escape_iff; exact RB2|exact C3].
  - intros (C1 & C2 & C3 & C4 & C5 & C6). assert (XV : x = v) by (apply left_carried; assumption). rewrite XV. rewrite (PF C1).
    apply without_iff in C2, C3. apply has_escape_iff in C5.
    assert (RB : read_back sp v = v) by (apply read_back_spec; auto).
    assert (ENC : encode (query_set sp) (key ++ String "=" v) = key ++ "=" ++ encode (query_set sp) v).
    { rewrite encode_app. f_equal; [|cbn [encode]; assert (query_set sp "=" = false) as -> by (destruct sp; reflexivity); reflexivity].
      apply encode_id. destruct W as [[-> _]|[[-> _]|[-> _]]]; destruct sp; reflexivity. }
    assert (NE : has_char "&" (encode (query_set sp) v) = false).
    { clear -C2. induction v as [|a v IH]; [reflexivity|]. cbn [has_char] in C2. apply orb_false_iff in C2 as [H1 H2]. cbn [encode].
      destruct (query_set sp a); [rewrite has_char_app, (pct_without "&") by reflexivity; exact (IH H2)|cbn [has_char]; rewrite H1; exact (IH H2)]. }
    rewrite ENC, one_pair by assumption. unfold read_back in RB. rewrite RB. cbn [fold_left].
    assert (apply_pair GDefaultBranch (form_decode key, v) = mk v) as -> by (destruct W as [[-> ->]|[[-> ->]|[-> ->]]]; reflexivity). reflexivity.
Qed.
(** A git source written without escapes is read back as it was exactly if its branch, tag or revision is one the form can carry. *)
Theorem C34_unescaped_exactly : forall norm s r, norm_laws norm -> writable norm s -> s_kind s = SGit r ->
  (from_url norm (as_url false s) = Ok s <-> match r with GDefaultBranch => True | GBranch v | GTag v | GRev v => carried v (s_precise s) end).
Proof.
  intros norm s r L W K. destruct s as [u k p n]. cbn [s_kind s_precise] in *. subst k. pose proof W as [Hn [B P]]. cbn [s_name s_kind s_url s_precise] in *. subst n.
  destruct r as [|v|v|v].
  - split; [auto|intros _]. pose proof (source_roundtrip norm false (mkSource u (SGit GDefaultBranch) p None) L W) as H. apply H. intros _. exact Logic.I.
  - apply (one_reference norm "tag" GTag); auto. right. left. auto.
  - apply (one_reference norm "branch" GBranch); auto. left. auto.
  - apply (one_reference norm "rev" GRev); auto. right. right. auto.
Qed.
Print Assumptions C34_unescaped_exactly.
(** The other kinds: registries are read back (as locked), paths too; local registries and directories never. *)
Theorem C34_other_kinds_exactly : forall norm encoded s, norm_laws norm -> s_name s = None ->
  match s_kind s with
  | SGit _ => True
  | SPath => normal_url norm (s_url s) -> from_url norm (as_url encoded s) = Ok (mkSource (s_url s) SPath None None)
  | SRegistry => normal_url norm (s_url s) -> from_url norm (as_url encoded s) = Ok (mkSource (s_url s) SRegistry (Some "locked") None)
  | SSparseRegistry => normal_url norm (s_url s) -> from_url norm (as_url encoded s) = Ok (mkSource (s_url s) SSparseRegistry (Some "locked") None)
  | SLocalRegistry | SDirectory => from_url norm (as_url encoded s) = Err
  end.
Proof.
  intros norm encoded s L Hn. destruct s as [u k p n]. cbn [s_kind s_url s_name] in *. subst n.
  assert (A : forall kk, kk = SPath \/ kk = SRegistry \/ kk = SSparseRegistry -> normal_url norm u -> from_url norm (as_url encoded (mkSource u kk p None)) = Ok (reread (mkSource u kk p None))).
  { intros kk Hk N. apply source_roundtrip; [exact L| |].
    - split; [reflexivity|]. cbn [s_kind s_url]. destruct Hk as [->|[->| ->]]; exact N.
    - intros _. unfold plain_ref. cbn [s_kind]. destruct Hk as [->|[->| ->]]; exact Logic.I. }
  destruct k; try exact Logic.I; try reflexivity; intros N; apply A; auto.
Qed.
Print Assumptions C34_other_kinds_exactly.
Example C34_unescaped_nonvacuous :
  carried "feature/50%-off (é)'" (Some "80e71a30") /\ ~ carried "trailing " None /\ carried "trailing " (Some "") /\ ~ carried "a%20b" None /\ carried "a%2" None /\
  from_url ex_norm (as_url false (git_repo (GTag "a%2 b") None)) = Ok (git_repo (GTag "a%2 b") None) /\
  from_url ex_norm (as_url false (git_repo (GRev "trailing ") None)) = Ok (git_repo (GRev "trailing") None).
Proof.
  assert (C : forall v p, (has_char "#" v || has_char "&" v || has_char "+" v || negb (str_forall (fun a => negb (tab_or_newline a)) v) || has_escape v)%bool = false ->
    (p = None -> forall x c, v = x ++ String c "" -> (32 < N_of_ascii c)%N) -> carried v p).
  { intros v p H B. repeat (apply orb_false_iff in H as [H ?]). unfold carried. rewrite !without_iff, <- has_escape_iff, no_line_chars.
    apply negb_false_iff in H1. auto 10. }
  split; [apply C; [reflexivity|discriminate]|]. split; [|split; [apply C; [reflexivity|discriminate]|split; [|split; [|split; reflexivity]]]].
  - intros (_ & _ & _ & _ & _ & H). specialize (H eq_refl "trailing" " "%char eq_refl). cbn in H. lia.
  - intros (_ & _ & _ & _ & H & _). apply (H "a" "2"%char "0"%char "b" eq_refl). split; cbn; auto 10.
  - apply C; [reflexivity|]. intros _ x c E. destruct x as [|a [|b [|d [|e x]]]]; cbn in E; try congruence. assert (c = "2"%char) as -> by congruence. reflexivity.
Qed.
