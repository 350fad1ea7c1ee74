(** Property theorems C95 (what a fetch records). *)
From Coq Require Import List NArith Ascii String Bool Lia Arith.
From Verif Require Import Base SemverModel StrLib UrlProofs FetchHeadModel FetchHeadSpec.
Import ListNotations.
Local Open Scope string_scope.
Local Open Scope N_scope.
Local Infix "++" := String.append (right associativity, at level 60).

(** ** Hexadecimal *)
Lemma hex_digit d : d < 16 -> exists c, String.get (N.to_nat d) CHARS = Some c /\ digit_value c = Some d.
Proof.
  intros H. assert (K : forallb (fun n => match String.get n CHARS with Some c => match digit_value c with Some x => x =? N.of_nat n | None => false end | None => false end) (seq 0 16) = true) by reflexivity.
  rewrite forallb_forall in K. specialize (K (N.to_nat d)). cbv beta in K. assert (Hin : In (N.to_nat d) (seq 0 16)) by (apply in_seq; lia). specialize (K Hin).
  rewrite N2Nat.id in K. destruct (String.get (N.to_nat d) CHARS) as [c|]; [|discriminate]. exists c. split; [reflexivity|].
  destruct (digit_value c) as [x|]; [|discriminate]. apply N.eqb_eq in K as ->. reflexivity.
Qed.
Lemma halves x : x < 256 -> N.shiftr x 4 < 16 /\ N.land x 15 < 16 /\ 16 * N.shiftr x 4 + N.land x 15 = x.
Proof.
  intros H. rewrite N.shiftr_div_pow2. change 15 with (N.ones 4). rewrite N.land_ones. change (2 ^ 4) with 16.
  pose proof (N.div_mod' x 16). pose proof (N.mod_lt x 16). assert (x / 16 < 16) by (apply N.div_lt_upper_bound; lia). lia.
Qed.
Lemma encode_ok l : Forall (fun x => x < 256) l -> exists s, encode_hex l = Ok s /\ read_id s = Some l /\ String.length s = (2 * List.length l)%nat.
Proof.
  induction 1 as [|x l X F (s & E & R & L)]; [exists ""; auto|].
  destruct (halves x X) as (H1 & H2 & H3). destruct (hex_digit _ H1) as (hi & G1 & D1), (hex_digit _ H2) as (lo & G2 & D2).
  exists (String hi (String lo s)). cbn [encode_hex]. rewrite G1, G2, E. cbn [obind read_id]. rewrite D1, D2, R, H3.
  split; [reflexivity|]. split; [reflexivity|]. cbn [String.length List.length]. lia.
Qed.
Lemma digit_unique : forall c c' d, digit_value c = Some d -> digit_value c' = Some d -> c = c'.
Proof.
  assert (T : forallb (fun c => match digit_value c with Some d => match String.get (N.to_nat d) CHARS with Some c' => Ascii.eqb c c' | None => false end | None => true end) all_ascii = true) by reflexivity.
  intros c c' d H H'. pose proof (ascii_forall _ T c) as K. pose proof (ascii_forall _ T c') as K'. cbv beta in K, K'. rewrite H in K. rewrite H' in K'.
  destruct (String.get (N.to_nat d) CHARS) as [x|]; [|discriminate]. apply Ascii.eqb_eq in K, K'. congruence.
Qed.
(** What spells an identifier is one text only. *)
Lemma digit_small c d : digit_value c = Some d -> d < 16.
Proof.
  unfold digit_value. pose proof (Ascii.N_ascii_bounded c).
  destruct ((48 <=? N_of_ascii c) && (N_of_ascii c <=? 57))%bool eqn:E1.
  - apply andb_prop in E1 as [A B]. apply N.leb_le in A, B. intros K; injection K as <-. lia.
  - destruct ((97 <=? N_of_ascii c) && (N_of_ascii c <=? 102))%bool eqn:E2; [|discriminate].
    apply andb_prop in E2 as [A B]. apply N.leb_le in A, B. intros K; injection K as <-. lia.
Qed.
Lemma read_id_inj : forall l s s', read_id s = Some l -> read_id s' = Some l -> s = s'.
Proof.
  induction l as [|x l IH]; intros s s'.
  - destruct s as [|a [|b s]]; [|discriminate|cbn [read_id]; destruct (digit_value a), (digit_value b), (read_id s); discriminate].
    destruct s' as [|a [|b s']]; [reflexivity|discriminate|cbn [read_id]; destruct (digit_value a), (digit_value b), (read_id s'); discriminate].
  - destruct s as [|a [|b s]]; [discriminate|discriminate|]. destruct s' as [|a' [|b' s']]; [discriminate|discriminate|]. cbn [read_id].
    destruct (digit_value a) as [h|] eqn:A; [|discriminate]. destruct (digit_value b) as [y|] eqn:B; [|discriminate].
    destruct (read_id s) as [q|] eqn:S; [|discriminate].
    destruct (digit_value a') as [h'|] eqn:A'; [|discriminate]. destruct (digit_value b') as [y'|] eqn:B'; [|discriminate].
    destruct (read_id s') as [q'|] eqn:S'; [|discriminate].
    intros H H'. assert (E : 16 * h + y = x) by congruence. assert (E' : 16 * h' + y' = x) by congruence.
    assert (q = l) by congruence. assert (q' = l) by congruence. clear H H'. subst q q'.
    pose proof (digit_small _ _ A). pose proof (digit_small _ _ B). pose proof (digit_small _ _ A'). pose proof (digit_small _ _ B').
    assert (h = h') by lia. assert (y = y') by lia. subst h' y'. rewrite (digit_unique _ _ _ A A'), (digit_unique _ _ _ B B').
    now rewrite (IH s s' S S').
Qed.
Lemma digit_value_range c d : digit_value c = Some d -> In c (list_ascii_of_string CHARS).
Proof.
  intros H. assert (T : forallb (fun c => match digit_value c with Some _ => existsb (Ascii.eqb c) (list_ascii_of_string CHARS) | None => true end) all_ascii = true) by reflexivity.
  pose proof (ascii_forall _ T c) as K. cbv beta in K. rewrite H in K. apply existsb_exists in K as (x & I & E). apply Ascii.eqb_eq in E. now subst.
Qed.

(** ** UTF-8 *)
Lemma utf8_app_n n : forall a b, (String.length a <= n)%nat -> utf8 a = true -> utf8 (a ++ b) = utf8 b.
Proof.
  induction n as [|n IH]; intros a b L H; [destruct a; [reflexivity|cbn in L; lia]|].
  destruct a as [|x a]; [reflexivity|]. cbn [String.append]. cbn [utf8] in H |- *.
  destruct (byte_in 0 127 x); [apply IH; [cbn in L; lia|exact H]|].
  destruct (byte_in 194 223 x).
  { destruct a as [|y a]; [discriminate|]. cbn [String.append]. apply andb_prop in H as [H1 H2]. rewrite H1. apply IH; [cbn in L; lia|exact H2]. }
  destruct (byte_in 224 239 x).
  { destruct a as [|y [|z a]]; try discriminate. cbn [String.append]. apply andb_prop in H as [H1 H2]. rewrite H1. apply IH; [cbn in L; lia|exact H2]. }
  destruct (byte_in 240 244 x); [|discriminate].
  destruct a as [|y [|z [|w a]]]; try discriminate. cbn [String.append]. apply andb_prop in H as [H1 H2]. rewrite H1. apply IH; [cbn in L; lia|exact H2].
Qed.
Lemma utf8_app a b : utf8 a = true -> utf8 (a ++ b) = utf8 b.
Proof. apply (utf8_app_n (String.length a)). lia. Qed.

(** ** Text *)
Lemma byte_in_iff lo hi n : n < 256 -> byte_in lo hi (ascii_of_N n) = true <-> lo <= n /\ n <= hi.
Proof. intros H. unfold byte_in. rewrite N_ascii_embedding by exact H. rewrite andb_true_iff, !N.leb_le. tauto. Qed.
Lemma byte_out lo hi n : n < 256 -> (n < lo \/ hi < n) -> byte_in lo hi (ascii_of_N n) = false.
Proof. intros H O. apply not_true_iff_false. intros X. apply byte_in_iff in X; [|exact H]. lia. Qed.
Lemma byte_yes lo hi n : n < 256 -> lo <= n -> n <= hi -> byte_in lo hi (ascii_of_N n) = true.
Proof. intros H A B. apply byte_in_iff; auto. Qed.
Lemma byte_in_range lo hi a : byte_in lo hi a = true -> lo <= N_of_ascii a /\ N_of_ascii a <= hi.
Proof. unfold byte_in. rewrite andb_true_iff, !N.leb_le. tauto. Qed.
Lemma div_div64 c : c / 262144 = c / 4096 / 64 /\ c / 4096 = c / 64 / 64.
Proof. split; rewrite N.div_div by discriminate; reflexivity. Qed.
Lemma utf8_encoded c r : a_character c -> utf8 (encoded c ++ r) = utf8 r.
Proof.
  intros A. pose proof (N.le_0_l (c mod 64)). pose proof (N.le_0_l (c / 64 mod 64)). pose proof (N.le_0_l (c / 4096 mod 64)). unfold encoded, byte. destruct (N.ltb_spec c 128) as [L|L].
  { cbn [String.append utf8]. assert (E : byte_in 0 127 (ascii_of_N c) = true) by (apply byte_in_iff; lia). now rewrite E. }
  destruct (N.ltb_spec c 2048) as [L2|L2].
  { assert (c / 64 < 32) by (apply N.div_lt_upper_bound; lia). assert (2 <= c / 64) by (apply N.div_le_lower_bound; lia). assert (c mod 64 < 64) by (apply N.mod_lt; discriminate).
    remember (192 + c / 64) as x0 eqn:X0. remember (128 + c mod 64) as x1 eqn:X1. cbn [String.append utf8]. rewrite (byte_out 0 127) by lia. rewrite (byte_yes 194 223) by lia. rewrite (byte_yes 128 191) by lia. reflexivity. }
  assert (c mod 64 < 64) by (apply N.mod_lt; discriminate). assert (c / 64 mod 64 < 64) by (apply N.mod_lt; discriminate). assert (c / 4096 mod 64 < 64) by (apply N.mod_lt; discriminate).
  pose proof (N.div_mod' (c / 64) 64) as D1. pose proof (N.div_mod' c 64) as D0. pose proof (N.div_mod' (c / 4096) 64) as D2.
  destruct (div_div64 c) as [Q2 Q1].
  assert (R1 : c = 4096 * (c / 4096) + 64 * (c / 64 mod 64) + c mod 64) by (rewrite Q1; lia).
  assert (R2 : c = 262144 * (c / 262144) + 4096 * (c / 4096 mod 64) + 64 * (c / 64 mod 64) + c mod 64) by (rewrite Q2; lia).
  clear D0 D1 D2 Q1 Q2.
  destruct (N.ltb_spec c 65536) as [L3|L3].
  { assert (c / 4096 < 16) by (apply N.div_lt_upper_bound; lia). clear R2. set (q := c / 4096) in *. clearbody q. set (m1 := c / 64 mod 64) in *. clearbody m1. set (m0 := c mod 64) in *. clearbody m0.
    remember (224 + q) as x0 eqn:X0. remember (128 + m1) as x1 eqn:X1. remember (128 + m0) as x2 eqn:X2.
    cbn [String.append utf8]. rewrite (byte_out 0 127) by lia. rewrite (byte_out 194 223) by lia. rewrite !(byte_yes 224 239) by lia.
    rewrite !(byte_yes 128 191) by lia. rewrite andb_true_r.
    assert (E : second_of_three (N_of_ascii (ascii_of_N x0)) (ascii_of_N x1) = true); [|now rewrite E].
    rewrite N_ascii_embedding by lia. unfold second_of_three. destruct (N.eqb_spec x0 224); [|destruct (N.eqb_spec x0 237)]; apply byte_in_iff; try lia; destruct A as [A|A]; lia. }
  { assert (c / 262144 < 5) by (apply N.div_lt_upper_bound; destruct A; lia). clear R1. set (q := c / 262144) in *. clearbody q. set (m2 := c / 4096 mod 64) in *. clearbody m2. set (m1 := c / 64 mod 64) in *. clearbody m1. set (m0 := c mod 64) in *. clearbody m0.
    remember (240 + q) as x0 eqn:X0. remember (128 + m2) as x1 eqn:X1. remember (128 + m1) as x2 eqn:X2. remember (128 + m0) as x3 eqn:X3.
    cbn [String.append utf8]. rewrite (byte_out 0 127) by lia. rewrite (byte_out 194 223) by lia. rewrite (byte_out 224 239) by lia. rewrite !(byte_yes 240 244) by lia.
    rewrite !(byte_yes 128 191) by lia. rewrite !andb_true_r.
    assert (E : second_of_four (N_of_ascii (ascii_of_N x0)) (ascii_of_N x1) = true); [|now rewrite E].
    rewrite N_ascii_embedding by lia. unfold second_of_four. destruct (N.eqb_spec x0 240); [|destruct (N.eqb_spec x0 244)]; apply byte_in_iff; try lia; destruct A as [A|A]; lia. }
Qed.
Lemma four_bytes x b c d : 240 <= x <= 244 -> 128 <= b <= 191 -> 128 <= c <= 191 -> 128 <= d <= 191 -> (x = 240 -> 144 <= b) ->
  let k := (x - 240) * 262144 + (b - 128) * 4096 + (c - 128) * 64 + (d - 128) in
  k / 262144 = x - 240 /\ k / 4096 mod 64 = b - 128 /\ k / 64 mod 64 = c - 128 /\ k mod 64 = d - 128.
Proof.
  intros X B C D F k.
  assert (E1 : k mod 64 = d - 128) by (symmetry; apply (N.mod_unique k 64 ((x - 240) * 4096 + (b - 128) * 64 + (c - 128))); unfold k; lia).
  assert (Q1 : k / 64 = (x - 240) * 4096 + (b - 128) * 64 + (c - 128)) by (symmetry; apply (N.div_unique k 64 _ (d - 128)); unfold k; lia).
  assert (E2 : k / 64 mod 64 = c - 128) by (rewrite Q1; symmetry; apply (N.mod_unique _ 64 ((x - 240) * 64 + (b - 128))); lia).
  assert (Q2 : k / 4096 = (x - 240) * 64 + (b - 128)) by (symmetry; apply (N.div_unique k 4096 _ ((c - 128) * 64 + (d - 128))); unfold k; lia).
  assert (E3 : k / 4096 mod 64 = b - 128) by (rewrite Q2; symmetry; apply (N.mod_unique _ 64 (x - 240)); lia).
  assert (Q3 : k / 262144 = x - 240) by (symmetry; apply (N.div_unique k 262144 _ ((b - 128) * 4096 + (c - 128) * 64 + (d - 128))); unfold k; lia).
  auto.
Qed.
(** C95: what counts as text are the UTF-8 encodings of lists of characters, exactly. *)
Theorem C95_what_is_text : forall s, utf8 s = true <-> is_text s.
Proof.
  intros s. split.
  - remember (String.length s) as n eqn:En. assert (L : (String.length s <= n)%nat) by lia. clear En. revert s L.
    induction n as [|n IH]; intros s L H; [destruct s; [exists []; split; [constructor|reflexivity]|cbn in L; lia]|].
    destruct s as [|x s]; [exists []; split; [constructor|reflexivity]|]. cbn [utf8] in H.
    assert (ADD : forall c p r, String x s = p ++ r -> p = encoded c -> a_character c -> (String.length r <= n)%nat -> utf8 r = true -> is_text (String x s)).
    { intros c p r -> -> A Lr Hr. destruct (IH r Lr Hr) as (l & F & ->). exists (c :: l). split; [constructor; assumption|reflexivity]. }
    cbn [String.length] in L.
    destruct (byte_in 0 127 x) eqn:R1.
    { apply byte_in_range in R1. apply (ADD (N_of_ascii x) (String x "") s); [reflexivity| |left; lia|lia|exact H].
      unfold encoded. destruct (N.ltb_spec (N_of_ascii x) 128); [|lia]. unfold byte. now rewrite ascii_N_embedding. }
    destruct (byte_in 194 223 x) eqn:R2.
    { destruct s as [|b s]; [discriminate|]. apply andb_prop in H as [H1 H]. apply byte_in_range in R2, H1. cbn [String.length] in L.
      set (k := (N_of_ascii x - 192) * 64 + (N_of_ascii b - 128)).
      assert (Q : k / 64 = N_of_ascii x - 192) by (symmetry; apply (N.div_unique k 64 _ (N_of_ascii b - 128)); unfold k; lia).
      assert (M : k mod 64 = N_of_ascii b - 128) by (symmetry; apply (N.mod_unique k 64 (N_of_ascii x - 192)); unfold k; lia).
      apply (ADD k (String x (String b "")) s); [reflexivity| |unfold a_character, k; lia|lia|exact H].
      unfold encoded, byte. destruct (N.ltb_spec k 128); [unfold k in *; lia|]. destruct (N.ltb_spec k 2048); [|unfold k in *; lia].
      rewrite Q, M. replace (192 + (N_of_ascii x - 192)) with (N_of_ascii x) by lia. replace (128 + (N_of_ascii b - 128)) with (N_of_ascii b) by lia. now rewrite !ascii_N_embedding. }
    destruct (byte_in 224 239 x) eqn:R3.
    { destruct s as [|b [|c s]]; try discriminate. apply andb_prop in H as [H1 H]. apply andb_prop in H1 as [H1 H2]. apply byte_in_range in R3, H2. cbn [String.length] in L.
      assert (B : 128 <= N_of_ascii b <= 191 /\ (N_of_ascii x = 224 -> 160 <= N_of_ascii b) /\ (N_of_ascii x = 237 -> N_of_ascii b <= 159)).
      { unfold second_of_three in H1. destruct (N.eqb_spec (N_of_ascii x) 224); [|destruct (N.eqb_spec (N_of_ascii x) 237)]; apply byte_in_range in H1; lia. }
      destruct B as (B & B1 & B2).
      set (k := (N_of_ascii x - 224) * 4096 + (N_of_ascii b - 128) * 64 + (N_of_ascii c - 128)).
      assert (Q : k / 4096 = N_of_ascii x - 224) by (symmetry; apply (N.div_unique k 4096 _ ((N_of_ascii b - 128) * 64 + (N_of_ascii c - 128))); unfold k; lia).
      assert (Q1 : k / 64 = (N_of_ascii x - 224) * 64 + (N_of_ascii b - 128)) by (symmetry; apply (N.div_unique k 64 _ (N_of_ascii c - 128)); unfold k; lia).
      assert (M1 : k / 64 mod 64 = N_of_ascii b - 128) by (rewrite Q1; symmetry; apply (N.mod_unique _ 64 (N_of_ascii x - 224)); lia).
      assert (M : k mod 64 = N_of_ascii c - 128) by (symmetry; apply (N.mod_unique k 64 ((N_of_ascii x - 224) * 64 + (N_of_ascii b - 128))); unfold k; lia).
      apply (ADD k (String x (String b (String c ""))) s); [reflexivity| | |lia|exact H].
      - unfold encoded, byte. destruct (N.ltb_spec k 128); [unfold k in *; lia|]. destruct (N.ltb_spec k 2048); [unfold k in *; lia|]. destruct (N.ltb_spec k 65536); [|unfold k in *; lia].
        rewrite Q, M1, M. replace (224 + (N_of_ascii x - 224)) with (N_of_ascii x) by lia. replace (128 + (N_of_ascii b - 128)) with (N_of_ascii b) by lia.
        replace (128 + (N_of_ascii c - 128)) with (N_of_ascii c) by lia. now rewrite !ascii_N_embedding.
      - unfold a_character, k. lia. }
    destruct (byte_in 240 244 x) eqn:R4; [|discriminate].
    destruct s as [|b [|c [|d s]]]; try discriminate. apply andb_prop in H as [H1 H]. apply andb_prop in H1 as [H1 H3]. apply andb_prop in H1 as [H1 H2].
    apply byte_in_range in R4, H2, H3. cbn [String.length] in L.
    assert (B : 128 <= N_of_ascii b <= 191 /\ (N_of_ascii x = 240 -> 144 <= N_of_ascii b) /\ (N_of_ascii x = 244 -> N_of_ascii b <= 143)).
    { unfold second_of_four in H1. destruct (N.eqb_spec (N_of_ascii x) 240); [|destruct (N.eqb_spec (N_of_ascii x) 244)]; apply byte_in_range in H1; lia. }
    destruct B as (B & B1 & B2).
    destruct (four_bytes (N_of_ascii x) (N_of_ascii b) (N_of_ascii c) (N_of_ascii d)) as (Q & M2 & M1 & M); [lia|lia|lia|lia|exact B1|].
    set (k := (N_of_ascii x - 240) * 262144 + (N_of_ascii b - 128) * 4096 + (N_of_ascii c - 128) * 64 + (N_of_ascii d - 128)) in *.
    apply (ADD k (String x (String b (String c (String d "")))) s); [reflexivity| | |lia|exact H].
    + unfold encoded, byte. destruct (N.ltb_spec k 128); [unfold k in *; lia|]. destruct (N.ltb_spec k 2048); [unfold k in *; lia|]. destruct (N.ltb_spec k 65536); [unfold k in *; lia|].
      rewrite Q, M2, M1, M. replace (240 + (N_of_ascii x - 240)) with (N_of_ascii x) by lia. replace (128 + (N_of_ascii b - 128)) with (N_of_ascii b) by lia.
      replace (128 + (N_of_ascii c - 128)) with (N_of_ascii c) by lia. replace (128 + (N_of_ascii d - 128)) with (N_of_ascii d) by lia. now rewrite !ascii_N_embedding.
    + unfold a_character, k. lia.
  - intros (l & F & ->). induction F as [|c l A F IH]; [reflexivity|]. cbn [fold_right]. rewrite utf8_encoded by exact A. exact IH.
Qed.
Print Assumptions C95_what_is_text.

(** ** The first symbolic HEAD *)
Lemma find_head_iff ms t o : find_head ms = Some (t, o) <-> server_head ms t o.
Proof.
  unfold server_head. induction ms as [|m ms IH]; cbn [find_head].
  - split; [discriminate|intros ([|] & tag & after & E & _); discriminate].
  - assert (K : forall (P : Prop), ~ a_symbolic_head m -> (P <-> server_head ms t o) -> P <-> exists before tag after, m :: ms = (before ++ SrcRef (RSymbolic "HEAD" t tag o) :: after)%list /\ Forall (fun m => ~ a_symbolic_head m) before).
    { intros P N HP. rewrite HP. unfold server_head. split.
      - intros (b & tag & a & -> & F). exists (m :: b), tag, a. split; [reflexivity|]. constructor; assumption.
      - intros (b & tag & a & E & F). destruct b as [|x b]; [injection E as -> _; elim N; eexists; eauto|].
        injection E as <- ->. exists b, tag, a. split; [reflexivity|]. now inversion F. }
    destruct m as [id|[n tg o'|n o'|n t' tg o'|n t']]; try (apply K; [intros (x & y & z & E); discriminate|exact IH]).
    destruct (String.eqb_spec n "HEAD") as [->|N].
    + split.
      * intros H. injection H as -> ->. exists [], tg, ms. split; [reflexivity|constructor].
      * intros (b & tag & a & E & F). destruct b as [|x b]; [injection E as -> -> -> ->; reflexivity|].
        injection E as <- _. inversion F as [|? ? X]. elim X. eexists; eauto.
    + apply K; [intros (x & y & z & E); injection E as ? _; congruence|exact IH].
Qed.
Lemma find_head_none ms : find_head ms = None <-> forall t o, ~ server_head ms t o.
Proof.
  destruct (find_head ms) as [[t o]|] eqn:E.
  - split; [discriminate|]. intros H. elim (H t o). now apply find_head_iff.
  - split; [|reflexivity]. intros _ t o H. apply find_head_iff in H. congruence.
Qed.

(** ** The lines *)
Lemma asks_iff name spec : utf8 name = true ->
  asks_for_head name spec = true <-> exists src, spec = (Some (src ++ "HEAD"), Some ("refs/remotes/" ++ name ++ "/HEAD")).
Proof.
  intros U. destruct spec as [[r|] l]; cbn [asks_for_head fst snd]; [|split; [discriminate|intros (? & H); discriminate]].
  destruct (ends_with "HEAD" r) eqn:E; cbn [negb].
  - apply ends_with_spec in E as (src & ->). destruct l as [l|]; [|split; [discriminate|intros (? & H); discriminate]].
    split.
    + intros H. destruct (utf8 l); [|discriminate]. destruct (strip_prefix "refs/remotes/" l) as [l'|] eqn:P; [|discriminate].
      destruct (strip_suffix "/HEAD" l') as [n|] eqn:S; [|discriminate]. apply String.eqb_eq in H as ->.
      apply strip_prefix_spec in P as ->. apply strip_suffix_spec in S as ->. exists src. reflexivity.
    + intros (s' & H). assert (l = "refs/remotes/" ++ name ++ "/HEAD") as -> by congruence. clear H. assert (U' : utf8 ("refs/remotes/" ++ name ++ "/HEAD") = true).
      { rewrite utf8_app by reflexivity. rewrite utf8_app by exact U. reflexivity. }
      rewrite U'. rewrite strip_prefix_app.
      assert (S : strip_suffix "/HEAD" (name ++ "/HEAD") = Some name) by (apply strip_suffix_spec; reflexivity).
      rewrite S. apply String.eqb_refl.
  - split; [discriminate|]. intros (src & H). injection H as -> _. assert (K : ends_with "HEAD" (src ++ "HEAD") = true) by (apply ends_with_spec; eauto). congruence.
Qed.
Lemma asked_iff name rm : utf8 name = true -> existsb (asks_for_head name) (rm_specs rm) = true <-> head_is_asked_for name rm.
Proof.
  intros U. rewrite existsb_exists. unfold head_is_asked_for. split.
  - intros (x & I & H). apply asks_iff in H as (src & ->); [|exact U]. eauto.
  - intros (src & H). eexists. split; [exact H|]. apply asks_iff; eauto.
Qed.
Lemma branch_iff t b : (if utf8 t then strip_prefix "refs/heads/" t else None) = Some b <-> branch_name t b.
Proof.
  unfold branch_name. rewrite <- C95_what_is_text. destruct (utf8 t) eqn:U.
  - rewrite strip_prefix_spec. split; [intros ->; split; [reflexivity|]; now rewrite utf8_app in U by reflexivity|tauto].
  - split; [discriminate|]. intros [-> H]. rewrite utf8_app in U by reflexivity. congruence.
Qed.
Lemma ok_pair {A B} (a a' : A) (b b' : B) : Ok (a, b) = Ok (a', b') -> a = a' /\ b = b'.
Proof. intros H. split; congruence. Qed.
(** The two lines. *)
Definition the_line (hex what : string) : string := hex ++ TAB ++ TAB ++ what.
Fixpoint all_lines (l : list string) : string := match l with [] => "" | x :: r => x ++ LF ++ all_lines r end.

Lemma named rm : is_named rm (remote_name_of rm).
Proof. unfold is_named, remote_name_of. destruct (rm_name rm) as [[n|n]|]; [left; reflexivity|right|right]; (split; [intros ? X; discriminate|reflexivity]). Qed.
Lemma named_unique rm n : is_named rm n -> n = remote_name_of rm.
Proof. unfold is_named, remote_name_of. intros [-> |[X ->]]; [reflexivity|]. destruct (rm_name rm) as [[m|m]|]; [now elim (X m)|reflexivity|reflexivity]. Qed.
(** C95: the text written and the identifier returned, exactly.  [hex] is the one text of lower-case digits for the identifier. *)
Theorem C95_recorded_exactly : forall ms rm id text, (forall n, rm_name rm = Some (NSymbol n) -> is_text n) ->
  fetch_head_text ms rm = Ok (id, text) <->
  exists t bytes hex url name first second,
    is_named rm name /\ server_head ms t id /\ id = Sha1 bytes /\ encode_hex bytes = Ok hex /\ rm_url rm = Some url /\ is_text url /\
    ((head_is_asked_for name rm /\ first = [url]) \/ (~ head_is_asked_for name rm /\ first = [])) /\
    ((exists b, branch_name t b /\ second = ["branch '" ++ b ++ "' of " ++ url]) \/ ((forall b, ~ branch_name t b) /\ second = [])) /\
    (first ++ second <> [])%list /\ text = all_lines (map (the_line hex) (first ++ second)%list).
Proof.
  intros ms rm id text UN. assert (U : utf8 (remote_name_of rm) = true).
  { unfold remote_name_of. destruct (rm_name rm) as [[n|n]|]; [apply C95_what_is_text; now apply UN|reflexivity|reflexivity]. }
  pose proof (asked_iff (remote_name_of rm) rm U) as AI. unfold fetch_head_text. split.
  - destruct (find_head ms) as [[t o]|] eqn:F; [|discriminate]. destruct (rm_url rm) as [url|]; [|discriminate].
    destruct (utf8 url) eqn:Uu; cbn [negb]; [|discriminate]. destruct o as [bytes|]; [|discriminate].
    destruct (encode_hex bytes) as [hex| |] eqn:Eh; cbn [obind]; try discriminate.
    pose proof (branch_iff t) as BI. destruct (if utf8 t then strip_prefix "refs/heads/" t else None) as [b|].
    + destruct (existsb _ _) eqn:A; cbn zeta.
      * destruct (String.eqb _ _); [discriminate|]. intros H. assert (id = Sha1 bytes) as -> by congruence.
        exists t, bytes, hex, url, (remote_name_of rm), [url], ["branch '" ++ b ++ "' of " ++ url].
        split; [apply named|]. split; [now apply find_head_iff|]. split; [reflexivity|]. split; [exact Eh|]. split; [reflexivity|]. split; [now apply C95_what_is_text|].
        split; [left; tauto|]. split; [left; exists b; split; [now apply BI|reflexivity]|]. split; [discriminate|].
        apply ok_pair in H as [_ E']. rewrite <- E'. cbn [app map all_lines]. unfold the_line. rewrite !sapp_assoc, ?sapp_nil_r. reflexivity.
      * cbn [String.append]. destruct (String.eqb _ _); [discriminate|]. intros H. assert (id = Sha1 bytes) as -> by congruence.
        exists t, bytes, hex, url, (remote_name_of rm), [], ["branch '" ++ b ++ "' of " ++ url].
        split; [apply named|]. split; [now apply find_head_iff|]. split; [reflexivity|]. split; [exact Eh|]. split; [reflexivity|]. split; [now apply C95_what_is_text|].
        split; [right; split; [intros X; apply AI in X; congruence|reflexivity]|]. split; [left; exists b; split; [now apply BI|reflexivity]|]. split; [discriminate|].
        apply ok_pair in H as [_ E']. rewrite <- E'. cbn [app map all_lines]. unfold the_line. rewrite !sapp_assoc, ?sapp_nil_r. reflexivity.
    + destruct (existsb _ _) eqn:A; cbn zeta.
      * destruct (String.eqb _ _); [discriminate|]. intros H. assert (id = Sha1 bytes) as -> by congruence.
        exists t, bytes, hex, url, (remote_name_of rm), [url], [].
        split; [apply named|]. split; [now apply find_head_iff|]. split; [reflexivity|]. split; [exact Eh|]. split; [reflexivity|]. split; [now apply C95_what_is_text|].
        split; [left; tauto|]. split; [right; split; [intros b X; apply BI in X; discriminate|reflexivity]|]. split; [discriminate|].
        apply ok_pair in H as [_ E']. rewrite <- E'. cbn [app map all_lines]. unfold the_line. rewrite !sapp_assoc, ?sapp_nil_r. reflexivity.
      * cbn. discriminate.
  - intros (t & bytes & hex & url & name & first & second & NM & S & -> & Eh & -> & Uu & F1 & F2 & NE & ->).
    apply C95_what_is_text in Uu. rewrite (named_unique _ _ NM) in F1. apply find_head_iff in S. rewrite S, Uu, Eh. cbn [negb obind].
    assert (NZ : forall a b, (a ++ LF ++ b =? "")%string = false) by (intros a b; apply String.eqb_neq; destruct a; discriminate).
    assert (E1 : (if existsb (asks_for_head (remote_name_of rm)) (rm_specs rm) then hex ++ TAB ++ TAB ++ url ++ LF else "") = all_lines (map (the_line hex) first)).
    { destruct F1 as [[A ->]|[A ->]].
      - apply AI in A. rewrite A. cbn [map all_lines]. unfold the_line. now rewrite !sapp_assoc, sapp_nil_r.
      - destruct (existsb _ _); [elim A; now apply AI|reflexivity]. }
    assert (E2 : match (if utf8 t then strip_prefix "refs/heads/" t else None) with Some branch => hex ++ TAB ++ TAB ++ "branch '" ++ branch ++ "' of " ++ url ++ LF | None => "" end = all_lines (map (the_line hex) second)).
    { destruct F2 as [(b & B & ->)|[N ->]].
      - apply branch_iff in B. rewrite B. cbn [map all_lines]. unfold the_line. now rewrite !sapp_assoc, sapp_nil_r.
      - destruct (if utf8 t then strip_prefix "refs/heads/" t else None) as [b|] eqn:B; [elim (N b); now apply branch_iff|reflexivity]. }
    cbn zeta. rewrite E1, E2.
    assert (AP : forall a b, all_lines (a ++ b)%list = all_lines a ++ all_lines b).
    { intros a b. induction a as [|x a IH]; [reflexivity|]. cbn [app all_lines]. rewrite IH, !sapp_assoc. reflexivity. }
    rewrite map_app, AP, <- AP, <- map_app. destruct (first ++ second)%list as [|x r]; [now elim NE|].
    cbn [map all_lines]. rewrite NZ. reflexivity.
Qed.
Print Assumptions C95_recorded_exactly.

(** ** Reading the file *)
Lemma read_lines_line x : forall cur r, has_char (ascii_of_nat 10) x = false ->
  read_lines cur (x ++ LF ++ r) = match read_lines "" r with Some l => Some ((cur ++ x) :: l) | None => None end.
Proof.
  induction x as [|c x IH]; intros cur r H.
  - cbn [String.append LF read_lines]. rewrite sapp_nil_r. rewrite Ascii.eqb_refl. reflexivity.
  - cbn [has_char] in H. apply orb_false_elim in H as [H1 H2]. cbn [String.append read_lines].
    destruct (Ascii.eqb c (ascii_of_nat 10)) eqn:E; [congruence|].
    change (x ++ String (ascii_of_nat 10) r) with (x ++ LF ++ r). rewrite IH by exact H2. rewrite sapp_assoc. reflexivity.
Qed.
Lemma read_lines_all l : Forall (fun x => has_char (ascii_of_nat 10) x = false) l -> read_lines "" (all_lines l) = Some l.
Proof. induction 1 as [|x l X F IH]; [reflexivity|]. cbn [all_lines]. rewrite read_lines_line by exact X. rewrite IH. reflexivity. Qed.
Lemma up_to_tab_app x r : has_char (ascii_of_nat 9) x = false -> up_to_tab (x ++ TAB ++ r) = Some (x, r).
Proof.
  induction x as [|c x IH]; intros H; [reflexivity|]. cbn [has_char] in H. apply orb_false_elim in H as [H1 H2]. cbn [String.append up_to_tab].
  rewrite H1. change (x ++ String (ascii_of_nat 9) r) with (x ++ TAB ++ r). rewrite IH by exact H2. reflexivity.
Qed.
Lemma hex_has_no c hex l : read_id hex = Some l -> digit_value c = None -> has_char c hex = false.
Proof.
  revert hex. induction l as [|x l IH]; intros hex.
  - destruct hex as [|a [|b s]]; [reflexivity|discriminate|cbn [read_id]; destruct (digit_value a), (digit_value b), (read_id s); discriminate].
  - destruct hex as [|a [|b s]]; [discriminate|discriminate|]. cbn [read_id].
    destruct (digit_value a) as [h|] eqn:A; [|discriminate]. destruct (digit_value b) as [y|] eqn:B; [|discriminate].
    destruct (read_id s) as [q|] eqn:S; [|discriminate]. intros H D. assert (q = l) as -> by congruence.
    cbn [has_char]. assert (NE : forall x d, digit_value x = Some d -> Ascii.eqb x c = false).
    { intros z d Z. destruct (Ascii.eqb_spec z c) as [->|]; [congruence|reflexivity]. }
    rewrite (NE _ _ A), (NE _ _ B), (IH s S D). reflexivity.
Qed.
Lemma read_the_line hex l what : read_id hex = Some l -> read_line (the_line hex what) = Some (hex, true, what).
Proof.
  intros H. unfold the_line, read_line. rewrite up_to_tab_app by (apply (hex_has_no _ _ _ H); reflexivity).
  change (TAB ++ what) with ("" ++ TAB ++ what). rewrite up_to_tab_app by reflexivity. reflexivity.
Qed.
Lemma read_all_lines hex l whats : read_id hex = Some l -> read_all (map (the_line hex) whats) = Some (map (fun w => (hex, true, w)) whats).
Proof. intros H. induction whats as [|w ws IH]; [reflexivity|]. cbn [map read_all]. rewrite (read_the_line hex l w H), IH. reflexivity. Qed.
Lemma read_text hex l whats : read_id hex = Some l -> Forall (fun w => has_char (ascii_of_nat 10) w = false) whats ->
  read_fetch_head (all_lines (map (the_line hex) whats)) = Some (map (fun w => (hex, true, w)) whats).
Proof.
  intros H F. unfold read_fetch_head. rewrite read_lines_all; [now apply (read_all_lines hex l)|].
  apply Forall_map. eapply Forall_impl; [|exact F]. intros w W. unfold the_line. rewrite !has_char_app, W.
  rewrite (hex_has_no _ _ _ H) by reflexivity. reflexivity.
Qed.

(** C95: what is written reads back: one or two lines, each for merging, each with the identifier returned, in forty digits;
    the descriptions are the URL and the branch of it. *)
Theorem C95_reads_back : forall ms rm t bytes url name text, is_named rm name -> (forall n, rm_name rm = Some (NSymbol n) -> is_text n) ->
  fetch_head_text ms rm = Ok (Sha1 bytes, text) -> server_head ms t (Sha1 bytes) -> a_sha1 bytes ->
  rm_url rm = Some url -> has_char (ascii_of_nat 10) url = false -> has_char (ascii_of_nat 10) t = false ->
  exists hex es, read_id hex = Some bytes /\ String.length hex = 40%nat /\ read_fetch_head text = Some es /\ es <> [] /\
    (forall e, In e es <->
       (e = (hex, true, url) /\ head_is_asked_for name rm) \/
       (exists b, branch_name t b /\ e = (hex, true, "branch '" ++ b ++ "' of " ++ url))) /\
    (List.length es <= 2)%nat.
Proof.
  intros ms rm t bytes url name text NM UN H S [L F] Eu NU NT.
  apply C95_recorded_exactly in H; [|exact UN]. destruct H as (t' & bytes' & hex & url' & name' & first & second & NM' & S' & E & Eh & Eu' & Uu & F1 & F2 & NE & ->).
  assert (name' = name) as -> by (rewrite (named_unique _ _ NM); now apply named_unique).
  assert (bytes' = bytes) as -> by congruence. assert (url' = url) as -> by congruence.
  assert (t' = t) as -> by (apply find_head_iff in S, S'; congruence).
  destruct (encode_ok bytes F) as (hex' & Eh' & R & Lh). assert (hex' = hex) as -> by congruence.
  assert (NB : forall b, branch_name t b -> has_char (ascii_of_nat 10) b = false).
  { intros b [-> _]. rewrite has_char_app in NT. now apply orb_false_elim in NT as [_ NT]. }
  exists hex, (map (fun w => (hex, true, w)) (first ++ second)%list). split; [exact R|]. split; [lia|]. split; [|split; [|split]].
  - apply (read_text hex bytes); [exact R|]. apply Forall_app. split.
    + destruct F1 as [[_ ->]|[_ ->]]; repeat constructor. exact NU.
    + destruct F2 as [(b & B & ->)|[_ ->]]; [|constructor]. constructor; [|constructor].
      rewrite !has_char_app, (NB b B), NU. reflexivity.
  - destruct (first ++ second)%list; [now elim NE|discriminate].
  - intros e. rewrite map_app, in_app_iff. assert (T : forall A B C D : Prop, (A <-> C) -> (B <-> D) -> (A \/ B <-> C \/ D)) by tauto. apply T; clear T.
    + destruct F1 as [[A ->]|[A ->]]; cbn [map In].
      * split; [intros [<-|[]]; auto|intros [-> _]; auto].
      * split; [intros []|intros [_ X]; tauto].
    + destruct F2 as [(b & B & ->)|[N ->]].
      * change (map (fun w => (hex, true, w)) ["branch '" ++ b ++ "' of " ++ url]) with [(hex, true, "branch '" ++ b ++ "' of " ++ url)].
        split; [intros [<-|[]]; eauto|]. intros (b' & B' & ->). left. destruct B as [B _], B' as [B' _].
        assert (b = b') as -> by (apply (sapp_inj_l "refs/heads/"); congruence). reflexivity.
      * split; [intros []|intros (b & B & _); now elim (N b)].
  - rewrite map_length, app_length.
    assert ((List.length first <= 1)%nat) by (destruct F1 as [[_ ->]|[_ ->]]; cbn; lia).
    assert ((List.length second <= 1)%nat) by (destruct F2 as [(? & _ & ->)|[_ ->]]; cbn; lia). lia.
Qed.
Print Assumptions C95_reads_back.

(** ** The fetches of this program *)
Lemma ours_asks url : head_is_asked_for "origin" (our_remote url).
Proof. exists "". left. reflexivity. Qed.
Lemma ours_named url n : rm_name (our_remote url) = Some (NSymbol n) -> is_text n.
Proof. intros H. assert (n = "origin") as -> by (cbn in H; congruence). now apply C95_what_is_text. Qed.
(** C95: for the fetches of this program the file starts with the line of the remote's HEAD; the fetch fails if the server has no
    symbolic HEAD, or one that is no SHA-1, and in no other case; a URL that is missing or no text stops the program. *)
Theorem C95_first_line : forall ms url id text, fetch_head_text ms (our_remote (Some url)) = Ok (id, text) ->
  exists bytes hex rest, id = Sha1 bytes /\ encode_hex bytes = Ok hex /\ text = hex ++ TAB ++ TAB ++ url ++ LF ++ rest.
Proof.
  intros ms url id text H. apply C95_recorded_exactly in H; [|intros n; apply ours_named].
  destruct H as (t & bytes & hex & url' & name & first & second & NM & S & -> & Eh & Eu & Uu & F1 & F2 & NE & ->).
  assert (url' = url) as -> by (cbn [our_remote rm_url] in Eu; congruence).
  pose proof (named_unique _ _ NM) as EN. cbn in EN. subst name. destruct F1 as [[_ ->]|[X _]]; [|elim X; apply ours_asks].
  exists bytes, hex, (all_lines (map (the_line hex) second)). split; [reflexivity|]. split; [exact Eh|].
  cbn [app map all_lines]. unfold the_line at 1. rewrite !sapp_assoc. reflexivity.
Qed.
Print Assumptions C95_first_line.
Theorem C95_which_fetches_record : forall ms url, is_text url ->
  (forall t bytes, server_head ms t (Sha1 bytes) -> a_sha1 bytes) ->
  ((exists id text, fetch_head_text ms (our_remote (Some url)) = Ok (id, text)) <-> exists t bytes, server_head ms t (Sha1 bytes)) /\
  (fetch_head_text ms (our_remote (Some url)) = Err <->
     (forall t o, ~ server_head ms t o) \/ exists t bytes, server_head ms t (OtherHash bytes)) /\
  fetch_head_text ms (our_remote (Some url)) <> Panic.
Proof.
  intros ms url Uu' V. pose proof (proj2 (C95_what_is_text url) Uu') as Uu.
  assert (OK : forall t bytes, server_head ms t (Sha1 bytes) -> exists id text, fetch_head_text ms (our_remote (Some url)) = Ok (id, text)).
  { intros t bytes S. destruct (V t bytes S) as [_ F]. destruct (encode_ok bytes F) as (hex & E & _).
    pose (second := match (if utf8 t then strip_prefix "refs/heads/" t else None) with Some b => ["branch '" ++ b ++ "' of " ++ url] | None => [] end).
    exists (Sha1 bytes), (all_lines (map (the_line hex) ([url] ++ second)%list)). apply C95_recorded_exactly; [intros n; apply ours_named|].
    exists t, bytes, hex, url, "origin", [url], second. split; [left; reflexivity|]. split; [exact S|]. split; [reflexivity|]. split; [exact E|]. split; [reflexivity|]. split; [now apply C95_what_is_text|].
    split; [left; split; [apply ours_asks|reflexivity]|]. split; [|split; [discriminate|reflexivity]].
    unfold second. pose proof (branch_iff t) as BI. destruct (if utf8 t then strip_prefix "refs/heads/" t else None) as [b|].
    - left. exists b. split; [now apply BI|reflexivity].
    - right. split; [|reflexivity]. intros b X. apply BI in X. discriminate. }
  destruct (find_head ms) as [[t o]|] eqn:FH.
  - pose proof (proj1 (find_head_iff ms t o) FH) as S. destruct o as [bytes|bytes].
    + destruct (OK t bytes S) as (id & text & E). rewrite E. split; [split; [eauto|intros _; eauto]|]. split; [|discriminate].
      split; [discriminate|]. intros [N|(t' & b' & S')]; [now elim (N t (Sha1 bytes))|]. apply find_head_iff in S'. congruence.
    + assert (E : fetch_head_text ms (our_remote (Some url)) = Err) by (unfold fetch_head_text; rewrite FH; cbn [our_remote rm_url]; now rewrite Uu).
      rewrite E. split; [split; [intros (? & ? & X); discriminate|]|].
      * intros (t' & b' & S'). apply find_head_iff in S'. congruence.
      * split; [|discriminate]. split; [intros _; right; eauto|reflexivity].
  - assert (E : fetch_head_text ms (our_remote (Some url)) = Err) by (unfold fetch_head_text; now rewrite FH).
    pose proof (proj1 (find_head_none ms) FH) as N. rewrite E. split; [split; [intros (? & ? & X); discriminate|]|].
    + intros (t' & b' & S'). elim (N _ _ S').
    + split; [|discriminate]. split; [intros _; left; exact N|reflexivity].
Qed.
Print Assumptions C95_which_fetches_record.

(** C95: and the program stops exactly if there is a HEAD to record and the URL is missing or no text. *)
Theorem C95_which_fetches_panic : forall ms rm, (forall t bytes, server_head ms t (Sha1 bytes) -> a_sha1 bytes) ->
  fetch_head_text ms rm = Panic <->
  (exists t o, server_head ms t o) /\ forall url, rm_url rm = Some url -> ~ is_text url.
Proof.
  intros ms rm V. unfold fetch_head_text. destruct (find_head ms) as [[t o]|] eqn:FH.
  - pose proof (proj1 (find_head_iff ms t o) FH) as S. destruct (rm_url rm) as [url|]; [|split; [intros _; split; [eauto|intros u X; discriminate]|reflexivity]].
    destruct (utf8 url) eqn:U; cbn [negb].
    + split.
      * destruct o as [bytes|]; [|discriminate]. destruct (encode_ok bytes (proj2 (V t bytes S))) as (hex & E & _). rewrite E. cbn [obind]. cbn zeta. destruct (String.eqb _ _); discriminate.
      * intros [_ X]. elim (X url eq_refl). now apply C95_what_is_text.
    + split; [|reflexivity]. intros _. split; [eauto|]. intros u X Y. assert (u = url) as -> by congruence. apply C95_what_is_text in Y. congruence.
  - split; [discriminate|]. intros [(t & o & S) _]. apply find_head_iff in S. congruence.
Qed.
Print Assumptions C95_which_fetches_panic.

(** ** HEAD *)
Section Heads.
  Context (rounds : nat).
  Lemma last_name_iff : forall f rs n e, last_name f rs n = Some e <-> exists k, (k <= f)%nat /\ ends_at rs k n e.
  Proof.
    induction f as [|f IH]; intros rs n e; cbn [last_name].
    - destruct (rs n) as [[o|m]|] eqn:E.
      + split; [intros H; injection H as <-; exists 0%nat; split; [lia|]; constructor; congruence|].
        intros (k & K & H). inversion H; subst; [reflexivity|lia].
      + split; [discriminate|]. intros (k & K & H). inversion H as [? X|]; subst; [elim (X m E)|lia].
      + split; [intros H; injection H as <-; exists 0%nat; split; [lia|]; constructor; congruence|].
        intros (k & K & H). inversion H; subst; [reflexivity|lia].
    - destruct (rs n) as [[o|m]|] eqn:E.
      + split; [intros H; injection H as <-; exists 0%nat; split; [lia|]; constructor; congruence|].
        intros (k & K & H). inversion H; subst; [reflexivity|congruence].
      + rewrite IH. split; intros (k & K & H).
        * exists (S k). split; [lia|]. econstructor; eauto.
        * inversion H as [? X|k' ? m' ? X Y]; subst; [elim (X m E)|]. assert (m' = m) as -> by congruence. exists k'. split; [lia|exact Y].
      + split; [intros H; injection H as <-; exists 0%nat; split; [lia|]; constructor; congruence|].
        intros (k & K & H). inversion H; subst; [reflexivity|congruence].
  Qed.
  Lemma ends_unique rs k n e : ends_at rs k n e -> forall k' e', ends_at rs k' n e' -> k = k' /\ e = e'.
  Proof.
    induction 1 as [n X|k n m e X H IH]; intros k' e' H'.
    - inversion H' as [? Y|? ? m' ? Y Z]; subst; [auto|elim (X _ Y)].
    - inversion H' as [? Y|? ? m' ? Y Z]; subst; [elim (Y _ X)|]. assert (m' = m) as -> by congruence. destruct (IH _ _ Z) as [-> ->]. auto.
  Qed.
  Lemma ends_not_symbolic rs k n e : ends_at rs k n e -> forall m, rs e <> Some (TSymbolic m).
  Proof. induction 1; auto. Qed.
  Lemma leads_after rs k n e id : ends_at rs k n e -> leads_to (set_ref e (TObject id) rs) n id.
  Proof.
    intros H. pose proof (ends_not_symbolic _ _ _ _ H) as X. revert X. induction H as [n _|k n m e H K IH]; intros X.
    - constructor. unfold set_ref. now rewrite String.eqb_refl.
    - apply leads_on with m; [|apply IH; exact X]. unfold set_ref. destruct (String.eqb_spec n e) as [->|]; [|exact H]. elim (X m H).
  Qed.
  Lemma edit_iff rs n must id rs' : edit_reference rounds rs n must id = Some rs' <->
    exists k e, (k <= rounds)%nat /\ ends_at rs k n e /\ (must = true -> rs e <> None) /\ rs' = set_ref e (TObject id) rs.
  Proof.
    unfold edit_reference. destruct (last_name rounds rs n) as [e|] eqn:E.
    - apply last_name_iff in E as (k & K & H).
      destruct (must && match rs e with None => true | _ => false end) eqn:M.
      + apply andb_prop in M as [-> M]. split; [discriminate|]. intros (k' & e' & _ & H' & X & _).
        destruct (ends_unique _ _ _ _ H _ _ H') as [_ <-]. destruct (rs e); [discriminate|]. now elim X.
      + split.
        * intros X. injection X as <-. exists k, e. split; [exact K|]. split; [exact H|]. split; [|reflexivity]. intros -> Z. rewrite Z in M. discriminate.
        * intros (k' & e' & _ & H' & _ & ->). destruct (ends_unique _ _ _ _ H _ _ H') as [_ <-]. reflexivity.
    - split; [discriminate|]. intros (k & e & K & H & _). assert (Y : last_name rounds rs n = Some e) by (apply last_name_iff; eauto). congruence.
  Qed.

  (** C95: a fetch that succeeds: the file is the one described above, HEAD leads to the commit returned, and nothing else has
      moved but the name HEAD led to. *)
  Theorem C95_head_moves : forall ms url written g g' id, record_fetch rounds ms url written g = (g', Ok id) ->
    (exists text, fetch_head_text ms (our_remote url) = Ok (id, text) /\ g_fetch_head g' = Some text) /\
    leads_to (g_refs g') "HEAD" id /\
    exists k e, ends_at (g_refs g) k "HEAD" e /\ g_refs g' e = Some (TObject id) /\ forall n, n <> e -> g_refs g' n = g_refs g n.
  Proof.
    intros ms url written g g' id. unfold record_fetch. destruct (fetch_head_text ms (our_remote url)) as [[id' text]| |]; [|congruence|congruence].
    destruct written as [n|]; [congruence|]. cbn zeta.
    assert (K : forall rs k e, ends_at (g_refs g) k "HEAD" e -> rs = set_ref e (TObject id') (g_refs g) -> (mkGitdir rs (Some text), Ok id') = (g', Ok id) ->
       (exists text0, Ok (id', text) = Ok (id, text0) /\ g_fetch_head g' = Some text0) /\ leads_to (g_refs g') "HEAD" id /\
       exists k e, ends_at (g_refs g) k "HEAD" e /\ g_refs g' e = Some (TObject id) /\ forall n, n <> e -> g_refs g' n = g_refs g n).
    { intros rs k e H -> X. assert (id' = id) as -> by congruence. assert (g' = mkGitdir (set_ref e (TObject id) (g_refs g)) (Some text)) as -> by congruence.
      cbn [g_refs g_fetch_head]. split; [eauto|]. split; [now apply leads_after with k|]. exists k, e. split; [exact H|]. unfold set_ref. rewrite String.eqb_refl.
      split; [reflexivity|]. intros n N. destruct (String.eqb_spec n e); [congruence|reflexivity]. }
    destruct (g_refs g "HEAD") as [t|] eqn:EH; [|congruence].
    assert (P : (match edit_reference rounds (g_refs g) "HEAD" false id' with Some rs => (mkGitdir rs (Some text), Ok id') | None => (mkGitdir (g_refs g) (Some text), Err) end) = (g', Ok id) ->
       (exists text0, Ok (id', text) = Ok (id, text0) /\ g_fetch_head g' = Some text0) /\ leads_to (g_refs g') "HEAD" id /\
       exists k e, ends_at (g_refs g) k "HEAD" e /\ g_refs g' e = Some (TObject id) /\ forall n, n <> e -> g_refs g' n = g_refs g n).
    { destruct (edit_reference rounds (g_refs g) "HEAD" false id') as [rs|] eqn:E; [|congruence]. apply edit_iff in E as (k & e & _ & H & _ & ->). now apply (K _ k e). }
    destruct t as [o|b]; [exact P|]. destruct (g_refs g b) as [[o|name]|] eqn:Eb; [exact P| |exact P].
    destruct (edit_reference rounds (g_refs g) name true id') as [rs|] eqn:E; [|congruence]. apply edit_iff in E as (k & e & _ & H & _ & ->).
    apply (K _ (S (S k)) e); [|reflexivity]. econstructor; [exact EH|]. econstructor; [exact Eb|exact H].
  Qed.
  (** C95: a fetch that fails after the objects have been received moves no reference; what it has written of the file is the
      beginning of the text. *)
  Theorem C95_failure_moves_nothing : forall ms url written g g' o, record_fetch rounds ms url written g = (g', o) -> (forall id, o <> Ok id) ->
    g_refs g' = g_refs g /\
    (g_fetch_head g' = g_fetch_head g \/
     exists id text done rest, fetch_head_text ms (our_remote url) = Ok (id, text) /\ g_fetch_head g' = Some done /\ text = done ++ rest).
  Proof.
    intros ms url written g g' o. unfold record_fetch.
    assert (SUB : forall n s, exists r, s = String.substring 0 n s ++ r).
    { induction n as [|n IH]; intros [|c s]; try (exists ""; reflexivity); [exists (String c s); reflexivity|].
      destruct (IH s) as (r & E). exists r. cbn [String.substring String.append]. now rewrite <- E. }
    destruct (fetch_head_text ms (our_remote url)) as [[id text]| |]; [|intros H _; split; [congruence|left; congruence]|intros H _; split; [congruence|left; congruence]].
    assert (W : forall d r, text = d ++ r -> g_fetch_head g' = Some d -> g_fetch_head g' = g_fetch_head g \/
      exists id0 text0 done rest, Ok (id, text) = Ok (id0, text0) /\ g_fetch_head g' = Some done /\ text0 = done ++ rest).
    { intros d r E1 E2. right. exists id, text, d, r. auto. }
    destruct written as [n|].
    - intros H _. assert (g' = mkGitdir (g_refs g) (Some (String.substring 0 n text))) as -> by congruence. split; [reflexivity|].
      destruct (SUB n text) as (r & E). apply (W _ r E). reflexivity.
    - cbn zeta. intros H N.
      assert (g' = mkGitdir (g_refs g) (Some text)) as ->.
      { destruct (g_refs g "HEAD") as [t|]; [|congruence].
        match goal with H : match ?x with Some _ => _ | None => _ end = _ |- _ => destruct x end; [|congruence]. exfalso. apply (N id). congruence. }
      split; [reflexivity|]. apply (W text ""); [now rewrite sapp_nil_r|reflexivity].
  Qed.
  (** C95: once the file has been written, the fetch succeeds exactly if the names HEAD leads through come to an end soon enough, and -
      if HEAD leads to a name which is symbolic itself - that end exists. *)
  Theorem C95_when_head_moves : forall ms url g id text, fetch_head_text ms (our_remote url) = Ok (id, text) ->
    (exists g', record_fetch rounds ms url None g = (g', Ok id)) <->
    g_refs g "HEAD" <> None /\
    exists k e, ends_at (g_refs g) k "HEAD" e /\ (((k <= 1)%nat /\ (k <= rounds)%nat) \/ ((2 <= k <= rounds + 2)%nat /\ g_refs g e <> None)).
  Proof.
    intros ms url g id text T. unfold record_fetch. rewrite T. cbn zeta.
    destruct (g_refs g "HEAD") as [t|] eqn:EH.
    2:{ split; [intros (g' & H); congruence|]. intros [X _]. now elim X. }
    assert (P : (forall k e, ends_at (g_refs g) k "HEAD" e -> (k <= 1)%nat) ->
      (exists g', (match edit_reference rounds (g_refs g) "HEAD" false id with Some rs => (mkGitdir rs (Some text), Ok id) | None => (mkGitdir (g_refs g) (Some text), Err) end) = (g', Ok id)) <->
      Some t <> None /\ exists k e, ends_at (g_refs g) k "HEAD" e /\ (((k <= 1)%nat /\ (k <= rounds)%nat) \/ ((2 <= k <= rounds + 2)%nat /\ g_refs g e <> None))).
    { intros L. destruct (edit_reference rounds (g_refs g) "HEAD" false id) as [rs|] eqn:E.
      - apply edit_iff in E as (k & e & K & H & _ & ->). split; [|eauto]. intros _. split; [discriminate|]. exists k, e. split; [exact H|]. left. split; [exact (L k e H)|exact K].
      - split; [intros (g' & H); congruence|]. intros [_ (k & e & H & C)]. exfalso. pose proof (L k e H).
        assert (Y : edit_reference rounds (g_refs g) "HEAD" false id = Some (set_ref e (TObject id) (g_refs g))).
        { apply edit_iff. exists k, e. split; [lia|]. split; [exact H|]. split; [discriminate|reflexivity]. }
        congruence. }
    destruct t as [o|b].
    - apply P. intros k e H. inversion H as [|? ? ? ? X]; subst; [lia|congruence].
    - destruct (g_refs g b) as [[o|name]|] eqn:Eb.
      + apply P. intros k e H. inversion H as [|? ? ? ? X Y]; subst; [lia|]. assert (m = b) as -> by congruence. inversion Y; subst; [lia|congruence].
      + clear P. assert (ED : forall k e, ends_at (g_refs g) k "HEAD" e -> exists j, k = S (S j) /\ ends_at (g_refs g) j name e).
        { intros k e H. inversion H as [? X|? ? ? ? X Y]; subst; [elim (X b EH)|]. assert (m = b) as -> by congruence.
          inversion Y as [? X'|? ? ? ? X' Y']; subst; [elim (X' name Eb)|]. assert (m = name) as -> by congruence. eauto. }
        destruct (edit_reference rounds (g_refs g) name true id) as [rs|] eqn:E.
        * apply edit_iff in E as (k & e & K & H & M & ->). split; [|eauto]. intros _. split; [discriminate|].
          exists (S (S k)), e. split; [econstructor; [exact EH|]; econstructor; [exact Eb|exact H]|]. right. split; [lia|]. now apply M.
        * split; [intros (g' & H); congruence|]. intros [_ (k & e & H & C)]. exfalso. destruct (ED k e H) as (j & -> & Hj). destruct C as [C|[C Z]]; [lia|].
          assert (Y : edit_reference rounds (g_refs g) name true id = Some (set_ref e (TObject id) (g_refs g))).
          { apply edit_iff. exists j, e. split; [lia|]. split; [exact Hj|]. split; [intros _; exact Z|reflexivity]. }
          congruence.
      + apply P. intros k e H. inversion H as [|? ? ? ? X Y]; subst; [lia|]. assert (m = b) as -> by congruence. inversion Y; subst; [lia|congruence].
  Qed.
End Heads.
Print Assumptions C95_head_moves.
Print Assumptions C95_failure_moves_nothing.
Print Assumptions C95_when_head_moves.

(** ** A case *)
Definition sample_id : list N := [0; 17; 34; 51; 68; 85; 102; 119; 136; 153; 170; 187; 204; 221; 238; 255; 1; 2; 3; 4].
Definition sample_ms : list source :=
  [SrcObject (Sha1 []); SrcRef (RDirect "refs/heads/main" (Sha1 sample_id)); SrcRef (RSymbolic "refs/remotes/x/HEAD" "y" None (Sha1 []));
   SrcRef (RSymbolic "HEAD" "refs/heads/main" None (Sha1 sample_id)); SrcRef (RSymbolic "HEAD" "refs/heads/other" None (Sha1 []))].
Definition sample_refs : refs := set_ref "HEAD" (TSymbolic "refs/heads/main") (set_ref "refs/heads/main" (TObject (Sha1 [])) (fun _ => None)).
Example C95_case :
  record_fetch 5 sample_ms (Some "https://github.com/RustSec/advisory-db.git") None (mkGitdir sample_refs None) =
    (mkGitdir (set_ref "refs/heads/main" (TObject (Sha1 sample_id)) sample_refs)
       (Some ("00112233445566778899aabbccddeeff01020304" ++ TAB ++ TAB ++ "https://github.com/RustSec/advisory-db.git" ++ LF
           ++ "00112233445566778899aabbccddeeff01020304" ++ TAB ++ TAB ++ "branch 'main' of https://github.com/RustSec/advisory-db.git" ++ LF)),
     Ok (Sha1 sample_id)) /\
  a_sha1 sample_id /\ server_head sample_ms "refs/heads/main" (Sha1 sample_id).
Proof.
  split; [reflexivity|]. split; [split; [reflexivity|]; repeat constructor|]. apply find_head_iff. reflexivity.
Qed.
(** A server whose HEAD is detached gives no symbolic HEAD: the fetch fails. *)
Example C95_detached : fetch_head_text [SrcRef (RDirect "HEAD" (Sha1 sample_id))] (our_remote (Some "https://example.com/x")) = Err.
Proof. reflexivity. Qed.
