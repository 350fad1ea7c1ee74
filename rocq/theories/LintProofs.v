(** Mentions and lines. *)
From Coq Require Import List NArith Ascii String Bool Arith Lia.
From Verif Require Import Base StrLib PartsModel PartsSpec PropsParts AssignModel ScanModel PropsScan LintModel LintSpec.
Import ListNotations.
Local Open Scope string_scope.
Local Infix "++" := String.append (right associativity, at level 60).

Lemma ws_start_iff s : ws_start s = true <-> starts_blank s.
Proof.
  split.
  - destruct s as [|a r]; [discriminate|]. cbn [ws_start]. intros H. apply orb_true_iff in H as [H|H].
    + exists (String a ""), r. split; [apply ws1_in; exact H|reflexivity].
    + destruct r as [|b r]; [discriminate|]. apply orb_true_iff in H as [H|H].
      * exists (String a (String b "")), r. split; [apply ws2_in; exact H|reflexivity].
      * destruct r as [|c r]; [discriminate|]. exists (String a (String b (String c ""))), r.
        split; [apply ws3_in; exact H|reflexivity].
  - intros (w & r & H & ->). each_white H; subst w; reflexivity.
Qed.
Lemma ws_start_false s : ws_start s = false <-> ~ starts_blank s.
Proof. rewrite <- ws_start_iff. destruct (ws_start s); split; congruence. Qed.

Lemma first_word_spec s : exists after, s = first_word s ++ after /\ is_word (first_word s) after.
Proof.
  induction s as [|a s IH].
  - exists "". split; [reflexivity|]. split; [|left; reflexivity]. intros u v E N.
    destruct u, v; cbn in E; try discriminate. congruence.
  - cbn [first_word]. destruct (ws_start (String a s)) eqn:E.
    + exists (String a s). split; [reflexivity|]. split; [|right; apply ws_start_iff; exact E].
      intros u v X N. destruct u, v; cbn in X; try discriminate. congruence.
    + destruct IH as (after & E1 & H1 & H2). exists after. split; [cbn; f_equal; exact E1|]. split; [|exact H2].
      intros [|b u] v X N.
      * cbn in X. subst v. change (String a (first_word s) ++ after) with (String a (first_word s ++ after)).
        rewrite <- E1. apply ws_start_false. exact E.
      * cbn in X. injection X; intros Y ->. eapply H1; eassumption.
Qed.
Lemma first_word_app w after : is_word w after -> first_word (w ++ after) = w.
Proof.
  intros [H1 H2]. induction w as [|a w IH].
  - cbn [String.append]. destruct after as [|b after]; [reflexivity|]. destruct H2 as [H2|H2]; [discriminate|].
    cbn [first_word]. apply ws_start_iff in H2. rewrite H2. reflexivity.
  - cbn [String.append first_word]. assert (X : ws_start (String a (w ++ after)) = false).
    { apply ws_start_false. apply (H1 "" (String a w) eq_refl). discriminate. }
    rewrite X. f_equal. apply IH. intros u v E N. apply (H1 (String a u) v); [cbn; f_equal; exact E|exact N].
Qed.

Lemma is_alnum_spec a : is_alnum a = has_char a letters_and_digits.
Proof. apply eqb_prop. revert a. apply ascii_all. vm_compute. reflexivity. Qed.

Lemma piece_user_spec part u : piece_user part = Some u <->
  exists after, part = u ++ after /\ user_name u /\ is_word u after.
Proof.
  unfold piece_user. destruct (first_word_spec part) as (after & E & W). split.
  - destruct (starts_alnum part) eqn:S; cbn [negb]; [|discriminate].
    destruct (has_char "." (first_word part) || has_char "@" (first_word part) || has_char "`" (first_word part)) eqn:D; [discriminate|].
    intros [= <-]. apply orb_false_iff in D as [D D3]. apply orb_false_iff in D as [D1 D2].
    exists after. split; [exact E|]. split; [|exact W]. split; [|tauto].
    destruct part as [|a r]; [discriminate|]. cbn [starts_alnum] in S.
    cbn [first_word] in *. destruct (ws_start (String a r)) eqn:B.
    + exfalso. apply ws_start_iff in B as (w & x & B1 & B2). each_white B1; subst w; cbn in B2; injection B2; intros _ Z; subst a; discriminate.
    + exists a, (first_word r). split; [reflexivity|]. rewrite <- is_alnum_spec. exact S.
  - intros (af & Ep & ((a & r & Eu & A) & U1 & U2 & U3) & Wu).
    assert (F : first_word part = u) by (rewrite Ep; apply first_word_app; exact Wu).
    assert (S : starts_alnum part = true) by (rewrite Ep, Eu; cbn; rewrite is_alnum_spec; exact A).
    rewrite S, F, U1, U2, U3. reflexivity.
Qed.

(** Pieces after an at sign. *)
Fixpoint sconcat (l : list string) : string := match l with [] => "" | x :: r => x ++ sconcat r end.
Lemma split_inclusive_concat c s : sconcat (split_inclusive c s) = s.
Proof.
  induction s as [|a s IH]; [reflexivity|]. cbn [split_inclusive]. destruct (Ascii.eqb_spec a c) as [->|N].
  - cbn [sconcat]. rewrite IH. reflexivity.
  - destruct (split_inclusive c s) as [|h t]; cbn [sconcat] in *; rewrite <- IH; reflexivity.
Qed.
Lemma split_inclusive_nochar c s : has_char c s = false -> s <> "" -> split_inclusive c s = [s].
Proof.
  induction s as [|a s IH]; intros H N; [congruence|]. cbn [has_char] in H. apply orb_false_iff in H as [H1 H2].
  cbn [split_inclusive]. rewrite H1. destruct s as [|b s]; [reflexivity|]. rewrite IH by (try exact H2; discriminate). reflexivity.
Qed.
Lemma split_inclusive_app c a b : has_char c a = false ->
  split_inclusive c (a ++ String c b) = (a ++ String c "") :: split_inclusive c b.
Proof.
  induction a as [|x a IH]; intros H; cbn [String.append split_inclusive].
  - rewrite Ascii.eqb_refl. reflexivity.
  - cbn [has_char] in H. apply orb_false_iff in H as [H1 H2]. rewrite H1, IH by exact H2. reflexivity.
Qed.
(** A mention of a user is at the start of a text or not. *)
Lemma pieces_cover parts_of_b b : parts_of_b = split_inclusive "@" b ->
  (forall u, first_some piece_user parts_of_b = Some u ->
     (exists after, b = u ++ after /\ user_name u /\ is_word u after) \/ mentions_user b u) /\
  ((exists u after, b = u ++ after /\ user_name u /\ is_word u after) \/ bare_mention b ->
   exists u, first_some piece_user parts_of_b = Some u).
Proof.
  intros ->. remember (String.length b) as n eqn:En. revert b En. induction n as [n IH] using lt_wf_ind; intros b ->.
  destruct (split_once "@" b) as [[x y]|] eqn:S.
  - apply split_once_spec in S as [-> Hx]. rewrite split_inclusive_app by exact Hx. cbn [first_some].
    assert (L : (String.length y < String.length (x ++ String "@" y))%nat) by (rewrite slength_app; cbn; lia).
    specialize (IH _ L y eq_refl). split.
    + intros u H. destruct (piece_user (x ++ "@")) as [w|] eqn:P.
      * left. assert (EW : w = u) by congruence. rewrite <- EW. clear H EW. apply piece_user_spec in P as (af & E & U & W). exists (af ++ y).
        split; [rewrite <- sapp_assoc, <- E, sapp_assoc; reflexivity|]. split; [exact U|].
        destruct W as [W1 W2]. assert (NE : af <> "").
        { intros ->. rewrite sapp_nil_r in E. subst w. destruct U as (_ & _ & U & _). rewrite has_char_app in U. cbn in U.
          rewrite orb_true_r in U. discriminate. }
        destruct W2 as [W2|W2]; [congruence|].
        assert (SB : starts_blank (af ++ y)).
        { destruct W2 as (z & r & Z1 & ->). exists z, (r ++ y). split; [exact Z1|apply sapp_assoc]. }
        split; [|right; exact SB].
        intros u0 v0 E0 N0 (z & r & Z1 & Z2). eapply W1; [exact E0|exact N0|].
        exists z. 
        assert (P : exists r', v0 ++ af = z ++ r').
        { (* the white space ends before the at sign *)
          assert (NA : has_char "@" z = false) by (each_white Z1; subst z; reflexivity).
          assert (EA : exists q, af = q ++ "@" /\ w ++ q = x).
          { clear -E NE. revert w E. induction x as [|a x IHx]; intros w E.
            - destruct w as [|b w]; [exists ""; split; [cbn in E; symmetry; exact E|reflexivity]|].
              cbn in E. injection E; intros E' ->. destruct w, af; cbn in E'; try discriminate. congruence.
            - destruct w as [|b w].
              + cbn in E. exists (String a x). split; [symmetry; exact E|reflexivity].
              + cbn in E. injection E; intros E' ->. destruct (IHx w E') as (q & Q1 & Q2). exists q. split; [exact Q1|cbn; f_equal; exact Q2]. }
          destruct EA as (q & -> & _). rewrite <- sapp_assoc in Z2. rewrite <- sapp_assoc in Z2.
          rewrite <- sapp_assoc. clear -Z2 NA. generalize (v0 ++ q) Z2. clear -NA. intros s Z2.
          rewrite sapp_assoc in Z2. revert s Z2. induction z as [|a z IHz]; intros s Z2; [eexists; reflexivity|].
          cbn [has_char] in NA. apply orb_false_iff in NA as [N1 N2]. destruct s as [|b s].
          - cbn in Z2. injection Z2; intros _ <-. discriminate.
          - cbn in Z2. injection Z2; intros Z3 ->. destruct (IHz N2 s Z3) as [r' Hr]. exists r'. cbn. f_equal. exact Hr. }
        destruct P as [r' P]. exists r'. split; assumption.
      * right. destruct (proj1 IH u H) as [(af & E & U & W)|(bf & af & E & U & W)].
        -- exists x, af. rewrite E. split; [reflexivity|]. split; assumption.
        -- exists (x ++ String "@" bf), af. rewrite E, sapp_assoc. split; [reflexivity|]. split; assumption.
    + intros H.
      assert (Y : (exists u af, x ++ "@" = u ++ af /\ user_name u /\ is_word u af)
                  \/ (exists u, first_some piece_user (split_inclusive "@" y) = Some u)).
      { destruct H as [(u & af & E & U & W)|(u & bf & af & E & U & W)].
        - left. exists u.
          assert (EA : exists q, x = u ++ q /\ af = q ++ String "@" y).
          { destruct U as (_ & _ & U & _). clear -E U Hx. revert u E U. induction x as [|a x IHx]; intros u E U.
            - destruct u as [|b u]; [exists ""; split; [reflexivity|symmetry; exact E]|].
              cbn in E. injection E; intros _ <-. cbn in U. discriminate.
            - destruct u as [|b u]; [exists (String a x); split; [reflexivity|symmetry; exact E]|].
              cbn in E. injection E; intros E' ->. cbn [has_char] in U, Hx. apply orb_false_iff in U as [_ U]. apply orb_false_iff in Hx as [_ Hx].
              destruct (IHx Hx u E' U) as (q & Q1 & Q2). exists q. split; [cbn; f_equal; exact Q1|exact Q2]. }
          destruct EA as (q & Eq1 & Eq2). exists (q ++ "@"). split; [rewrite Eq1, sapp_assoc; reflexivity|]. split; [exact U|].
          destruct W as [W1 W2].
          assert (UP : forall s, starts_blank (s ++ "@") -> starts_blank (s ++ String "@" y)).
          { intros s (z & r & Z1 & Z2). exists z, (r ++ y). split; [exact Z1|]. rewrite <- sapp_assoc, <- Z2, sapp_assoc. reflexivity. }
          assert (DOWN : forall s, starts_blank (s ++ String "@" y) -> starts_blank (s ++ "@")).
          { intros s (z & r & Z1 & Z2). assert (NA : has_char "@" z = false) by (each_white Z1; subst z; reflexivity).
            exists z. assert (P : exists r', s ++ "@" = z ++ r').
            { clear -Z2 NA. revert s Z2. induction z as [|a z IHz]; intros s Z2; [eexists; reflexivity|].
              cbn [has_char] in NA. apply orb_false_iff in NA as [N1 N2]. destruct s as [|b s].
              - cbn in Z2. injection Z2; intros _ <-. discriminate.
              - cbn in Z2. injection Z2; intros Z3 ->. destruct (IHz N2 s Z3) as [r' Hr]. exists r'. cbn. f_equal. exact Hr. }
            destruct P as [r' P]. exists r'. split; assumption. }
          split.
          + intros u0 v0 E0 N0 B. apply (W1 u0 v0 E0 N0). rewrite Eq2, <- sapp_assoc. apply UP. rewrite sapp_assoc. exact B.
          + right. apply DOWN. rewrite <- Eq2. destruct W2 as [W2|W2]; [|exact W2].
            exfalso. rewrite Eq2 in W2. destruct q; discriminate.
        - right. apply IH.
          assert (D : (bf = x /\ u ++ af = y) \/ exists bf', bf = x ++ String "@" bf' /\ y = bf' ++ "@" ++ u ++ af).
          { clear -E Hx. revert bf E. induction x as [|a x IHx]; intros bf E.
            - destruct bf as [|b bf]; cbn in E; injection E; intros; subst.
              + left. split; reflexivity.
              + right. exists bf. split; reflexivity.
            - cbn [has_char] in Hx. apply orb_false_iff in Hx as [Hx1 Hx2]. destruct bf as [|b bf]; cbn in E; injection E; intros; subst.
              + discriminate.
              + destruct (IHx Hx2 bf H) as [[-> E']|(bf' & -> & E')]; [left; split; [reflexivity|exact E']|].
                right. exists bf'. split; [reflexivity|exact E']. }
          destruct D as [[-> D]|(bf' & -> & D)].
          + left. exists u, af. split; [symmetry; exact D|]. split; assumption.
          + right. exists u, bf', af. split; [exact D|]. split; assumption. }
      destruct Y as [(u & af & Y)|[u Y]].
      * exists u. assert (P : piece_user (x ++ "@") = Some u) by (apply piece_user_spec; exists af; exact Y).
        rewrite P. reflexivity.
      * destruct (piece_user (x ++ "@")) as [w|]; [exists w; reflexivity|exists u; exact Y].
  - apply split_once_none in S. destruct b as [|a b].
    + cbn. split; [intros u H; discriminate|]. intros [(u & af & E & ((c & r & -> & _) & _) & _)|(u & bf & af & E & _)];
        [discriminate|destruct bf; discriminate].
    + rewrite split_inclusive_nochar by (try exact S; discriminate). cbn [first_some].
      split.
      * intros u H. left. destruct (piece_user (String a b)) as [w|] eqn:P; [|discriminate].
        apply piece_user_spec in P as (af & P). exists af. assert (EW : w = u) by congruence. rewrite <- EW. exact P.
      * intros [(u & af & P)|(u & bf & af & E & _)].
        -- exists u. assert (Q : piece_user (String a b) = Some u) by (apply piece_user_spec; exists af; exact P). rewrite Q. reflexivity.
        -- exfalso. rewrite E in S. rewrite has_char_app in S. cbn in S. rewrite orb_true_r in S. discriminate.
Qed.
Lemma at_sign_split x y bf u af : has_char "@" x = false -> x ++ String "@" y = bf ++ "@" ++ u ++ af ->
  (bf = x /\ u ++ af = y) \/ exists bf', bf = x ++ String "@" bf' /\ y = bf' ++ "@" ++ u ++ af.
Proof.
  intros Hx E. revert bf E. induction x as [|a x IHx]; intros bf E.
  - destruct bf as [|b bf]; cbn in E; injection E; intros; subst.
    + left. split; reflexivity.
    + right. exists bf. split; reflexivity.
  - cbn [has_char] in Hx. apply orb_false_iff in Hx as [Hx1 Hx2]. destruct bf as [|b bf]; cbn in E; injection E; intros; subst.
    + discriminate.
    + destruct (IHx Hx2 bf H) as [[-> E']|(bf' & -> & E')]; [left; split; [reflexivity|exact E']|].
      right. exists bf'. split; [reflexivity|exact E'].
Qed.
Lemma no_at_no_mention line : has_char "@" line = false -> ~ bare_mention line.
Proof. intros S (u & bf & af & -> & _). rewrite has_char_app in S. cbn in S. rewrite orb_true_r in S. discriminate. Qed.
Lemma line_user_sound line u : line_user line = Some u -> mentions_user line u.
Proof.
  unfold line_user. destruct (split_once "@" line) as [[x y]|] eqn:S.
  - apply split_once_spec in S as [-> Hx]. rewrite split_inclusive_app by exact Hx. intros H.
    destruct (proj1 (pieces_cover _ y eq_refl) u H) as [(af & E & U & W)|(bf & af & E & U & W)].
    + exists x, af. rewrite E. split; [reflexivity|]. split; assumption.
    + exists (x ++ String "@" bf), af. rewrite E, sapp_assoc. split; [reflexivity|]. split; assumption.
  - apply split_once_none in S. destruct line as [|a l]; [discriminate|].
    rewrite split_inclusive_nochar by (try exact S; discriminate). discriminate.
Qed.
Lemma line_user_iff line : (exists u, line_user line = Some u) <-> bare_mention line.
Proof.
  split; [intros [u H]; exists u; apply line_user_sound; exact H|].
  intros (u & bf & af & E & U & W). unfold line_user. destruct (split_once "@" line) as [[x y]|] eqn:S.
  - apply split_once_spec in S as [-> Hx]. rewrite split_inclusive_app by exact Hx.
    apply (proj2 (pieces_cover _ y eq_refl)).
    destruct (at_sign_split _ _ _ _ _ Hx E) as [[-> D]|(bf' & -> & D)].
    + left. exists u, af. split; [symmetry; exact D|]. split; assumption.
    + right. exists u, bf', af. split; [exact D|]. split; assumption.
  - apply split_once_none in S. exfalso. apply (no_at_no_mention _ S). exists u, bf, af. split; [exact E|]; split; assumption.
Qed.

(** ** Lines *)
Definition ascii_space (c : ascii) : Prop := In (String c "") white_space.
Lemma starts_blank_app s t : starts_blank s -> starts_blank (s ++ t).
Proof. intros (w & r & H & ->). exists w, (r ++ t). split; [exact H|apply sapp_assoc]. Qed.
Lemma starts_blank_cut s c t : ascii_space c -> starts_blank (s ++ String c t) -> s = "" \/ starts_blank s.
Proof.
  intros C (w & r & H & E). destruct s as [|a s]; [left; reflexivity|]. right.
  assert (X : exists a' v, w = String a' v /\ str_forall cont v = true).
  { destruct (white_shape w H) as (a' & v & E1 & _ & E2). exists a', v. split; assumption. }
  destruct X as (a' & v & -> & V). cbn in E. injection E; intros E' ->.
  assert (NC : cont c = false).
  { unfold ascii_space in C. destruct (white_shape _ C) as (a0 & v0 & X & Y & _). injection X; intros; subst. exact Y. }
  assert (P : exists t', s = v ++ t').
  { clear -V E' NC. revert s E'. induction v as [|b v IH]; intros s E; [exists s; reflexivity|].
    cbn [str_forall] in V. apply andb_true_iff in V as [V1 V2]. destruct s as [|d s].
    - cbn in E. injection E; intros _ ->. congruence.
    - cbn in E. injection E; intros E' ->. destruct (IH V2 s E') as [t' ->]. exists t'. reflexivity. }
  destruct P as [t' ->]. exists (String a' v), t'. split; [exact H|reflexivity].
Qed.
Lemma mention_split c a b : ascii_space c -> bare_mention (a ++ String c b) <-> bare_mention a \/ bare_mention b.
Proof.
  intros C.
  assert (NAT : c <> "@"%char).
  { intros ->. unfold ascii_space in C. cbn in C.
    repeat (destruct C as [C|C]; [discriminate|]). exact C. }
  split.
  - intros (u & bf & af & E & U & [W1 W2]).
    assert (D : (exists q, a = bf ++ "@" ++ u ++ q /\ af = q ++ String c b)
                \/ (exists bf', bf = a ++ String c bf' /\ b = bf' ++ "@" ++ u ++ af)
                \/ exists u1 u2, u = u1 ++ String c u2).
    { clear -E NAT. revert bf E. induction a as [|x a IH]; intros bf E.
      - destruct bf as [|y bf]; cbn in E; injection E; intros; subst; [congruence|].
        right. left. exists bf. split; reflexivity.
      - destruct bf as [|y bf]; cbn in E; injection E; intros E' ->.
        + clear IH. destruct (split_once c u) as [[u1 u2]|] eqn:SU.
          * apply split_once_spec in SU as [-> _]. right. right. exists u1, u2. reflexivity.
          * apply split_once_none in SU. left.
            assert (Q : exists q, a = u ++ q /\ af = q ++ String c b).
            { clear -E' SU. revert u E' SU. induction a as [|x a IH]; intros u E SU.
              - destruct u as [|y u]; [exists ""; split; [reflexivity|symmetry; exact E]|].
                cbn in E. injection E; intros _ ->. cbn [has_char] in SU. rewrite Ascii.eqb_refl in SU. discriminate.
              - destruct u as [|y u]; [exists (String x a); split; [reflexivity|symmetry; exact E]|].
                cbn in E. injection E; intros E' ->. cbn [has_char] in SU. apply orb_false_iff in SU as [_ SU].
                destruct (IH u E' SU) as (q & -> & ->). exists q. split; reflexivity. }
            destruct Q as (q & -> & ->). exists q. split; reflexivity.
        + destruct (IH bf E') as [(q & -> & ->)|[(bf' & -> & ->)|(u1 & u2 & ->)]].
          * left. exists q. split; reflexivity.
          * right. left. exists bf'. split; reflexivity.
          * right. right. exists u1, u2. reflexivity. }
    destruct D as [(q & -> & ->)|[(bf' & -> & ->)|(u1 & u2 & ->)]].
    + left. exists u, bf, q. split; [reflexivity|]. split; [exact U|]. split.
      * intros x v E' N B. apply (W1 x v E' N). rewrite <- sapp_assoc. apply starts_blank_app. exact B.
      * destruct W2 as [W2|W2]; [destruct q; discriminate|].
        destruct (starts_blank_cut _ _ _ C W2) as [Q|Q]; [left; exact Q|right; exact Q].
    + right. exists u, bf', af. split; [reflexivity|]. split; [exact U|]. split; assumption.
    + exfalso. apply (W1 u1 (String c u2) eq_refl); [discriminate|]. exists (String c ""), (u2 ++ af). split; [exact C|reflexivity].
  - intros [(u & bf & af & -> & U & [W1 W2])|(u & bf & af & -> & U & W)].
    + exists u, bf, (af ++ String c b). rewrite !sapp_assoc. split; [reflexivity|]. split; [exact U|]. split.
      * intros x v E N B. rewrite <- sapp_assoc in B. destruct (starts_blank_cut _ _ _ C B) as [Q|Q].
        -- destruct v; [congruence|discriminate].
        -- exact (W1 x v E N Q).
      * right. destruct W2 as [->|W2]; [|apply starts_blank_app; exact W2].
        exists (String c ""), b. split; [exact C|reflexivity].
    + exists u, (a ++ String c bf), af. rewrite sapp_assoc. split; [reflexivity|]. split; assumption.
Qed.
Lemma nl_space : ascii_space nl. Proof. unfold ascii_space. in_white. Qed.
Lemma cr_space : ascii_space cr. Proof. unfold ascii_space. in_white. Qed.
Lemma mention_empty : ~ bare_mention "".
Proof. intros (u & bf & af & E & _). destruct bf; discriminate. Qed.
Lemma mention_strip_cr l : bare_mention (strip_cr l) <-> bare_mention l.
Proof.
  unfold strip_cr. destruct (strip_suffix (String cr "") l) as [x|] eqn:E; [|reflexivity].
  apply strip_suffix_spec in E as ->. rewrite (mention_split cr x "" cr_space). pose proof mention_empty. tauto.
Qed.
Lemma lines_mention parts : parts <> [] ->
  bare_mention (join_on nl parts) <-> exists l, In l (lines_of parts) /\ bare_mention l.
Proof.
  induction parts as [|l [|l2 r] IH]; intros N; [congruence| |].
  - cbn [join_on lines_of]. destruct (String.eqb_spec l "") as [->|NE].
    + split; [intros H; exfalso; exact (mention_empty H)|]. intros (? & [] & _).
    + split; [intros H; exists l; split; [left; reflexivity|exact H]|]. intros (x & [<-|[]] & H). exact H.
  - rewrite join_cons2, (mention_split nl _ _ nl_space). rewrite (IH ltac:(discriminate)).
    change (lines_of (l :: l2 :: r)) with (strip_cr l :: lines_of (l2 :: r)). split.
    + intros [H|(x & Hx & H)]; [exists (strip_cr l); split; [left; reflexivity|apply mention_strip_cr; exact H]|].
      exists x. split; [right; exact Hx|exact H].
    + intros (x & [<-|Hx] & H); [left; apply mention_strip_cr; exact H|right; exists x; split; assumption].
Qed.
Lemma file_lines_mention text : bare_mention text <-> exists l, In l (file_lines text) /\ bare_mention l.
Proof. unfold file_lines. rewrite <- lines_mention by apply split_on_nonempty. rewrite join_split. reflexivity. Qed.

Lemma mention_errors_spec lines : forall n,
  mention_errors n lines = [] <-> forall l, In l lines -> ~ bare_mention l.
Proof.
  induction lines as [|l r IH]; intros n; cbn [mention_errors].
  - split; [intros _ ? []|reflexivity].
  - destruct (line_user l) as [u|] eqn:E.
    + split; [discriminate|]. intros H. exfalso. apply (H l (or_introl eq_refl)). apply line_user_iff. exists u. exact E.
    + rewrite IH. split.
      * intros H x [<-|Hx]; [|apply H; exact Hx]. intros B. apply line_user_iff in B as [u B]. congruence.
      * intros H x Hx. apply H. right. exact Hx.
Qed.
Lemma lint_markdown_spec front markdown : lint_markdown front markdown = [] <-> ~ bare_mention markdown.
Proof.
  unfold lint_markdown. destruct (has_char "@" markdown) eqn:A.
  - rewrite mention_errors_spec, file_lines_mention. split.
    + intros H (l & Hl & B). exact (H l Hl B).
    + intros H l Hl B. apply H. exists l. split; assumption.
  - split; [intros _; apply no_at_no_mention; exact A|reflexivity].
Qed.
(** Every message is about a line of the text, with its position. *)
Lemma mention_errors_in lines : forall n e, In e (mention_errors n lines) ->
  exists i l u, nth_error lines i = Some l /\ mentions_user l u /\ e = mention_error u (n + i).
Proof.
  induction lines as [|l r IH]; intros n e H; [destruct H|]. cbn [mention_errors] in H.
  assert (Q : In e (mention_errors (S n) r) -> exists i l0 u, nth_error (l :: r) i = Some l0 /\ mentions_user l0 u /\ e = mention_error u (n + i)).
  { intros X. destruct (IH _ _ X) as (i & x & u & A & B & ->). exists (S i), x, u. split; [exact A|]. split; [exact B|].
    f_equal. lia. }
  destruct (line_user l) as [u|] eqn:E; [|exact (Q H)].
  destruct H as [<-|H]; [|exact (Q H)]. exists 0%nat, l, u. split; [reflexivity|]. split; [apply line_user_sound; exact E|].
  f_equal. lia.
Qed.
(** Each offending line has a message. *)
Lemma mention_errors_each lines : forall n i l, nth_error lines i = Some l -> bare_mention l ->
  exists u, mentions_user l u /\ In (mention_error u (n + i)) (mention_errors n lines).
Proof.
  induction lines as [|x r IH]; intros n i l H B; [destruct i; discriminate|]. cbn [mention_errors]. destruct i as [|i].
  - injection H; intros ->. apply line_user_iff in B as [u B]. rewrite B. exists u. split; [apply line_user_sound; exact B|].
    left. f_equal. lia.
  - destruct (IH (S n) i l H B) as (u & U & I). exists u. split; [exact U|].
    replace (n + S i)%nat with (S n + i)%nat by lia. destruct (line_user x); [right|]; exact I.
Qed.
