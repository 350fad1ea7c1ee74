(** Property C31, continued: how the text of a reference is divided into words. *)
From Coq Require Import List NArith Ascii String Bool Lia Arith.
From Verif Require Import Base SemverModel StrLib PkgModel UrlModel UrlProofs LockModel LockSpec LockProofs VerText.
Import ListNotations.
Local Open Scope string_scope.
Local Infix "++" := String.append (right associativity, at level 60).

(** Blank, tab, line feed, vertical tab, form feed, carriage return. *)
Definition blanks : list ascii := [" "; "009"; "010"; "011"; "012"; "013"]%char.
Fixpoint all_of (P : ascii -> Prop) (s : string) : Prop := match s with EmptyString => True | String a r => P a /\ all_of P r end.
Definition gap (s : string) : Prop := all_of (fun a => In a blanks) s.
Definition word (s : string) : Prop := s <> "" /\ all_of (fun a => ~ In a blanks) s.
(** The words of a text: whatever lies between gaps. *)
Inductive divided : string -> list string -> Prop :=
  | no_word b : gap b -> divided b []
  | last_word b w b' : gap b -> word w -> gap b' -> divided (b ++ w ++ b') [w]
  | one_more b w a s l : gap b -> word w -> In a blanks -> divided s l -> divided (b ++ w ++ String a s) (w :: l).

Lemma blank_iff a : is_blank a = true <-> In a blanks.
Proof.
  split; [|intros I; cbn in I; repeat (destruct I as [<-|I]; [reflexivity|]); destruct I]. intros H.
  assert (E : existsb (Ascii.eqb a) blanks = true) by (revert a H; apply ascii_imp; reflexivity).
  apply existsb_exists in E as (x & I & E). apply Ascii.eqb_eq in E. subst x. exact I.
Qed.
Lemma nonblank_iff a : nonblank a = true <-> ~ In a blanks.
Proof. unfold nonblank. rewrite negb_true_iff, <- blank_iff. destruct (is_blank a); split; congruence. Qed.
Lemma word_nonblank w : all_of (fun a => ~ In a blanks) w <-> str_forall nonblank w = true.
Proof. induction w as [|a w IH]; cbn [all_of str_forall]; [tauto|]. rewrite andb_true_iff, <- IH, nonblank_iff. tauto. Qed.
Lemma words_gap b s : gap b -> words (b ++ s) = words s.
Proof.
  induction b as [|a b IH]; intros G; [reflexivity|]. destruct G as [I G]. cbn [String.append]. unfold words in *. cbn [words_aux].
  rewrite (proj2 (blank_iff a) I). exact (IH G).
Qed.
Lemma words_more w a s : word w -> In a blanks -> words (w ++ String a s) = w :: words s.
Proof.
  intros [N W] I. unfold words at 1. rewrite words_aux_app by (apply word_nonblank; exact W). cbn [words_aux]. rewrite (proj2 (blank_iff a) I), sapp_nil_r.
  destruct (String.eqb_spec (srev w) "") as [E|_]; [exfalso; exact (srev_nonempty w N E)|]. rewrite srev_involutive. reflexivity.
Qed.
Lemma words_complete s l : divided s l -> words s = l.
Proof.
  induction 1 as [b G|b w b' G W G'|b w a s l G W I D IH].
  - rewrite <- (sapp_nil_r b), words_gap by exact G. reflexivity.
  - rewrite words_gap by exact G. destruct b' as [|a b'].
    + rewrite sapp_nil_r. apply words_last; [apply W|apply word_nonblank, W].
    + destruct G' as [I G']. rewrite words_more by assumption. rewrite <- (sapp_nil_r b'), words_gap by exact G'. reflexivity.
  - rewrite words_gap by exact G. rewrite words_more by assumption. rewrite IH. reflexivity.
Qed.
Lemma divided_total s : exists l, divided s l.
Proof.
  induction s as [|a r [l D]]; [exists []; constructor; exact Logic.I|]. destruct (is_blank a) eqn:B.
  - apply blank_iff in B. exists l. destruct D as [b G|b w b' G W G'|b w c s l G W J D].
    + constructor. split; assumption.
    + apply (last_word (String a b)); [split; assumption|exact W|exact G'].
    + apply (one_more (String a b)); [split; assumption|exact W|exact J|exact D].
  - assert (N : ~ In a blanks) by (rewrite <- blank_iff, B; discriminate).
    assert (W1 : word (String a "")) by (split; [discriminate|split; [exact N|exact Logic.I]]).
    assert (Wc : forall w, word w -> word (String a w)) by (intros w [_ W]; split; [discriminate|split; assumption]).
    destruct D as [b G|b w b' G W G'|b w c s l G W J D].
    + exists [String a ""]. apply (last_word "" (String a "") b); [exact Logic.I|exact W1|exact G].
    + destruct b as [|c b].
      * exists [String a w]. apply (last_word "" (String a w) b'); [exact Logic.I|apply Wc, W|exact G'].
      * destruct G as [J G]. exists [String a ""; w]. apply (one_more "" (String a "") c (b ++ w ++ b')); [exact Logic.I|exact W1|exact J|]. apply last_word; assumption.
    + destruct b as [|c' b].
      * exists (String a w :: l). apply (one_more "" (String a w) c s); [exact Logic.I|apply Wc, W|exact J|exact D].
      * destruct G as [J' G]. exists (String a "" :: w :: l). apply (one_more "" (String a "") c' (b ++ w ++ String c s)); [exact Logic.I|exact W1|exact J'|].
        apply one_more; assumption.
Qed.
(** *** C31: a text is divided into words in exactly one way, and that is the way references are read. *)
Theorem C31_words : forall s l, words s = l <-> divided s l.
Proof.
  intros s l. split; [|apply words_complete]. intros <-. destruct (divided_total s) as [l D]. rewrite (words_complete s l D). exact D.
Qed.
(** *** C31: the accepted references, as texts: a name, possibly a version, possibly a source in parentheses, with any gaps. *)
Theorem C31_reference_texts : forall norm s d, enc_dep_from_str norm s = Ok d <->
  (exists n, divided s [n] /\ d = mkED n None None) \/
  (exists n w v, divided s [n; w] /\ parse_version w = Some v /\ d = mkED n (Some v) None) \/
  (exists n w v u src, divided s [n; w; "(" ++ u ++ ")"] /\ parse_version w = Some v /\ from_url norm u = Ok src /\ d = mkED n (Some v) (Some (mkES src false))).
Proof.
  intros norm s d. unfold enc_dep_from_str. split.
  - destruct (words s) as [|n [|w rest]] eqn:W; [discriminate| |].
    + intros H. injection H as <-. left. exists n. split; [apply C31_words, W|reflexivity].
    + destruct (parse_version w) as [v|] eqn:V; [|discriminate]. cbn [of_option obind]. destruct rest as [|q rest].
      * intros H. injection H as <-. right. left. exists n, w, v. split; [apply C31_words, W|]. auto.
      * destruct (parse_paren_source norm q) as [src| |] eqn:P; try discriminate. cbn [obind]. destruct rest; [|discriminate]. intros H. injection H as <-.
        right. right. unfold parse_paren_source in P. destruct (Nat.ltb_spec (String.length q) 2) as [|Lq]; [discriminate|]. cbn [orb] in P.
        destruct (starts_with "(" q) eqn:S1; [|discriminate]. cbn [negb orb] in P. destruct (ends_with ")" q) eqn:S2; [|discriminate]. cbn [negb] in P.
        apply starts_with_spec in S1 as [t ->]. cbn [String.append] in *.
        assert (E : exists u, t = u ++ ")").
        { unfold ends_with in S2. destruct (strip_suffix ")" (String "(" t)) as [x|] eqn:X; [|discriminate]. apply strip_suffix_spec in X.
          destruct x as [|c x]; cbn [String.append] in X; [discriminate X|]. injection X as _ ->. exists x. reflexivity. }
        destruct E as [u ->]. exists n, w, v, u, src. split; [apply C31_words, W|]. split; [exact V|]. split; [|reflexivity].
        rewrite <- P. cbn [String.length]. rewrite slength_app. cbn [String.length]. replace (S (String.length u + 1) - 2)%nat with (String.length u) by lia.
        cbn [substring]. rewrite substring_app_l. reflexivity.
  - intros [(n & D & ->)|[(n & w & v & D & V & ->)|(n & w & v & u & src & D & V & U & ->)]]; apply C31_words in D; rewrite D; [reflexivity| |];
      rewrite V; cbn [of_option obind]; [reflexivity|]. rewrite parse_paren, U. reflexivity.
Qed.
Example C31_words_nonvacuous : divided (String "009" "foo" ++ String "010" " 1.0.0 ") ["foo"; "1.0.0"].
Proof. apply C31_words. reflexivity. Qed.
Print Assumptions C31_words.
Print Assumptions C31_reference_texts.
