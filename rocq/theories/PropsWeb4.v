(** C76 (continued): the texts on the pages and the names of keyword pages. *)
From Coq Require Import List NArith ZArith Ascii String Bool Lia.
From Verif Require Import Base StrLib IdModel DbModel AdvModel WebModel WebSpec.
Import ListNotations.
Local Open Scope string_scope.

Theorem C76_titles : forall a t, titled a t <-> t = title_type a.
Proof.
  assert (Mal : forall cs, existsb (fun c => match c with Malicious => true | _ => false end) cs = true <-> In Malicious cs).
  { intros cs. rewrite existsb_exists. split; [intros (c & I & E); destruct c; try discriminate; exact I|intros I; exists Malicious; auto]. }
  intros a t. unfold title_type. split.
  - intros []; rewrite H; try reflexivity.
    + now rewrite (proj2 (Mal _) H0).
    + destruct (existsb _ _) eqn:E; [apply Mal in E; contradiction|reflexivity].
  - intros ->. destruct (m_informational (f_meta a)) as [[]|] eqn:E; try (econstructor; assumption).
    destruct (existsb _ _) eqn:X.
    + apply t_malicious; [exact E|now apply Mal].
    + apply t_vulnerability; [exact E|]. intros K. apply Mal in K. rewrite K in X. discriminate.
Qed.
Print Assumptions C76_titles.

Lemma continuation_gone r s : continuation r -> safe_keyword (r ++ s) = safe_keyword s.
Proof.
  induction r as [|c r IH]; [reflexivity|]. cbn [continuation String.append safe_keyword]. intros [[A B] C].
  apply N.leb_le in A. apply N.ltb_lt in B. rewrite A, B. cbn [andb]. auto.
Qed.
Lemma plain_iff c : (is_alnum c || Ascii.eqb c "-" || Ascii.eqb c "_")%bool = true <-> In c (list_ascii_of_string plain).
Proof.
  assert (E : forall c, (is_alnum c || Ascii.eqb c "-" || Ascii.eqb c "_")%bool = existsb (Ascii.eqb c) (list_ascii_of_string plain)).
  { intros [[] [] [] [] [] [] [] []]; vm_compute; reflexivity. }
  rewrite E, existsb_exists. split; [intros (x & I & K); apply Ascii.eqb_eq in K; now subst|intros I; exists c; split; [exact I|apply Ascii.eqb_refl]].
Qed.
(** The page of a keyword is named by it, character by character: letters, digits, dashes and underscores stay, each other
    character becomes a dash. *)
Theorem C76_keyword_file_names : forall chars outs, Forall character chars -> Forall2 plain_char chars outs ->
  safe_keyword (String.concat "" chars) = String.concat "" outs.
Proof.
  assert (CC : forall x l, String.concat "" (x :: l) = x ++ String.concat "" l).
  { intros x [|y l]; [cbn; now rewrite sapp_nil_r|reflexivity]. }
  intros chars outs F G. induction G as [|s t ss ts P G IH]; [reflexivity|]. inversion F as [|? ? Cs Fs]; subst. rewrite !CC, <- (IH Fs).
  destruct s as [|c r]; [destruct Cs|]. cbn [String.append safe_keyword].
  destruct Cs as [[A ->]|[A C]].
  - assert (X : (N.leb 128 (N_of_ascii c) && N.ltb (N_of_ascii c) 192)%bool = false) by (apply andb_false_iff; left; apply N.leb_gt; exact A).
    rewrite X. cbn [String.append]. destruct P as [[(c' & E & I) ->]|[N ->]].
    + injection E as <-. apply plain_iff in I. now rewrite I.
    + destruct (is_alnum c || _ || _)%bool eqn:K; [|reflexivity]. apply plain_iff in K. elim N. eauto.
  - assert (X : (N.leb 128 (N_of_ascii c) && N.ltb (N_of_ascii c) 192)%bool = false) by (apply andb_false_iff; right; apply N.ltb_ge; exact A).
    rewrite X, continuation_gone by exact C.
    assert (K : (is_alnum c || Ascii.eqb c "-" || Ascii.eqb c "_")%bool = false).
    { destruct (is_alnum c || _ || _)%bool eqn:K; [|reflexivity]. exfalso. apply plain_iff in K.
      assert (L : forallb (fun x => N.ltb (N_of_ascii x) 128) (list_ascii_of_string plain) = true) by (vm_compute; reflexivity).
      rewrite forallb_forall in L. specialize (L c K). apply N.ltb_lt in L. lia. }
    rewrite K. destruct P as [[(c' & E & I) _]|[_ ->]]; [|reflexivity].
    injection E as <- _. apply plain_iff in I. congruence.
Qed.
Print Assumptions C76_keyword_file_names.
Example C76_keyword_example : safe_keyword "c++/ü_1" = "c----_1" /\
  Forall character ["c"; "+"; "+"; "/"; "ü"; "_"; "1"] /\ Forall2 plain_char ["c"; "+"; "+"; "/"; "ü"; "_"; "1"] ["c"; "-"; "-"; "-"; "-"; "_"; "1"].
Proof.
  assert (D : forall s, (exists c, s = String c "" /\ In c (list_ascii_of_string plain)) \/ ~ (exists c, s = String c "" /\ In c (list_ascii_of_string plain))).
  { intros [|c [|d r]]; [right; intros (c & E & _); discriminate| |right; intros (e & E & _); discriminate].
    destruct (in_dec ascii_dec c (list_ascii_of_string plain)) as [I|I]; [left; eauto|right]. intros (e & E & K). injection E as <-. contradiction. }
  split; [vm_compute; reflexivity|]. split; [repeat constructor; vm_compute; intuition (discriminate || reflexivity)|].
  assert (Y : forall c, existsb (Ascii.eqb c) (list_ascii_of_string plain) = true -> plain_char (String c "") (String c "")).
  { intros c E. left. split; [|reflexivity]. exists c. split; [reflexivity|]. apply existsb_exists in E as (x & I & K). apply Ascii.eqb_eq in K. now subst. }
  assert (N : forall s, match s with String c "" => existsb (Ascii.eqb c) (list_ascii_of_string plain) = false | _ => True end -> plain_char s "-").
  { intros s H. right. split; [|reflexivity]. intros (c & -> & I). assert (K : existsb (Ascii.eqb c) (list_ascii_of_string plain) = true) by (apply existsb_exists; exists c; split; [exact I|apply Ascii.eqb_refl]). congruence. }
  repeat (apply Forall2_cons; [solve [apply Y; vm_compute; reflexivity|apply N; vm_compute; auto]|]). apply Forall2_nil.
Qed.
