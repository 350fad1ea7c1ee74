(** Property C30, continued: the keys of the checksums that format 1 keeps apart from the packages. *)
From Coq Require Import List NArith Ascii String Bool Lia Arith.
From Verif Require Import Base SemverModel StrLib PkgModel UrlModel UrlSpec UrlProofs LockModel LockSpec LockProofs VerText PropsWords.
Import ListNotations.
Local Open Scope string_scope.
Local Infix "++" := String.append (right associativity, at level 60).

Lemma gap_app a b : gap (a ++ b) <-> gap a /\ gap b.
Proof. unfold gap. induction a as [|x a IH]; cbn [String.append all_of]; tauto. Qed.
Lemma closed_ends y : forall u g, y ++ g = u ++ ")" -> gap g -> g = "".
Proof.
  induction y as [|a y IH]; intros u g E G; cbn [String.append] in E.
  - subst g. apply gap_app in G as [_ [H _]]. cbn in H. decompose [or] H; try discriminate; contradiction.
  - destruct u as [|b u]; cbn [String.append] in E; injection E as _ E; [destruct y, g; try discriminate; reflexivity|exact (IH u g E G)].
Qed.
Lemma one_word u x : words ("(" ++ u ++ ")") = [x] <-> x = "(" ++ u ++ ")" /\ all_of (fun a => ~ In a blanks) u.
Proof.
  split.
  - intros W. apply C31_words in W. assert (H : exists b b', gap b /\ word x /\ gap b' /\ "(" ++ u ++ ")" = b ++ x ++ b').
    { remember ("(" ++ u ++ ")") as z eqn:Z. clear Z. remember [x] as l eqn:L. destruct W as [b G|b w b' G Wx G'|b w a s l G Wx I D]; [discriminate|injection L as ->|injection L as -> L].
      - exists b, b'. auto.
      - destruct D as [c Gs|c y c' G1 W1 G2|c y a' s l G1 W1 I1 D]; [|discriminate L|discriminate L]. exists b, (String a c).
        split; [exact G|]. split; [exact Wx|]. split; [split; assumption|reflexivity]. }
    destruct H as (b & b' & G & Wx & G' & E). destruct b as [|c b].
    + cbn [String.append] in E. assert (b' = "") as ->.
      { apply (closed_ends x (String "(" u)); [symmetry; exact E|exact G']. }
      rewrite sapp_nil_r in E. split; [symmetry; exact E|]. subst x. destruct Wx as [_ Wx]. cbn [String.append all_of] in Wx. destruct Wx as [_ Wx].
      apply word_nonblank in Wx. rewrite str_forall_app in Wx. apply andb_prop in Wx as [Wx _]. apply word_nonblank. exact Wx.
    + exfalso. cbn [String.append] in E. injection E as <- _. destruct G as [H _]. cbn in H. decompose [or] H; try discriminate; contradiction.
  - intros [-> H]. apply words_last; [discriminate|]. cbn [String.append str_forall]. rewrite str_forall_app. cbn [str_forall].
    rewrite (proj1 (word_nonblank u) H). reflexivity.
Qed.

Lemma first_blank a : forall b s t, str_forall nonblank a = true -> str_forall nonblank b = true -> a ++ " " ++ s = b ++ " " ++ t -> a = b /\ s = t.
Proof.
  induction a as [|x a IH]; intros [|y b] s t Ha Hb E; cbn [String.append] in E.
  - injection E as E. auto.
  - injection E as <- _. discriminate Hb.
  - injection E as -> _. discriminate Ha.
  - injection E as <- E. cbn [str_forall] in Ha, Hb. apply andb_prop in Ha as [_ Ha]. apply andb_prop in Hb as [_ Hb].
    destruct (IH b s t Ha Hb E) as [-> ->]. auto.
Qed.

(** *** What a key is read as: the word "checksum", a blank, a name, a version, and possibly a source in parentheses. *)
Theorem C30_checksum_keys : forall norm k d, checksum_dependency norm k = Ok d <->
  exists t n w v, k = "checksum " ++ t /\ parse_version w = Some v /\ d_name d = n /\ d_version d = v /\
    ((divided t [n; w] /\ d_source d = None) \/
     (exists u s, divided t [n; w; "(" ++ u ++ ")"] /\ from_url norm u = Ok s /\ d_source d = Some s)).
Proof.
  intros norm k d. unfold checksum_dependency. split.
  - destruct (strip_prefix CHECKSUM_PREFIX k) as [t|] eqn:S; [|discriminate]. apply strip_prefix_spec in S as ->.
    destruct (enc_dep_from_str norm t) as [e| |] eqn:E; try discriminate. cbn [obind]. intros H.
    apply C31_reference_texts in E as [(n & D & ->)|[(n & w & v & D & V & ->)|(n & w & v & u & s & D & V & U & ->)]]; cbn in H; [discriminate| |];
      injection H as <-; exists t, n, w, v; (split; [reflexivity|]); (split; [exact V|]); (split; [reflexivity|]); (split; [reflexivity|]).
    + left. auto.
    + right. exists u, s. auto.
  - intros (t & n & w & v & -> & V & N & Ev & H). destruct d as [n' v' s']. cbn [d_name d_version d_source] in *. subst n' v'.
    rewrite strip_prefix_app. destruct H as [[D ->]|(u & s & D & U & ->)].
    + assert (enc_dep_from_str norm t = Ok (mkED n (Some v) None)) as -> by (apply C31_reference_texts; right; left; exists n, w, v; auto). reflexivity.
    + assert (enc_dep_from_str norm t = Ok (mkED n (Some v) (Some (mkES s false)))) as -> by (apply C31_reference_texts; right; right; exists n, w, v, u, s; auto). reflexivity.
Qed.

(** *** Anything else is an error, never a crash. *)
Theorem C30_other_keys_are_errors : forall norm k, (forall d, checksum_dependency norm k <> Ok d) -> checksum_dependency norm k = Err.
Proof.
  intros norm k H. unfold checksum_dependency in *. destruct (strip_prefix CHECKSUM_PREFIX k) as [t|]; [|reflexivity].
  assert (P : forall u, from_url norm u <> Panic).
  { intros u. unfold from_url. destruct (split_once "+" u) as [[a b]|]; [|discriminate].
    repeat match goal with |- context [if ?c then _ else _] => destruct c end; try discriminate; destruct (url_parse norm b); discriminate. }
  destruct (enc_dep_from_str norm t) as [e| |] eqn:E; cbn [obind] in *; [|reflexivity|exfalso].
  - destruct e as [n [v|] s]; cbn in *; [exfalso; exact (H _ eq_refl)|reflexivity].
  - unfold enc_dep_from_str in E. destruct (words t) as [|n [|w r]]; try discriminate. destruct (parse_version w); try discriminate. cbn [of_option obind] in E.
    destruct r as [|q r]; [discriminate|]. unfold parse_paren_source in E.
    destruct (_ || _ || _)%bool; [discriminate|]. specialize (P (substring 1 (String.length q - 2) q)).
    destruct (from_url norm (substring 1 (String.length q - 2) q)); try contradiction; cbn [obind] in E; [destruct r|]; discriminate.
Qed.

(** A name as Cargo allows (and more): not empty, without blanks. *)
Definition one_word_name (n : string) : Prop := word n.
(** *** What the key written for a dependency is read as: name and version always survive; the source survives as far as the text
    it is shown as contains no blank and is read at all. *)
Theorem C30_key_read_back : forall norm d e, one_word_name (d_name d) -> version_wf (d_version d) = true ->
  (checksum_dependency norm ("checksum " ++ dep_string d) = Ok e <->
   d_name e = d_name d /\ d_version e = d_version d /\
   match d_source d with
   | None => d_source e = None
   | Some s => all_of (fun a => ~ In a blanks) (as_url false s) /\ exists s', from_url norm (as_url false s) = Ok s' /\ d_source e = Some s'
   end).
Proof.
  intros norm [n v s] [n' v' s'] [Nn Nw] Hv. cbn [d_name d_version d_source] in *. apply word_nonblank in Nw.
  unfold checksum_dependency. change "checksum " with CHECKSUM_PREFIX. rewrite strip_prefix_app. unfold dep_string. cbn [d_name d_version d_source].
  pose proof (parse_print_version v Hv) as PV. pose proof (print_version_nonempty v) as PN. pose proof (version_nonblank v Hv) as PB.
  unfold enc_dep_from_str. rewrite words_word by assumption. destruct s as [s|].
  - change (" (" ++ as_url false s ++ ")") with (" " ++ "(" ++ as_url false s ++ ")"). rewrite words_word by assumption. rewrite PV. cbn [of_option obind].
    pose proof (one_word (as_url false s)) as OW. destruct (words ("(" ++ as_url false s ++ ")")) as [|q rest] eqn:W.
    + split; [intros H; exfalso|intros (_ & _ & B & _); exfalso].
      * apply C31_words in W. inversion W as [b G E| |]. subst b. destruct G as [J _]. cbn in J. decompose [or] J; try discriminate; contradiction.
      * specialize (OW ("(" ++ as_url false s ++ ")")). destruct OW as [_ OW]. specialize (OW (conj eq_refl B)). discriminate.
    + destruct rest as [|r rest].
      * destruct (OW q) as [OW1 _]. destruct (OW1 eq_refl) as [-> B]. rewrite parse_paren. destruct (from_url norm (as_url false s)) as [x| |] eqn:F; cbn [obind].
        -- cbn. split; [intros H; injection H as <- <- <-; eauto 6|intros (-> & -> & _ & y & H & ->); injection H as <-; reflexivity].
        -- split; [discriminate|intros (_ & _ & _ & y & H & _); discriminate].
        -- split; [discriminate|intros (_ & _ & _ & y & H & _); discriminate].
      * split; [intros H; exfalso|intros (_ & _ & B & _); exfalso].
        -- destruct (parse_paren_source norm q); cbn [obind] in H; discriminate.
        -- specialize (OW ("(" ++ as_url false s ++ ")")). destruct OW as [_ OW]. specialize (OW (conj eq_refl B)). discriminate.
  - rewrite sapp_nil_r, words_last by assumption. rewrite PV. cbn. split; [intros H; injection H as <- <- <-; auto|intros (-> & -> & ->); reflexivity].
Qed.
(** *** Different packages never share a key: it tells the name, the version and the text of the source. *)
Theorem C30_keys_distinct : forall d e, one_word_name (d_name d) -> one_word_name (d_name e) -> version_wf (d_version d) = true -> version_wf (d_version e) = true ->
  ("checksum " ++ dep_string d = "checksum " ++ dep_string e <->
   d_name d = d_name e /\ d_version d = d_version e /\ option_map (as_url false) (d_source d) = option_map (as_url false) (d_source e)).
Proof.
  intros [n v s] [m w t] [Nn Nw] [Mn Mw] Hv Hw. cbn [d_name d_version d_source] in *. apply word_nonblank in Nw, Mw. split.
  - intros H. apply (sapp_inj_l "checksum ") in H. unfold dep_string in H. cbn [d_name d_version d_source] in H.
    apply first_blank in H as [-> H]; [|assumption..]. split; [reflexivity|].
    assert (K : forall x o, (print_version x ++ match o with Some s => " (" ++ as_url false s ++ ")" | None => "" end) ++ " " =
                            print_version x ++ " " ++ match o with Some s => "(" ++ as_url false s ++ ") " | None => "" end).
    { intros x [o|]; rewrite sapp_assoc; [|reflexivity]. f_equal. cbn [String.append]. rewrite sapp_assoc. reflexivity. }
    pose proof (f_equal (fun z => z ++ " ") H) as H'. cbv beta in H'. rewrite !K in H'.
    apply first_blank in H' as [E F]; [|apply version_nonblank; assumption..].
    split. { pose proof (parse_print_version v Hv) as P1. pose proof (parse_print_version w Hw) as P2. rewrite E in P1. congruence. }
    destruct s as [s|], t as [t|]; try discriminate; [|reflexivity]. cbn [String.append] in F. injection F as F. apply sapp_inj_r in F. cbn [option_map]. rewrite F. reflexivity.
  - intros (-> & -> & E). unfold dep_string. cbn [d_name d_version d_source]. destruct s as [s|], t as [t|]; cbn [option_map] in E; try discriminate; [|reflexivity].
    injection E as ->. reflexivity.
Qed.
(** *** Refuted: that the key of a package always names its source.  A tag with a blank (git refuses those, the library does not)
    is written as it is, so the key is not read at all; the entry is then nobody's checksum. *)
Definition spaced_tag : dependency := mkDep "foo" (mkVersion 1 0 0 [] []) (Some (mkSource "https://x.test/r" (SGit (GTag "a b")) None None)).
Theorem C30_key_of_blank_tag_refuted : forall norm, ~ exists e, checksum_dependency norm ("checksum " ++ dep_string spaced_tag) = Ok e.
Proof.
  intros norm [e H]. apply C30_key_read_back in H; [|split; [discriminate|apply word_nonblank; reflexivity]|reflexivity].
  destruct H as (_ & _ & B & _). apply word_nonblank in B. discriminate B.
Qed.
Definition registry_dep : dependency := mkDep "foo" (mkVersion 1 0 0 [] []) (Some (mkSource "https://x.test/r" SRegistry None None)).
Example C30_keys_nonvacuous :
  "checksum " ++ dep_string registry_dep = "checksum foo 1.0.0 (registry+https://x.test/r)" /\
  checksum_dependency Some ("checksum foo 1.0.0 (registry+https://x.test/r)") =
    Ok (mkDep "foo" (mkVersion 1 0 0 [] []) (Some (mkSource "https://x.test/r" SRegistry (Some "locked") None))) /\
  checksum_dependency Some "checksum foo" = Err /\ checksum_dependency Some "foo 1.0.0" = Err /\
  "checksum " ++ dep_string spaced_tag = "checksum foo 1.0.0 (git+https://x.test/r?tag=a b)".
Proof. repeat apply conj; vm_compute; reflexivity. Qed.
Print Assumptions C30_checksum_keys. Print Assumptions C30_other_keys_are_errors. Print Assumptions C30_key_read_back. Print Assumptions C30_keys_distinct. Print Assumptions C30_key_of_blank_tag_refuted.
