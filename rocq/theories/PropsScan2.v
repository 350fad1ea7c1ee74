(** C65: crates and versions recovered from panic messages. *)
From Coq Require Import List NArith Ascii String Bool Arith Lia.
From Verif Require Import Base StrLib SemverModel SemverFacts VerText IdModel IdSpec IdProofs PkgModel DbModel PropsDb UrlModel LockModel AuditModel ScanModel
  PropsId PropsScan.
Import ListNotations.
Local Open Scope string_scope.
Local Infix "++" := String.append (right associativity, at level 60).

(** ** Specification *)
Definition separator (sep : ascii) : Prop := sep = "/"%char \/ sep = ascii_of_N 92.
(** A crate name as crates.io accepts them. *)
Definition crate_name (c : string) : Prop :=
  c <> "" /\ forall b x y, c = x ++ String b y -> one_of (LETTERS ++ DIGITS ++ "_-") b.
(** The directory of a registry. *)
Definition registry_dir (sep : ascii) (x : string) : Prop := x <> "" /\ has_char sep x = false.
(** Where cargo unpacks a crate, as compiled into panic messages. *)
Definition source_path (sep : ascii) (x c : string) (v : version) : string :=
  "cargo" ++ String sep ("registry" ++ String sep ("src" ++ String sep (x ++ String sep (c ++ String "-" (print_version v ++ String sep ""))))).
(** The text after the last separator. *)
Definition last_segment (sep : ascii) (s l : string) : Prop :=
  (s = l \/ exists p, s = p ++ String sep l) /\ has_char sep l = false.

(** ** Lemmas *)
Lemma crate_char_spec a : crate_char a = has_char a (LETTERS ++ DIGITS ++ "_-").
Proof. apply eqb_prop. revert a. apply ascii_all. vm_compute. reflexivity. Qed.
Lemma crate_name_iff c : crate_name c <-> negb (String.eqb c "") && str_forall crate_char c = true.
Proof.
  unfold crate_name. rewrite andb_true_iff, negb_true_iff, String.eqb_neq, str_forall_iff. split; intros [H1 H2]; split; try assumption.
  - intros b x y E. rewrite crate_char_spec. exact (H2 _ _ _ E).
  - intros b x y E. unfold one_of. rewrite <- crate_char_spec. exact (H2 _ _ _ E).
Qed.
Lemma version_char_tail a : version_char a = version_tail_char a.
Proof. apply eqb_prop. revert a. apply ascii_all. vm_compute. reflexivity. Qed.
Lemma is_dig_range a : is_dig a = in_range 48 57 a.
Proof. apply eqb_prop. revert a. apply ascii_all. vm_compute. reflexivity. Qed.
Lemma span_digits_spec s : s = fst (span_digits s) ++ snd (span_digits s).
Proof.
  induction s as [|a s IH]; [reflexivity|]. cbn [span_digits]. destruct (in_range 48 57 a); [|reflexivity].
  destruct (span_digits s) as [x y]. cbn in *. congruence.
Qed.
Lemma span_digits_first a s : in_range 48 57 a = true -> fst (span_digits (String a s)) <> "".
Proof. intros H. cbn [span_digits]. rewrite H. destruct (span_digits s). discriminate. Qed.
Lemma print_dec_digits n : is_digits (print_dec n) = true.
Proof.
  destruct (print_dec_is_digits n) as [H1 H2]. unfold is_digits. rewrite andb_true_iff, negb_true_iff, String.eqb_neq. split; [exact H1|].
  eapply str_forall_imp; [|exact H2]. intros a. rewrite is_dig_range. tauto.
Qed.
Lemma print_version_split v : exists tail, print_version v = print_dec (major v) ++ String "." (print_dec (minor v) ++ String "." (print_dec (patch v) ++ tail)).
Proof. unfold print_version. eexists. cbn. reflexivity. Qed.
Lemma print_version_shape v : version_wf v = true -> version_shape (print_version v) = true.
Proof.
  intros W. destruct (print_version_split v) as [tail E]. pose proof (print_version_chars v W) as C. unfold version_shape.
  rewrite E in *. rewrite split_once_app by (apply digits_no; reflexivity). rewrite split_once_app by (apply digits_no; reflexivity).
  rewrite !print_dec_digits. cbn [andb].
  destruct (span_digits (print_dec (patch v) ++ tail)) as [pa t] eqn:S.
  pose proof (span_digits_spec (print_dec (patch v) ++ tail)) as P. rewrite S in P. cbn [fst snd] in P.
  rewrite andb_true_iff, negb_true_iff, String.eqb_neq. split.
  - destruct (print_dec_is_digits (patch v)) as [H1 H2]. destruct (print_dec (patch v)) as [|a r]; [congruence|].
    cbn in H2. apply andb_true_iff in H2 as [H2 _]. rewrite is_dig_range in H2.
    pose proof (span_digits_first a (r ++ tail) H2) as X. change (String a r ++ tail) with (String a (r ++ tail)) in S. rewrite S in X. exact X.
  - do 2 (rewrite str_forall_app in C; apply andb_true_iff in C as [_ C]; cbn [str_forall] in C; apply andb_true_iff in C as [_ C]).
    rewrite P, str_forall_app in C. apply andb_true_iff in C as [_ C].
    eapply str_forall_imp; [|exact C]. intros a. rewrite version_char_tail. tauto.
Qed.
Lemma crate_no_dot c : crate_name c -> has_char "." c = false.
Proof.
  intros [_ H]. destruct (has_char "." c) eqn:E; [|reflexivity]. exfalso.
  destruct (split_once "." c) as [[x y]|] eqn:S; [|apply split_once_none in S; congruence].
  apply split_once_spec in S as [S _]. specialize (H _ _ _ S). discriminate.
Qed.
Lemma no_sep_class sep (P : ascii -> bool) s : P sep = false -> str_forall P s = true -> has_char sep s = false.
Proof.
  intros H. induction s as [|a s IH]; [reflexivity|]. cbn. rewrite andb_true_iff. intros [H1 H2].
  destruct (Ascii.eqb_spec a sep) as [->|N]; [congruence|]. cbn. auto.
Qed.
Lemma separator_classes sep : separator sep -> crate_char sep = false /\ version_tail_char sep = false.
Proof. intros [->| ->]; split; reflexivity. Qed.
Lemma split_crate_iff seg c v : split_crate seg = Some (c, v) <->
  seg = c ++ String "-" v /\ crate_name c /\ version_shape v = true.
Proof.
  unfold split_crate, rsplit_once. split.
  - destruct (split_once "." seg) as [[before after]|] eqn:S1; [|discriminate].
    destruct (split_once "-" (srev before)) as [[b a]|] eqn:S2; [|discriminate].
    destruct (negb (String.eqb (srev a) "") && str_forall crate_char (srev a)) eqn:Cn; cbn [andb]; [|discriminate].
    destruct (version_shape (srev b ++ String "." after)) eqn:V; [|discriminate].
    intros [= <- <-]. apply split_once_spec in S1 as [-> D1]. apply split_once_spec in S2 as [S2 D2].
    split; [|split; [apply crate_name_iff; exact Cn|exact V]].
    rewrite <- (srev_involutive before), S2, srev_sapp, srev_cons, !sapp_assoc. reflexivity.
  - intros (-> & C & V). pose proof V as V0. unfold version_shape in V.
    destruct (split_once "." v) as [[ma r]|] eqn:S; [|discriminate]. apply split_once_spec in S as [-> D].
    assert (M : has_char "-" ma = false).
    { destruct (split_once "." r) as [[mi r2]|]; [|discriminate]. apply andb_true_iff in V as [V _]. apply andb_true_iff in V as [V _].
      unfold is_digits in V. apply andb_true_iff in V as [_ V]. eapply no_sep_class; [|exact V]. reflexivity. }
    assert (X : split_once "." (c ++ String "-" (ma ++ String "." r)) = Some (c ++ String "-" ma, r)).
    { apply split_once_spec. split; [rewrite !sapp_assoc; reflexivity|]. rewrite has_char_app, (crate_no_dot c C). cbn. exact D. }
    rewrite X.
    assert (Y : split_once "-" (srev (c ++ String "-" ma)) = Some (srev ma, srev c)).
    { apply split_once_spec. rewrite srev_sapp, srev_cons, sapp_assoc. split; [reflexivity|]. rewrite has_char_srev. exact M. }
    rewrite Y, !srev_involutive. apply crate_name_iff in C. rewrite C, V0. reflexivity.
Qed.
Lemma match_here_iff sep s c v rest : separator sep -> match_here sep s = Some (c, v, rest) <->
  exists x, s = registry_prefix sep ++ x ++ String sep ((c ++ String "-" v) ++ String sep rest) /\ registry_dir sep x /\
    crate_name c /\ version_shape v = true /\ has_char sep (c ++ String "-" v) = false.
Proof.
  intros Sep. unfold match_here, seg_until. split.
  - destruct (strip_prefix (registry_prefix sep) s) as [r|] eqn:P; [|discriminate]. apply strip_prefix_spec in P as ->.
    destruct (split_once sep r) as [[x r2]|] eqn:S1; [|discriminate]. apply split_once_spec in S1 as [-> D1].
    destruct (String.eqb_spec x "") as [|NE]; [discriminate|].
    destruct (split_once sep r2) as [[seg r3]|] eqn:S2; [|discriminate]. apply split_once_spec in S2 as [-> D2].
    destruct (split_crate seg) as [[c' v']|] eqn:S3; [|discriminate]. intros [= <- <- <-]. apply split_crate_iff in S3 as (-> & C & V).
    exists x. split; [reflexivity|]. repeat split; try assumption; apply C.
  - intros (x & -> & [D1 D2] & C & V & D3). rewrite strip_prefix_app, split_once_app by exact D2.
    destruct (String.eqb_spec x "") as [|NE]; [congruence|]. rewrite split_once_app by exact D3.
    assert (S : split_crate (c ++ String "-" v) = Some (c, v)) by (apply split_crate_iff; auto). rewrite S. reflexivity.
Qed.
Lemma prefix_length sep : String.length (registry_prefix sep) = 19.
Proof. reflexivity. Qed.
Lemma match_shorter sep s c v rest : separator sep -> match_here sep s = Some (c, v, rest) -> String.length rest < String.length s.
Proof. intros Sep H. apply match_here_iff in H as (x & -> & _); [|exact Sep]. rewrite !slength_app. cbn [String.length]. rewrite !slength_app. cbn. lia. Qed.
(** Soundness of the scan. *)
Lemma captures_sound sep f : separator sep -> forall s c v, In (c, v) (captures f sep s) ->
  exists before x rest, s = before ++ registry_prefix sep ++ x ++ String sep ((c ++ String "-" v) ++ String sep rest) /\
    registry_dir sep x /\ crate_name c.
Proof.
  intros Sep. induction f as [|f IH]; intros s c v; cbn [captures]; [intros []|].
  destruct (match_here sep s) as [[[c' v'] rest]|] eqn:M.
  - intros [E|H].
    + injection E as -> ->. apply match_here_iff in M as (x & E & D & C & _); [|exact Sep]. exists "", x, rest. auto.
    + destruct (IH _ _ _ H) as (b & x & r & E & D). apply match_here_iff in M as (x' & E' & _); [|exact Sep].
      exists (registry_prefix sep ++ x' ++ String sep ((c' ++ String "-" v') ++ String sep b)), x, r. split; [|exact D].
      rewrite E', E. repeat (rewrite ?sapp_assoc; cbn [String.append]). reflexivity.
  - destruct s as [|a s]; [intros []|]. intros H. destruct (IH _ _ _ H) as (b & x & r & -> & D). exists (String a b), x, r. auto.
Qed.
(** One segment of two readings of the same text. *)
Lemma peel sep s r before e : has_char sep s = false -> has_char sep "cargo" = false ->
  s ++ String sep r = before ++ "cargo" ++ String sep e ->
  (has_char sep before = false /\ s = before ++ "cargo" /\ r = e) \/
  (exists b, before = s ++ String sep b /\ r = b ++ "cargo" ++ String sep e).
Proof.
  intros H K E. destruct (split_once sep before) as [[b1 b2]|] eqn:S.
  - right. apply split_once_spec in S as [-> Hb]. rewrite sapp_assoc in E. cbn [String.append] in E.
    assert (X : split_once sep (s ++ String sep r) = Some (s, r)) by (apply split_once_app; exact H).
    rewrite E, split_once_app in X by exact Hb. injection X as <- <-. exists b2. auto.
  - left. apply split_once_none in S. split; [exact S|].
    assert (X : split_once sep (s ++ String sep r) = Some (s, r)) by (apply split_once_app; exact H).
    rewrite E, <- sapp_assoc, split_once_app in X by (rewrite has_char_app, S; exact K). injection X as <- <-. auto.
Qed.
Lemma no_dash_no_crate seg : has_char "-" seg = false -> split_crate seg = None.
Proof.
  intros H. destruct (split_crate seg) as [[c v]|] eqn:E; [|reflexivity]. apply split_crate_iff in E as (-> & _).
  rewrite has_char_app in H. cbn in H. rewrite orb_true_r in H. discriminate.
Qed.
Definition no_dash_after (sep : ascii) (before : string) : Prop := forall l, last_segment sep before l -> has_char "-" l = false.
Lemma no_dash_suffix sep a b : no_dash_after sep (String a b) -> no_dash_after sep b.
Proof.
  intros H l [[->|(p & ->)] D].
  - destruct (Ascii.eqb_spec a sep) as [->|N].
    + apply H. split; [right; exists ""; reflexivity|exact D].
    + specialize (H (String a l)). assert (X : has_char "-" (String a l) = false).
      { apply H. split; [left; reflexivity|]. cbn. rewrite (proj2 (Ascii.eqb_neq a sep)) by exact N. exact D. }
      cbn in X. apply orb_false_iff in X. apply X.
  - apply H. split; [right; exists (String a p); reflexivity|exact D].
Qed.
Lemma no_dash_suffix_app sep p b : no_dash_after sep (p ++ b) -> no_dash_after sep b.
Proof. induction p as [|a p IH]; cbn; [tauto|]. intros H. apply IH. eapply no_dash_suffix. exact H. Qed.
Lemma suffix_neq sep before s : separator sep -> s <> "" -> has_char "o" s = false -> before ++ "cargo" <> s.
Proof. intros _ _ H E. rewrite <- E, has_char_app in H. cbn in H. rewrite orb_true_r in H. discriminate. Qed.
Lemma captures_complete sep x c v rest : separator sep -> registry_dir sep x -> crate_name c -> version_wf v = true ->
  forall f before, String.length before < f -> no_dash_after sep before ->
  In (c, print_version v) (captures f sep (before ++ source_path sep x c v ++ rest)).
Proof.
  intros Sep Dx C W.
  assert (KC : has_char sep "cargo" = false) by (destruct Sep as [->| ->]; reflexivity).
  assert (KR : has_char sep "registry" = false) by (destruct Sep as [->| ->]; reflexivity).
  assert (KS : has_char sep "src" = false) by (destruct Sep as [->| ->]; reflexivity).
  assert (KV : has_char sep (c ++ String "-" (print_version v)) = false).
  { rewrite has_char_app. destruct (separator_classes sep Sep) as [S1 S2].
    assert (X : has_char sep c = false) by (apply crate_name_iff in C; apply andb_true_iff in C as [_ C]; exact (no_sep_class _ _ _ S1 C)).
    rewrite X. cbn [orb has_char]. assert (Y : has_char sep (print_version v) = false).
    { eapply no_sep_class; [|apply print_version_chars; exact W]. rewrite version_char_tail. exact S2. }
    rewrite Y, orb_false_r. destruct Sep as [->| ->]; reflexivity. }
  set (E2 := "registry" ++ String sep ("src" ++ String sep (x ++ String sep ((c ++ String "-" (print_version v)) ++ String sep rest)))).
  assert (EE : source_path sep x c v ++ rest = "cargo" ++ String sep E2).
  { unfold source_path, E2. rewrite !sapp_assoc. cbn [String.append]. rewrite !sapp_assoc. cbn [String.append]. rewrite !sapp_assoc. cbn [String.append].
    rewrite !sapp_assoc. cbn [String.append]. reflexivity. }
  rewrite EE.
  induction f as [f IH] using lt_wf_ind. intros before Lf N. destruct f as [|f]; [lia|]. cbn [captures].
  destruct (match_here sep (before ++ "cargo" ++ String sep E2)) as [[[c' v'] r']|] eqn:M.
  - pose proof M as M0. apply match_here_iff in M as (x' & E & [D1 D2] & C' & V' & D3); [|exact Sep].
    assert (E0 : "cargo" ++ String sep ("registry" ++ String sep ("src" ++ String sep (x' ++ String sep ((c' ++ String "-" v') ++ String sep r')))) = before ++ "cargo" ++ String sep E2)
      by (rewrite E; unfold registry_prefix; rewrite !sapp_assoc; reflexivity).
    clear E. rename E0 into E.
    destruct (peel sep _ _ _ _ KC KC E) as [(B1 & B2 & B3)|(b1 & Eb1 & E1)].
    { assert (before = "") as -> by (destruct before as [|? [|? ?]]; [reflexivity|apply (f_equal String.length) in B2; rewrite slength_app in B2; cbn in B2; lia..]).
      left. unfold E2 in B3. 
      assert (X : split_once sep ("registry" ++ String sep ("src" ++ String sep (x' ++ String sep ((c' ++ String "-" v') ++ String sep r'))))
                = split_once sep E2) by (rewrite B3; reflexivity). unfold E2 in X. rewrite !split_once_app in X by exact KR. injection X as X.
      assert (X2 : "src" ++ String sep (x' ++ String sep ((c' ++ String "-" v') ++ String sep r')) = "src" ++ String sep (x ++ String sep ((c ++ String "-" (print_version v)) ++ String sep rest))) by exact (f_equal (fun s => "src" ++ String sep s) X).
      clear X2.
      assert (Y : split_once sep (x' ++ String sep ((c' ++ String "-" v') ++ String sep r')) = split_once sep (x ++ String sep ((c ++ String "-" (print_version v)) ++ String sep rest))) by (rewrite X; reflexivity).
      rewrite !split_once_app in Y by (try exact D2; apply Dx). injection Y as Y1 Y2.
      assert (Z : split_once sep ((c' ++ String "-" v') ++ String sep r') = split_once sep ((c ++ String "-" (print_version v)) ++ String sep rest)) by (rewrite Y2; reflexivity).
      rewrite !split_once_app in Z by assumption. injection Z as Z1 Z2.
      assert (S1 : split_crate (c' ++ String "-" v') = Some (c', v')) by (apply split_crate_iff; auto).
      assert (S2 : split_crate (c ++ String "-" (print_version v)) = Some (c, print_version v)) by (apply split_crate_iff; repeat split; [apply C|apply C|apply print_version_shape; exact W]).
      rewrite Z1 in S1. congruence. }
    destruct (peel sep _ _ _ _ KR KC E1) as [(_ & B2 & _)|(b2 & Eb2 & E3)]; [exfalso; symmetry in B2; revert B2; apply (suffix_neq sep); [exact Sep|discriminate|reflexivity]|].
    destruct (peel sep _ _ _ _ KS KC E3) as [(_ & B2 & _)|(b3 & Eb3 & E4)]; [exfalso; symmetry in B2; revert B2; apply (suffix_neq sep); [exact Sep|discriminate|reflexivity]|].
    destruct (peel sep _ _ _ _ D2 KC E4) as [(_ & _ & B3)|(b4 & Eb4 & E5)].
    { exfalso. unfold E2 in B3. assert (X : split_once sep ((c' ++ String "-" v') ++ String sep r') = split_once sep E2) by (rewrite B3; reflexivity).
      unfold E2 in X. rewrite !split_once_app in X by assumption. injection X as X _.
      assert (S1 : split_crate (c' ++ String "-" v') = Some (c', v')) by (apply split_crate_iff; auto). rewrite X in S1. discriminate. }
    destruct (peel sep _ _ _ _ D3 KC E5) as [(B1 & B2 & _)|(b5 & Eb5 & E6)].
    { exfalso. assert (Nb : no_dash_after sep b4).
      { rewrite Eb1, Eb2, Eb3, Eb4 in N. do 4 (apply no_dash_suffix_app in N; apply no_dash_suffix in N). exact N. }
      assert (X : has_char "-" (b4 ++ "cargo") = false).
      { rewrite has_char_app. rewrite (Nb b4); [reflexivity|]. split; [left; reflexivity|exact B1]. }
      assert (S1 : split_crate (c' ++ String "-" v') = Some (c', v')) by (apply split_crate_iff; auto).
      rewrite B2, no_dash_no_crate in S1 by exact X. discriminate. }
    right. rewrite E6. apply IH; [lia| |].
    + rewrite Eb1, Eb2, Eb3, Eb4, Eb5 in Lf. rewrite !slength_app in Lf. cbn [String.length] in Lf. rewrite !slength_app in Lf.
      cbn [String.length] in Lf. rewrite ?slength_app in Lf. cbn [String.length] in Lf. rewrite ?slength_app in Lf. cbn [String.length] in Lf.
      rewrite ?slength_app in Lf. cbn [String.length] in Lf. lia.
    + rewrite Eb1, Eb2, Eb3, Eb4, Eb5 in N. do 5 (apply no_dash_suffix_app in N; apply no_dash_suffix in N). exact N.
  - destruct before as [|a b].
    + exfalso. assert (X : match_here sep ("" ++ "cargo" ++ String sep E2) = Some (c, print_version v, rest)).
      { apply match_here_iff; [exact Sep|]. exists x. split; [|split; [exact Dx|split; [exact C|split; [apply print_version_shape; exact W|exact KV]]]].
        unfold registry_prefix, E2. rewrite !sapp_assoc. reflexivity. }
      congruence.
    + change ((String a b) ++ "cargo" ++ String sep E2) with (String a (b ++ "cargo" ++ String sep E2)). cbn [String.length] in Lf.
      apply IH; [lia|lia|]. eapply no_dash_suffix. exact N.
Qed.

(** ** C65 *)
Lemma versions_for_iff sep data c v : In (c, v) (versions_for sep data) <->
  version_wf v = true /\ In (c, print_version v) (captures (S (String.length data)) sep data).
Proof.
  unfold versions_for. rewrite in_flat_map. split.
  - intros ((c' & t) & H1 & H2). cbn [fst snd] in H2. destruct (parse_version t) as [v'|] eqn:P; [|destruct H2].
    destruct H2 as [E|[]]. injection E as -> ->. apply parse_version_inv in P as [W <-]. auto.
  - intros [W H]. exists (c, print_version v). split; [exact H|]. cbn [fst snd]. rewrite parse_print_version by exact W. left. reflexivity.
Qed.
(** Every reported crate occurs in the data with its version, as the directory cargo unpacked it to. *)
Theorem C65_sound data c v : In (c, v) (quitters_versions data) ->
  exists sep before x rest, separator sep /\ registry_dir sep x /\ crate_name c /\
    data = before ++ source_path sep x c v ++ rest.
Proof.
  assert (G : forall sep, separator sep -> In (c, v) (versions_for sep data) ->
     exists sep before x rest, separator sep /\ registry_dir sep x /\ crate_name c /\ data = before ++ source_path sep x c v ++ rest).
  { intros sep Sep H. apply versions_for_iff in H as [W H]. destruct (captures_sound sep _ Sep _ _ _ H) as (b & x & r & -> & D & C).
    exists sep, b, x, r. do 3 (split; [assumption|]). f_equal. unfold source_path, registry_prefix.
    repeat (rewrite ?sapp_assoc; cbn [String.append]). reflexivity. }
  unfold quitters_versions. destruct (versions_for "/" data) as [|y l] eqn:E.
  - apply G. right. reflexivity.
  - rewrite <- E. apply G. left. reflexivity.
Qed.
(** Every such directory is reported, unless the text before "cargo" in its path segment contains a dash. *)
Theorem C65_complete_unix data before x c v rest : data = before ++ source_path "/" x c v ++ rest ->
  registry_dir "/" x -> crate_name c -> version_wf v = true -> no_dash_after "/" before ->
  In (c, v) (quitters_versions data).
Proof.
  intros E D C W N. assert (H : In (c, v) (versions_for "/" data)).
  { apply versions_for_iff. split; [exact W|]. rewrite E. apply captures_complete; try assumption; [left; reflexivity|].
    rewrite !slength_app. lia. }
  unfold quitters_versions. destruct (versions_for "/" data) as [|y l]; [destruct H|exact H].
Qed.
(** Windows paths are reported in the same way when the data has no Unix path. *)
Theorem C65_complete_windows data before x c v rest : data = before ++ source_path (ascii_of_N 92) x c v ++ rest ->
  registry_dir (ascii_of_N 92) x -> crate_name c -> version_wf v = true -> no_dash_after (ascii_of_N 92) before ->
  (forall b y k w r, registry_dir "/" y -> crate_name k -> version_wf w = true -> data <> b ++ source_path "/" y k w ++ r) ->
  In (c, v) (quitters_versions data).
Proof.
  intros E D C W N U. assert (H : In (c, v) (versions_for (ascii_of_N 92) data)).
  { apply versions_for_iff. split; [exact W|]. rewrite E. apply captures_complete; try assumption; [right; reflexivity|].
    rewrite !slength_app. lia. }
  unfold quitters_versions. destruct (versions_for "/" data) as [|[k w] l] eqn:F; [exact H|]. exfalso.
  assert (K : In (k, w) (versions_for "/" data)) by (rewrite F; left; reflexivity).
  apply versions_for_iff in K as [Ww K]. destruct (captures_sound "/" _ (or_introl eq_refl) _ _ _ K) as (b & y & r & Ed & Dy & Ck).
  apply (U b y k w r); try assumption. rewrite Ed. f_equal. unfold source_path, registry_prefix. repeat (rewrite ?sapp_assoc; cbn [String.append]). reflexivity.
Qed.
(** The dash condition matters: messages run together can hide a path, here that of [bar]. *)
Definition ex_joined : string := "/cargo/registry/src/X/foo-1.0.0cargo/registry/src/Y/bar-2.0.0/src/lib.rs".
Theorem C65_every_path_refuted : exists before rest,
  ex_joined = before ++ source_path "/" "Y" "bar" v200 ++ rest /\ quitters_versions ex_joined = [].
Proof. exists "/cargo/registry/src/X/foo-1.0.0", "src/lib.rs". split; vm_compute; reflexivity. Qed.
(** The recovered lockfile: a crates.io package for each, none without any. *)
(** The source a lock file names by this text, for every reader of URLs that leaves this one as it is. *)
Definition means_crates_io (s : source_id) : Prop :=
  forall norm, norm "https://github.com/rust-lang/crates.io-index" = Some "https://github.com/rust-lang/crates.io-index" ->
    from_url norm "registry+https://github.com/rust-lang/crates.io-index" = Ok s.
Lemma means_crates_io_iff s : means_crates_io s <-> s = crates_io_source_id.
Proof.
  assert (K : forall norm, norm CRATES_IO_INDEX = Some CRATES_IO_INDEX -> from_url norm "registry+https://github.com/rust-lang/crates.io-index" = Ok crates_io_source_id).
  { intros norm N. unfold from_url. replace (split_once "+" "registry+https://github.com/rust-lang/crates.io-index") with (Some ("registry", CRATES_IO_INDEX)) by reflexivity.
    cbn [String.eqb Ascii.eqb Bool.eqb]. unfold url_parse. replace (clean_input CRATES_IO_INDEX) with CRATES_IO_INDEX by reflexivity.
    replace (split_once "#" CRATES_IO_INDEX) with (@None (string * string)) by reflexivity. replace (split_once "?" CRATES_IO_INDEX) with (@None (string * string)) by reflexivity.
    rewrite N. reflexivity. }
  split; [|intros ->; exact K]. intros H. specialize (H Some eq_refl). rewrite (K Some eq_refl) in H. congruence.
Qed.
Theorem C65_lockfile data :
  match deps_from_panic_messages data with
  | None => forall c v, ~ In (c, v) (quitters_versions data)
  | Some l => lk_packages l <> [] /\ forall p, In p (lk_packages l) <->
      exists c v s, In (c, v) (quitters_versions data) /\ p = mkPkg c v (Some s) None [] None /\ means_crates_io s
  end.
Proof.
  unfold deps_from_panic_messages. destruct (quitters_versions data) as [|y l]; [intros c v []|].
  cbn [lk_packages]. split; [discriminate|]. intros p. rewrite in_map_iff. split.
  - intros ([c v] & <- & H). exists c, v, crates_io_source_id. split; [exact H|]. split; [reflexivity|]. now apply means_crates_io_iff.
  - intros (c & v & s & H & -> & S). apply means_crates_io_iff in S as ->. exists (c, v). auto.
Qed.
Definition ex_binary : string :=
  ".../.cargo/registry/src/github.com-1ecc6299db9ec823/xz2-0.1.6/src/stream.rsunknown return code/root/.cargo/registry/src/github.com-1ecc6299db9ec823/zstd-safe-5.0.2+zstd.1.5.2/src/lib.rsbad".
Example C65_nonvacuous :
  quitters_versions ex_binary = [("xz2", mkVersion 0 1 6 [] []); ("zstd-safe", mkVersion 5 0 2 [] ["zstd"; "1"; "5"; "2"])] /\
  registry_dir "/" "github.com-1ecc6299db9ec823" /\ crate_name "zstd-safe" /\ no_dash_after "/" ".../.".
Proof.
  split; [vm_compute; reflexivity|]. split; [split; [discriminate|reflexivity]|]. split; [apply crate_name_iff; reflexivity|].
  intros l [[<-|(p & E)] D]; [discriminate|]. assert (X : has_char "-" ".../." = false) by reflexivity.
  rewrite E, has_char_app in X. apply orb_false_iff in X as [_ X]. cbn in X. exact X.
Qed.
Print Assumptions C65_sound.
Print Assumptions C65_complete_unix.
Print Assumptions C65_complete_windows.
Print Assumptions C65_lockfile.
(** *** C62: the format reported with the dependencies: what the detector of the binfarce crate says, except that a file it does not
    know is WebAssembly exactly when its first four bytes are 0, 97, 115, 109. *)
Theorem C62_format detect info data limit f deps : load_deps_from_binary detect info data limit = Ok (f, deps) ->
  (detect data <> UnknownFormat -> f = detect data) /\
  (detect data = UnknownFormat ->
     ((exists rest, data = String (ascii_of_N 0) (String (ascii_of_N 97) (String (ascii_of_N 115) (String (ascii_of_N 109) rest)))) -> f = Wasm) /\
     ((forall rest, data <> String (ascii_of_N 0) (String (ascii_of_N 97) (String (ascii_of_N 115) (String (ascii_of_N 109) rest)))) -> f = UnknownFormat)).
Proof.
  intros H. assert (E : f = detect_format detect data).
  { unfold load_deps_from_binary in H.
    destruct (info data _) as [ps| |]; [|injection H as <- _; reflexivity|discriminate].
    destruct (lockfile_of_info ps); cbn [obind] in H; try discriminate. injection H as <- _. reflexivity. }
  subst f. unfold detect_format. split; [destruct (detect data); congruence|]. intros ->. split.
  - intros [rest ->]. reflexivity.
  - intros N. destruct (starts_with (String (ascii_of_N 0) "asm") data) eqn:S; [|reflexivity].
    exfalso. apply starts_with_spec in S as [r ->]. apply (N r). reflexivity.
Qed.
Print Assumptions C62_format.
Example C62_format_nonvacuous : exists o,
  load_deps_from_binary (fun _ => UnknownFormat) (fun _ _ => NoAuditData) (String (ascii_of_N 0) "asm1") None = Ok (Wasm, o).
Proof. eexists. reflexivity. Qed.
