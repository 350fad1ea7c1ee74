(** C34 continued: what the address of a source becomes, character by character.  C61: the words after `--deny`.  C52: files without history. *)
From Coq Require Import List NArith ZArith Ascii String Bool Arith Lia.
From Verif Require Import Base StrLib PkgModel UrlModel UrlSpec UrlProofs PropsSource PropsSource2 IdModel AuditModel MtimeModel PropsMtime.
Import ListNotations.
Local Open Scope string_scope.

(** ** Escapes *)
(** [t] is [s] with every character that must be escaped replaced by `%` and two capital hexadecimal digits. *)
Definition hex_digits : string := "0123456789ABCDEF".
Inductive escaped (must : ascii -> Prop) : string -> string -> Prop :=
  | escaped_end : escaped must "" ""
  | escaped_keep c s t : ~ must c -> escaped must s t -> escaped must (String c s) (String c t)
  | escaped_code c h l s t : must c -> String.get (nat_of_ascii c / 16) hex_digits = Some h -> String.get (nat_of_ascii c mod 16) hex_digits = Some l ->
      escaped must s t -> escaped must (String c s) (String "%" (String h (String l t))).
(** Spaces, control characters, characters outside ASCII, and a few others; apostrophes in queries for some schemes. *)
Definition not_visible (c : ascii) : Prop := (nat_of_ascii c <= 32 \/ 127 <= nat_of_ascii c)%nat.
Definition in_fragment (c : ascii) : Prop := not_visible c \/ In c [""""; "<"; ">"; "`"]%char.
Definition special_address (b : string) : Prop :=
  exists scheme rest, In scheme ["http"; "https"; "ws"; "wss"; "ftp"; "file"] /\ b = scheme ++ ":" ++ rest.
Definition in_query (b : string) (c : ascii) : Prop :=
  not_visible c \/ In c [""""; "<"; ">"; "#"]%char \/ (c = "'"%char /\ special_address b).

Lemma pct_code c : exists h l, pct c = String "%" (String h (String l "")) /\
  String.get (nat_of_ascii c / 16) hex_digits = Some h /\ String.get (nat_of_ascii c mod 16) hex_digits = Some l.
Proof. destruct c as [[|] [|] [|] [|] [|] [|] [|] [|]]; do 2 eexists; repeat split; reflexivity. Qed.
Lemma encode_escaped must set s : (forall c, set c = true <-> must c) -> escaped must s (encode set s).
Proof.
  intros H. induction s as [|c s IH]; [constructor|]. cbn [encode]. destruct (set c) eqn:E.
  - destruct (pct_code c) as (h & l & -> & Hh & Hl). cbn [String.append]. constructor; try assumption. now apply H.
  - constructor; [|exact IH]. rewrite <- H. congruence.
Qed.
Lemma escaped_unique must s t t' : escaped must s t -> escaped must s t' -> t = t'.
Proof.
  intros H. revert t'. induction H as [|c s t N H IH|c h l s t M Hh Hl H IH]; intros t' H'.
  - inversion H'; reflexivity.
  - inversion H' as [|c' s' t'' N' H''|c' h' l' s' t'' M' Hh' Hl' H'']; subst; [|contradiction]. rewrite (IH _ H''). reflexivity.
  - inversion H' as [|c' s' t'' N' H''|c' h' l' s' t'' M' Hh' Hl' H'']; subst; [contradiction|]. rewrite (IH _ H''). congruence.
Qed.
Lemma special_iff b : is_special b = true <-> special_address b.
Proof.
  unfold is_special, special_address. rewrite existsb_exists. split.
  - intros (p & I & S). apply starts_with_spec in S as [r ->]. cbn [special_schemes In] in I.
    destruct I as [<-|[<-|[<-|[<-|[<-|[<-|[]]]]]]].
    + exists "http", r. split; [cbn; tauto|reflexivity].
    + exists "https", r. split; [cbn; tauto|reflexivity].
    + exists "ws", r. split; [cbn; tauto|reflexivity].
    + exists "wss", r. split; [cbn; tauto|reflexivity].
    + exists "ftp", r. split; [cbn; tauto|reflexivity].
    + exists "file", r. split; [cbn; tauto|reflexivity].
  - intros (sch & r & I & ->). exists (sch ++ ":"). split.
    + cbn [In] in I. cbn [special_schemes In]. destruct I as [<-|[<-|[<-|[<-|[<-|[<-|[]]]]]]]; cbn; tauto.
    + apply starts_with_spec. exists r. rewrite sapp_assoc. reflexivity.
Qed.
Lemma visible_set c : control_or_high c || Ascii.eqb c " " = true <-> not_visible c.
Proof.
  unfold not_visible. destruct c as [[|] [|] [|] [|] [|] [|] [|] [|]]; vm_compute; split; intros H; try discriminate H; try reflexivity;
    first [left; lia|right; lia|destruct H as [H|H]; lia].
Qed.
Lemma fragment_iff c : fragment_set c = true <-> in_fragment c.
Proof.
  unfold in_fragment. rewrite <- visible_set. unfold fragment_set, is_one_of. cbn [has_char].
  rewrite !(Ascii.eqb_sym _ c). rewrite !orb_true_iff, !Ascii.eqb_eq. cbn [In].
  split; intros H; repeat match goal with H : _ \/ _ |- _ => destruct H end; try discriminate; subst; auto 10.
Qed.
Lemma query_iff b c : query_set (is_special b) c = true <-> in_query b c.
Proof.
  unfold in_query. rewrite <- visible_set, <- special_iff. unfold query_set, is_one_of. cbn [has_char].
  rewrite !(Ascii.eqb_sym _ c). rewrite !orb_true_iff, !andb_true_iff, !Ascii.eqb_eq. cbn [In].
  split; intros H; repeat match goal with H : _ \/ _ |- _ => destruct H | H : _ /\ _ |- _ => destruct H end; try discriminate; subst; auto 10.
Qed.

(** An address without tabs and line ends, and without blanks at the ends. *)
Definition tidy (s : string) : Prop :=
  (forall n c, String.get n s = Some c -> ~ line_char c)
  /\ (forall c r, s = String c r -> (32 < N_of_ascii c)%N) /\ (forall c r, s = r ++ String c "" -> (32 < N_of_ascii c)%N).
Lemma tidy_clean s : tidy s -> clean_input s = s.
Proof.
  intros (L & B & E). unfold clean_input.
  assert (T : trim_left c0_or_space s = s).
  { destruct s as [|c r]; [reflexivity|]. cbn [trim_left]. specialize (B c r eq_refl). unfold c0_or_space. destruct (N.leb_spec (N_of_ascii c) 32); [lia|reflexivity]. }
  assert (T2 : trim_both c0_or_space s = s).
  { unfold trim_both. rewrite T. assert (R : trim_left c0_or_space (srev s) = srev s); [|rewrite R; apply srev_involutive].
    destruct (srev s) as [|c r] eqn:Q; [reflexivity|]. cbn [trim_left].
    assert (S : s = srev r ++ String c "") by (rewrite <- (srev_involutive s), Q, srev_cons; reflexivity).
    specialize (E c (srev r) S). unfold c0_or_space. destruct (N.leb_spec (N_of_ascii c) 32); [lia|reflexivity]. }
  rewrite T2. clear - L. induction s as [|c s IH]; [reflexivity|]. cbn [drop_chars].
  rewrite IH by (intros n a; exact (L (S n) a)).
  assert (N : tab_or_newline c = false); [|rewrite N; reflexivity].
  destruct (tab_or_newline c) eqn:T; [|reflexivity]. exfalso. apply (L 0%nat c eq_refl). unfold tab_or_newline in T. unfold line_char. cbn [In].
  rewrite !orb_true_iff, !N.eqb_eq in T. destruct T as [[T|T]|T]; rewrite T; auto.
Qed.

(** The text after the sign `+`: an address, possibly a query and a fragment. *)
Definition part (mark : string) (o : option string) : string := match o with Some x => mark ++ x | None => "" end.
Definition part_becomes (must : ascii -> Prop) (o o' : option string) : Prop :=
  match o, o' with None, None => True | Some x, Some y => escaped must x y | _, _ => False end.
Definition whole (b : string) (q f : option string) : string := b ++ part "?" q ++ part "#" f.
Theorem C34_escapes : forall norm b q f b', tidy (whole b q f) ->
  has_char "?" b = false -> has_char "#" b = false -> has_char "#" (part "" q) = false -> norm b = Some b' ->
  exists q' f', part_becomes (in_query b') q q' /\ part_becomes in_fragment f f'
    /\ from_url norm ("registry+" ++ whole b q f) = Ok (mkSource (whole b' q' f') SRegistry (Some "locked") None)
    /\ from_url norm ("sparse+" ++ whole b q f) = Ok (mkSource (whole b' q' f') SSparseRegistry (Some "locked") None)
    /\ from_url norm ("path+" ++ whole b q f) = Ok (mkSource (whole b' q' f') SPath None None)
    /\ (exists r, from_url norm ("git+" ++ whole b q f) = Ok (mkSource b' (SGit r) f' None)).
Proof.
  intros norm b q f b' T B1 B2 Q Nb.
  exists (option_map (encode (query_set (is_special b'))) q), (option_map (encode fragment_set) f).
  split; [destruct q; cbn; [apply encode_escaped; intros c; apply query_iff|exact Logic.I]|].
  split; [destruct f; cbn; [apply encode_escaped; intros c; apply fragment_iff|exact Logic.I]|].
  assert (P : url_parse norm (whole b q f) = Some (mkUrl b' (option_map (encode (query_set (is_special b'))) q) (option_map (encode fragment_set) f))).
  { unfold url_parse. rewrite (tidy_clean _ T). clear T. unfold whole.
    assert (H1 : forall c x, has_char c x = false -> split_once c x = None).
    { intros c x H. destruct (split_once c x) as [[u v]|] eqn:E; [|reflexivity]. apply split_once_spec in E as [-> _]. exfalso. revert H. clear. intros H.
      induction u as [|a u IH]; cbn [String.append has_char] in H; apply orb_false_iff in H as [H1 H2]; [rewrite Ascii.eqb_refl in H1; discriminate|exact (IH H2)]. }
    assert (HA : forall c x y, has_char c x = false -> has_char c y = false -> has_char c (x ++ y) = false).
    { clear. intros c x y H1 H2. induction x as [|a x IH]; [exact H2|]. cbn [String.append has_char] in *. apply orb_false_iff in H1 as [-> H1]. exact (IH H1). }
    assert (Hq : has_char "#" (b ++ part "?" q) = false).
    { apply HA; [exact B2|]. destruct q as [q|]; [exact Q|reflexivity]. }
    assert (S1 : (match split_once "#" (b ++ part "?" q ++ part "#" f) with Some (x, f0) => (x, Some f0) | None => (b ++ part "?" q ++ part "#" f, None) end) = (b ++ part "?" q, f)).
    { destruct f as [f|]; cbn [part].
      - assert (E : split_once "#" (b ++ part "?" q ++ "#" ++ f) = Some (b ++ part "?" q, f)); [|rewrite E; reflexivity].
        apply split_once_spec. split; [rewrite sapp_assoc; reflexivity|exact Hq].
      - rewrite sapp_nil_r. rewrite (H1 _ _ Hq). reflexivity. }
    rewrite S1.
    assert (S2 : (match split_once "?" (b ++ part "?" q) with Some (x, q0) => (x, Some q0) | None => (b ++ part "?" q, None) end) = (b, q)).
    { destruct q as [q|]; cbn [part].
      - assert (E : split_once "?" (b ++ "?" ++ q) = Some (b, q)); [|rewrite E; reflexivity]. apply split_once_spec. split; [reflexivity|exact B1].
      - rewrite sapp_nil_r. rewrite (H1 _ _ B1). reflexivity. }
    rewrite S2, Nb. reflexivity. }
  assert (F : forall kind x, has_char "+" kind = false -> split_once "+" (kind ++ "+" ++ x) = Some (kind, x)) by (intros kind x H; apply split_once_spec; split; [reflexivity|exact H]).
  change ("registry+" ++ whole b q f) with ("registry" ++ "+" ++ whole b q f). change ("sparse+" ++ whole b q f) with ("sparse" ++ "+" ++ whole b q f).
  change ("path+" ++ whole b q f) with ("path" ++ "+" ++ whole b q f). change ("git+" ++ whole b q f) with ("git" ++ "+" ++ whole b q f).
  unfold from_url. rewrite (F "registry" _ eq_refl), (F "sparse" _ eq_refl), (F "path" _ eq_refl), (F "git" _ eq_refl). cbn [String.eqb Ascii.eqb Bool.eqb]. rewrite P.
  assert (US : url_string (mkUrl b' (option_map (encode (query_set (is_special b'))) q) (option_map (encode fragment_set) f)) = whole b' (option_map (encode (query_set (is_special b'))) q) (option_map (encode fragment_set) f)).
  { unfold url_string, whole. cbn [u_base u_query u_fragment]. destruct q, f; reflexivity. }
  rewrite US. split; [reflexivity|]. split; [reflexivity|]. split; [reflexivity|]. eexists. reflexivity.
Qed.
(** The escaped text is determined. *)
Theorem C34_escapes_unique : forall must s t t', escaped must s t -> escaped must s t' -> t = t'.
Proof. exact escaped_unique. Qed.
Theorem C34_escapes_nonvacuous :
  from_url (fun s => Some s) "registry+https://example.org/i?a'b <#c`'" = Ok (mkSource "https://example.org/i?a%27b%20%3C#c%60'" SRegistry (Some "locked") None)
  /\ from_url (fun s => Some s) "registry+ssh://example.org/i?a'b" = Ok (mkSource "ssh://example.org/i?a'b" SRegistry (Some "locked") None).
Proof. split; reflexivity. Qed.

(** ** The words after `--deny` *)
Definition deny_words : list (string * deny_option) :=
  [("warnings", DWarnings); ("unmaintained", DUnmaintained); ("unsound", DUnsound); ("yanked", DYanked)].
Theorem C61_deny_words : forall s,
  (forall d, deny_from_str s = Ok d <-> In (s, d) deny_words) /\ (~ In s (map fst deny_words) -> deny_from_str s = Err).
Proof.
  intros s. unfold deny_from_str, deny_words. cbn [map fst In].
  destruct (String.eqb_spec s "warnings") as [->|N1]; [|destruct (String.eqb_spec s "unmaintained") as [->|N2]; [|destruct (String.eqb_spec s "unsound") as [->|N3]; [|destruct (String.eqb_spec s "yanked") as [->|N4]]]].
  5:{ split; [|reflexivity]. intros d. split; [discriminate|]. intros [H|[H|[H|[H|[]]]]]; injection H as <- <-; congruence. }
  all: split; [intros d; split; [intros [= <-]; tauto|intros [H|[H|[H|[H|[]]]]]; try discriminate H; injection H as <-; reflexivity]|tauto].
Qed.

(** ** Files without history *)
(** Asking for the dates of a file that no commit of the walk touches crashes the program. *)
Theorem C52_untouched_crashes : forall db walk m p civil_of_day civil, mod_times_new db walk = Ok m ->
  (forall t, ~ touched_in db walk p t) ->
  for_path m p = Panic /\ mdate_for_path civil_of_day civil m p = Panic /\ cdate_for_path civil_of_day civil m p = Panic.
Proof.
  intros db walk m p cd civil M N.
  assert (A : lookup p (mt_mtimes m) = None).
  { destruct (lookup p (mt_mtimes m)) as [t|] eqn:E; [|reflexivity]. apply (C52_latest _ _ _ _ _ M) in E as [E _]. destruct (N t E). }
  assert (B : lookup p (mt_ctimes m) = None).
  { destruct (lookup p (mt_ctimes m)) as [t|] eqn:E; [|reflexivity]. apply (C52_earliest _ _ _ _ _ M) in E as [E _]. destruct (N t E). }
  unfold for_path, mdate_for_path, cdate_for_path. rewrite A, B. auto.
Qed.
