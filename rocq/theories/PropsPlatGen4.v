(** Property C88: the names of variants and constants. *)
From Coq Require Import List NArith Ascii String Bool Arith Lia Sorted.
From Verif Require Import Base StrLib IdModel OsvAdvModel SortProofs PartsModel ConfigModel AssignModel PlatGenModel PlatGenSpec PropsPlatGen PropsPlatGen2 PropsPlatGen3.
Import ListNotations.
Local Open Scope string_scope.

(** A name without its underscores and in lower case. *)
Fixpoint squash (s : string) : string :=
  match s with
  | EmptyString => ""
  | String c r => if Ascii.eqb c "_" then squash r else String (ascii_lower c) (squash r)
  end.
Lemma squash_app a b : squash (a ++ b) = squash a ++ squash b.
Proof. induction a as [|c a IH]; [reflexivity|]. cbn [append squash]. rewrite IH. destruct (Ascii.eqb c "_"); reflexivity. Qed.
Lemma lower_idem c : ascii_lower (ascii_lower c) = ascii_lower c.
Proof. destruct c as [[|] [|] [|] [|] [|] [|] [|] [|]]; reflexivity. Qed.
Lemma lower_upper c : ascii_lower (ascii_upper c) = ascii_lower c.
Proof. destruct c as [[|] [|] [|] [|] [|] [|] [|] [|]]; reflexivity. Qed.
Lemma lower_under c : Ascii.eqb (ascii_lower c) "_" = Ascii.eqb c "_".
Proof. destruct c as [[|] [|] [|] [|] [|] [|] [|] [|]]; reflexivity. Qed.
Lemma upper_under c : Ascii.eqb (ascii_upper c) "_" = Ascii.eqb c "_".
Proof. destruct c as [[|] [|] [|] [|] [|] [|] [|] [|]]; reflexivity. Qed.
Lemma squash_lower s : squash (to_ascii_lowercase s) = squash s.
Proof.
  induction s as [|c s IH]; [reflexivity|]. cbn [to_ascii_lowercase squash]. rewrite lower_under, lower_idem, IH. reflexivity.
Qed.
Lemma squash_upper s : squash (to_ascii_uppercase s) = squash s.
Proof.
  induction s as [|c s IH]; [reflexivity|]. cbn [to_ascii_uppercase squash]. rewrite upper_under, lower_upper, IH. reflexivity.
Qed.
Lemma squash_title b s : squash (titlecase b s) = squash s.
Proof.
  revert b. induction s as [|c s IH]; intros b; [reflexivity|]. cbn [titlecase squash].
  destruct (Ascii.eqb c "_") eqn:U; [apply IH|].
  destruct (b && is_dig c); [cbn [squash]; rewrite U, IH; reflexivity|].
  destruct (b && is_lower c); cbn [squash]; rewrite ?upper_under, ?lower_upper, U, IH; reflexivity.
Qed.
(** The name the variant stands for: the value, `none` for the empty one, and a `u` before 16, 32 and 64. *)
Definition plain_name (v : string) : string :=
  if String.eqb v "" then "none" else if String.eqb v "16" then "u16" else if String.eqb v "32" then "u32"
  else if String.eqb v "64" then "u64" else squash v.
Lemma lower_fixed v w : to_ascii_lowercase v = w -> str_forall is_dig w = true -> v = w.
Proof.
  intros <-. induction v as [|c v IH]; [reflexivity|]. cbn [to_ascii_lowercase str_forall]. intros H. apply andb_prop in H as [A B].
  rewrite <- (IH B). f_equal. revert A. destruct c as [[|] [|] [|] [|] [|] [|] [|] [|]]; cbn; congruence.
Qed.
Lemma ending_squash e s x : upper_ending e s = Some x -> squash x = squash s.
Proof.
  unfold upper_ending. destruct (strip_suffix e s) as [t|] eqn:E; [|discriminate]. intros [= <-]. apply strip_suffix_spec in E. subst s.
  rewrite !squash_app, squash_upper. reflexivity.
Qed.
Lemma variant_plain v : squash (variant_name v) = plain_name v.
Proof.
  unfold variant_name, plain_name. destruct (lookup_key special_names (to_ascii_lowercase v)) as [n|] eqn:E.
  - unfold lookup_key in E. destruct (find _ special_names) as [[k w]|] eqn:F; [|discriminate E]. injection E as <-.
    apply find_some in F as [I F]. cbn in F. apply String.eqb_eq in F. cbn [snd].
    assert (S := squash_lower v). rewrite F in S.
    assert (Four : In k [""; "16"; "32"; "64"] \/ (squash w = squash k /\ k <> "" /\ k <> "16" /\ k <> "32" /\ k <> "64")).
    { clear - I. repeat (destruct I as [I|I]; [injection I as <- <-; first [right; repeat split; discriminate|left; cbn; tauto]|]). destruct I. }
    destruct Four as [[<-|[<-|[<-|[<-|[]]]]]|(Q & N1 & N2 & N3 & N4)].
    + destruct v; [|discriminate F]. repeat (destruct I as [I|I]; [try discriminate I; injection I as <-; reflexivity|]). destruct I.
    + rewrite (lower_fixed v "16" F eq_refl). repeat (destruct I as [I|I]; [try discriminate I; injection I as <-; reflexivity|]). destruct I.
    + rewrite (lower_fixed v "32" F eq_refl). repeat (destruct I as [I|I]; [try discriminate I; injection I as <-; reflexivity|]). destruct I.
    + rewrite (lower_fixed v "64" F eq_refl). repeat (destruct I as [I|I]; [try discriminate I; injection I as <-; reflexivity|]). destruct I.
    + assert (Nv : v <> "" /\ v <> "16" /\ v <> "32" /\ v <> "64") by (repeat split; intros ->; cbn in F; congruence).
      destruct Nv as (M1 & M2 & M3 & M4).
      rewrite (proj2 (String.eqb_neq v "")), (proj2 (String.eqb_neq v "16")), (proj2 (String.eqb_neq v "32")), (proj2 (String.eqb_neq v "64")) by assumption.
      rewrite Q, S. reflexivity.
  - assert (Nv : v <> "" /\ v <> "16" /\ v <> "32" /\ v <> "64") by (repeat split; intros ->; discriminate E).
    destruct Nv as (M1 & M2 & M3 & M4).
    rewrite (proj2 (String.eqb_neq v "")), (proj2 (String.eqb_neq v "16")), (proj2 (String.eqb_neq v "32")), (proj2 (String.eqb_neq v "64")) by assumption.
    destruct (upper_ending "os" _) as [x|] eqn:E1; [rewrite (ending_squash _ _ _ E1)|];
      [|destruct (upper_ending "bsd" _) as [x|] eqn:E2; [rewrite (ending_squash _ _ _ E2)|]]; rewrite squash_title, squash_lower; reflexivity.
Qed.

(** Two values with the same variant are the same up to case and underscores, or are one of the renamed values (`` and `none`,
    `16` and `u16`, …). *)
Theorem C88_variant_collisions : forall a b, variant_name a = variant_name b -> plain_name a = plain_name b.
Proof. intros a b E. rewrite <- !variant_plain, E. reflexivity. Qed.
(** Values of lower-case letters and digits that are not renamed have variants of their own. *)
Definition simple (v : string) : Prop :=
  v <> "" /\ str_forall (fun c => is_lower c || is_dig c) v = true /\ ~ In v ["16"; "32"; "64"; "none"; "u16"; "u32"; "u64"].
Lemma simple_plain v : simple v -> plain_name v = v.
Proof.
  intros (N & C & F). unfold plain_name.
  rewrite (proj2 (String.eqb_neq v "")) by exact N.
  rewrite (proj2 (String.eqb_neq v "16")), (proj2 (String.eqb_neq v "32")), (proj2 (String.eqb_neq v "64")) by (intros ->; apply F; cbn; tauto).
  clear N F. induction v as [|c v IH]; [reflexivity|]. cbn [str_forall] in C. apply andb_prop in C as [A B]. cbn [squash].
  rewrite (IH B). revert A. destruct c as [[|] [|] [|] [|] [|] [|] [|] [|]]; cbn; congruence.
Qed.
Theorem C88_simple_variants_distinct : forall a b, (simple a \/ a = "") -> simple b -> variant_name a = variant_name b -> a = b.
Proof.
  intros a b [Sa| ->] Sb E; apply C88_variant_collisions in E; rewrite (simple_plain b Sb) in E.
  - rewrite (simple_plain a Sa) in E. exact E.
  - exfalso. cbn in E. destruct Sb as (_ & _ & F). apply F. rewrite <- E. cbn. tauto.
Qed.
(** In general, different values may get the same variant, and the generated file then does not compile. *)
Theorem C88_variants_distinct_refuted :
  (exists a b, a <> b /\ variant_name a = variant_name b)
  /\ variant_name "" = variant_name "none" /\ variant_name "macos" = variant_name "mac_o_s" /\ variant_name "Linux" = variant_name "linux"
  /\ variant_name "riscv" = variant_name "risc_v".
Proof. split; [exists "", "none"; split; [discriminate|reflexivity]|]. repeat split; reflexivity. Qed.

(** If the variants of the values differ, the generated [as_str] and [from_str] undo each other: the arms of the one are the
    arms of the other turned round, and each arm is the only one for its side. *)
Definition as_str_arms (values : list string) : list (string * string) := map (fun v => (variant_name v, v)) values.
Definition from_str_arms (values : list string) : list (string * string) := map (fun v => (v, variant_name v)) values.
Theorem C88_conversions_inverse : forall key infos values, values_of key infos values ->
  (forall a b, In a values -> In b values -> variant_name a = variant_name b -> a = b) ->
  forall v n, lookup_key (from_str_arms values) v = Some n <-> lookup_key (as_str_arms values) n = Some v.
Proof.
  intros key infos values _ Inj v n. unfold as_str_arms, from_str_arms.
  assert (A : lookup_key (map (fun v => (v, variant_name v)) values) v = Some n <-> In v values /\ n = variant_name v).
  { unfold lookup_key. clear Inj. induction values as [|w values IH]; [split; [discriminate|intros [[] _]]|]. cbn [map find fst snd In].
    destruct (String.eqb_spec v w) as [->|N].
    - split; [intros [= <-]; split; [now left|reflexivity]|intros [_ ->]; reflexivity].
    - rewrite IH. split; intros [I E]; (split; [|exact E]); [now right|]. destruct I as [I|I]; [congruence|exact I]. }
  assert (B : lookup_key (map (fun v => (variant_name v, v)) values) n = Some v <-> In v values /\ n = variant_name v).
  { unfold lookup_key. clear A. induction values as [|w values IH]; [split; [discriminate|intros [[] _]]|]. cbn [map find fst snd In].
    destruct (String.eqb_spec n (variant_name w)) as [->|N].
    - split; [intros [= <-]; split; [now left|reflexivity]|]. intros [I E]. f_equal. apply Inj; [now left|exact I|exact E].
    - rewrite IH; [|intros a b Ia Ib; apply Inj; now right]. split; intros [I E]; (split; [|exact E]); [now right|]. destruct I as [I|I]; [congruence|exact I]. }
  rewrite A, B. reflexivity.
Qed.

(** Two targets share the name of their constant exactly when they differ only in case and in the choice among `-`, `.` and `_`. *)
Definition separator (c : ascii) : Prop := c = "-"%char \/ c = "."%char \/ c = "_"%char.
Inductive alike : string -> string -> Prop :=
  | alike_end : alike "" ""
  | alike_char a b s t : ascii_lower a = ascii_lower b \/ separator a /\ separator b -> alike s t -> alike (String a s) (String b t).
Definition const_char (c : ascii) : ascii := if Ascii.eqb c "-" || Ascii.eqb c "." then "_"%char else ascii_upper c.
Lemma const_chars s : const_name s = match s with EmptyString => "" | String c r => String (const_char c) (const_name r) end.
Proof.
  destruct s as [|c r]; [reflexivity|]. unfold const_name. cbn [to_ascii_uppercase replace_char]. f_equal.
  destruct c as [[|] [|] [|] [|] [|] [|] [|] [|]]; reflexivity.
Qed.
Lemma const_char_iff a b : const_char a = const_char b <-> ascii_lower a = ascii_lower b \/ separator a /\ separator b.
Proof.
  assert (S : forall c, const_char c = "_"%char <-> separator c).
  { intros c. unfold separator. split.
    - destruct c as [[|] [|] [|] [|] [|] [|] [|] [|]]; vm_compute; intros H; try discriminate H; tauto.
    - intros [->|[->| ->]]; reflexivity. }
  assert (Z : forall c, ascii_lower c = "-"%char -> c = "-"%char) by (intros c; destruct c as [[|] [|] [|] [|] [|] [|] [|] [|]]; vm_compute; congruence).
  assert (U : forall c, ~ separator c -> const_char c = ascii_upper c).
  { intros c N. unfold const_char, separator in *. destruct (Ascii.eqb_spec c "-") as [->|]; [tauto|]. destruct (Ascii.eqb_spec c ".") as [->|]; [tauto|]. reflexivity. }
  assert (UL : forall c, ascii_upper c = ascii_upper (ascii_lower c)) by (intros c; destruct c as [[|] [|] [|] [|] [|] [|] [|] [|]]; reflexivity).
  assert (D : forall c, separator c \/ ~ separator c).
  { intros c. rewrite <- S. destruct (Ascii.ascii_dec (const_char c) "_"); [now left|now right]. }
  assert (LS : forall c, separator c -> ascii_lower c = c) by (intros c [->|[->| ->]]; reflexivity).
  assert (SL : forall c d, separator c -> ascii_lower d = c -> d = c).
  { intros c d Hc E. revert E. destruct Hc as [->|[->| ->]]; destruct d as [[|] [|] [|] [|] [|] [|] [|] [|]]; vm_compute; congruence. }
  split.
  - intros E. destruct (D a) as [Ha|Ha].
    + right. split; [exact Ha|]. apply S. rewrite <- E. apply S. exact Ha.
    + destruct (D b) as [Hb|Hb]; [destruct Ha; apply S; rewrite E; apply S; exact Hb|].
      left. rewrite (U a Ha), (U b Hb) in E. rewrite <- (lower_upper a), <- (lower_upper b), E. reflexivity.
  - intros [E|[Ha Hb]].
    + destruct (D a) as [Ha|Ha].
      * rewrite (LS a Ha) in E. symmetry in E. rewrite (SL a b Ha E). reflexivity.
      * destruct (D b) as [Hb|Hb]; [rewrite (LS b Hb) in E; rewrite (SL b a Hb E); reflexivity|].
        rewrite (U a Ha), (U b Hb), (UL a), (UL b), E. reflexivity.
    + apply S in Ha, Hb. congruence.
Qed.
Theorem C88_constant_names : forall s t, const_name s = const_name t <-> alike s t.
Proof.
  induction s as [|a s IH]; intros [|b t].
  - split; [constructor|reflexivity].
  - rewrite (const_chars (String b t)). split; [discriminate|]. intros H. inversion H.
  - rewrite (const_chars (String a s)). split; [discriminate|]. intros H. inversion H.
  - rewrite (const_chars (String a s)), (const_chars (String b t)). split.
    + intros [= E1 E2]. constructor; [apply const_char_iff; exact E1|apply IH; exact E2].
    + intros H. inversion H as [|? ? ? ? E1 E2]; subst. apply const_char_iff in E1. apply IH in E2. rewrite E1, E2. reflexivity.
Qed.

(** ** Examples *)
Definition line (a b : string) : string := a ++ "=" ++ String q (b ++ String q (String nl "")).
Definition answer (t : string) : option N * string :=
  (Some 0%N, line "target_arch" "x86" ++ line "target_os" (if String.eqb t "a-b" then "solid_asp3" else "freebsd") ++ line "target_env" ""
    ++ line "target_endian" "little" ++ line "target_pointer_width" "32").
Definition page_of (digit : string) : list md :=
  [Md MHeading [text ("Tier " ++ digit)];
   Md MTable [row [cell [text "target"]; cell [text "notes"]]; row [cell [code "a-b"]; cell [text "first"]]; row [cell [code "c-d"]; cell []]]].
Definition small_run (digit listed : string) :=
  main (fun _ => Some "H") (fun _ => Some "F") (fun v => if String.eqb v "freebsd" then Some "FreeBSD" else None) (fun _ => false) as_text answer (Ok (page_of digit)) listed.
Theorem C88_nonvacuous :
  (exists files, small_run "1" ("a-b" ++ String nl ("c-d" ++ String nl "")) = (files, Ok tt) /\ List.length files = 6%nat
     /\ exists text, In ("src/platform/platforms.rs", text) files
        /\ contains ("pub(crate) const A_B: Platform = Platform {" ++ String nl "") text = true
        /\ contains "target_os: Os::SolidAsp3," text = true)
  /\ small_run "1" ("a-b" ++ String nl "") = ([], Err).
Proof.
  split; [|vm_compute; reflexivity].
  eexists. split; [vm_compute; reflexivity|]. split; [vm_compute; reflexivity|].
  eexists. split; [do 5 right; left; reflexivity|]. split; vm_compute; reflexivity.
Qed.
(** The files are not written all or none: a tier other than 1, 2 and 3 crashes the program when it writes the last file. *)
Theorem C88_all_or_nothing_refuted : exists files, small_run "4" ("a-b" ++ String nl ("c-d" ++ String nl "")) = (files, Panic)
  /\ List.length files = 6%nat.
Proof. eexists. split; vm_compute; reflexivity. Qed.
