(** Property C88: the exact names of the variants of the generated enumerations. *)
From Coq Require Import List NArith Ascii String Bool Arith Lia.
From Verif Require Import Base StrLib IdModel PartsModel ConfigModel AssignModel PlatGenModel PlatGenSpec PropsPlatGen PropsPlatGen2 PropsPlatGen4 PlatNameSpec.
Import ListNotations.
Local Open Scope string_scope.

Lemma lower_char c : (exists small, ascii_lower c = small /\ In (small, c) alphabet)
  \/ (ascii_lower c = c /\ forall small, ~ In (small, c) alphabet).
Proof.
  destruct c as [[|] [|] [|] [|] [|] [|] [|] [|]]; vm_compute;
    first [left; eexists; split; [reflexivity|tauto]
          |right; split; [reflexivity|]; intros small H; repeat (destruct H as [H|H]; [discriminate H|]); exact H].
Qed.
Lemma lowered_fun s : lowered s (to_ascii_lowercase s).
Proof.
  induction s as [|c s IH]; [constructor|]. cbn [to_ascii_lowercase].
  destruct (lower_char c) as [(m & -> & I)|[-> N]]; [now apply lowered_capital|now apply lowered_other].
Qed.
Lemma alphabet_fun a b c : In (a, c) alphabet -> In (b, c) alphabet -> a = b.
Proof.
  intros H1 H2. destruct (lower_char c) as [(m & E & I)|[E N]]; [|destruct (N _ H1)].
  assert (forall x y, In (x, y) alphabet -> x = ascii_lower y).
  { clear. intros x y H. vm_compute in H. repeat (destruct H as [H|H]; [injection H as <- <-; reflexivity|]). destruct H. }
  rewrite (H _ _ H1), (H _ _ H2). reflexivity.
Qed.
Lemma lowered_unique s t : lowered s t -> t = to_ascii_lowercase s.
Proof.
  induction 1 as [|m c s t I _ ->|c s t N _ ->]; [reflexivity| |]; cbn [to_ascii_lowercase]; f_equal;
    destruct (lower_char c) as [(m' & E & I')|[E N']].
  - rewrite E. exact (alphabet_fun _ _ _ I I').
  - destruct (N' _ I).
  - destruct (N _ I').
  - now rewrite E.
Qed.

Definition word_of (w : string) : string :=
  match w with
  | EmptyString => ""
  | String c r => if is_dig c then String "_" w else if is_lower c then String (ascii_upper c) r else w
  end.
Lemma dig_char c : is_dig c = true <-> In c digits.
Proof.
  destruct c as [[|] [|] [|] [|] [|] [|] [|] [|]]; vm_compute; split; intros H; try discriminate H; try reflexivity; try tauto;
    repeat (destruct H as [H|H]; [discriminate H|]); destruct H.
Qed.
Lemma low_char c : if is_lower c then In (c, ascii_upper c) alphabet else forall big, ~ In (c, big) alphabet.
Proof.
  destruct c as [[|] [|] [|] [|] [|] [|] [|] [|]]; vm_compute; try tauto;
    intros big H; repeat (destruct H as [H|H]; [discriminate H|]); destruct H.
Qed.
Lemma upper_fun c big : In (c, big) alphabet -> big = ascii_upper c /\ is_lower c = true /\ is_dig c = false.
Proof. intros H. vm_compute in H. repeat (destruct H as [H|H]; [injection H as <- <-; repeat split; reflexivity|]). destruct H. Qed.
Lemma capitalized_iff w t : capitalized w t <-> t = word_of w.
Proof.
  split.
  - intros [|m b r I|d r I|c r N1 N2]; cbn [word_of]; [reflexivity| | |].
    + destruct (upper_fun _ _ I) as (-> & -> & ->). reflexivity.
    + rewrite (proj2 (dig_char d) I). reflexivity.
    + destruct (is_dig c) eqn:D; [destruct N2; apply dig_char, D|].
      pose proof (low_char c) as L. destruct (is_lower c); [destruct (N1 _ L)|reflexivity].
  - intros ->. destruct w as [|c r]; cbn [word_of]; [constructor|].
    destruct (is_dig c) eqn:D; [constructor; now apply dig_char|].
    pose proof (low_char c) as L. destruct (is_lower c); [now constructor|]. constructor; [exact L|]. rewrite <- dig_char. congruence.
Qed.
Lemma words_iff ws ts : Forall2 capitalized ws ts <-> ts = map word_of ws.
Proof.
  revert ts. induction ws as [|w ws IH]; intros ts; split.
  - now inversion 1.
  - intros ->. constructor.
  - intros H. inversion H as [|? ? ? ? E1 E2]; subst. apply capitalized_iff in E1. apply IH in E2. now subst.
  - intros ->. cbn [map]. constructor; [now apply capitalized_iff|now apply IH].
Qed.
Lemma concat_nil_cons x l : String.concat "" (x :: l) = x ++ String.concat "" l.
Proof. destruct l; cbn [String.concat]; [now rewrite sapp_nil_r|reflexivity]. Qed.
Lemma dig_not_under c : is_dig c = true -> Ascii.eqb c "_" = false.
Proof. destruct c as [[|] [|] [|] [|] [|] [|] [|] [|]]; cbn; congruence. Qed.
Lemma title_words s : titlecase true s = String.concat "" (map word_of (split_on "_" s))
  /\ titlecase false s = match split_on "_" s with [] => "" | w :: ws => w ++ String.concat "" (map word_of ws) end.
Proof.
  induction s as [|c s [IH1 IH2]]; [now split|]. cbn [titlecase split_on].
  destruct (Ascii.eqb c "_") eqn:U.
  - split; [|exact IH1]. cbn [map]. rewrite concat_nil_cons. exact IH1.
  - pose proof (split_on_nonempty "_" s) as N. destruct (split_on "_" s) as [|w ws] eqn:E; [congruence|].
    cbn [andb]. split; [|cbn [append]; now rewrite IH2].
    cbn [map]. rewrite concat_nil_cons. cbn [word_of]. rewrite IH2.
    destruct (is_dig c); [reflexivity|]. destruct (is_lower c); reflexivity.
Qed.
Lemma in_words_iff s t : in_words s t <-> t = titlecase true s.
Proof.
  unfold in_words. rewrite (proj1 (title_words s)). split.
  - intros (ws & H & ->). apply words_iff in H. now subst.
  - intros ->. exists (map word_of (split_on "_" s)). split; [now apply words_iff|reflexivity].
Qed.
Lemma special_iff low : match lookup_key special_names low with Some n => In (low, n) renamed | None => ~ In low (map fst renamed) end.
Proof.
  unfold lookup_key. destruct (find _ special_names) as [[k w]|] eqn:F.
  - apply find_some in F as [I F]. cbn in F. apply String.eqb_eq in F. subst k. cbn [snd].
    cbn [special_names In] in I. cbn [renamed In]. tauto.
  - intros I. assert (F' := fun p => find_none _ _ F p). cbn [renamed map fst In] in I.
    repeat (destruct I as [<-|I]; [revert F; cbn; discriminate|]). exact I.
Qed.
Lemma renamed_fun low a b : In (low, a) renamed -> In (low, b) renamed -> a = b.
Proof.
  assert (ND : forall l : list (string * string), NoDup (map fst l) -> In (low, a) l -> In (low, b) l -> a = b).
  { induction l as [|[k v] l IH]; [intros _ []|]. intros ND. inversion ND as [|? ? N1 N2]; subst. intros [E|E] [F|F].
    - congruence.
    - injection E as -> ->. destruct N1. apply in_map with (f := fst) in F. exact F.
    - injection F as -> ->. destruct N1. apply in_map with (f := fst) in E. exact E.
    - now apply IH. }
  apply ND. cbn [renamed map fst]. repeat (constructor; [cbn [In]; intuition discriminate|]). constructor.
Qed.
Lemma suffix_none e s : strip_suffix e s = None -> forall x, s <> x ++ e.
Proof. intros H x ->. destruct (strip_suffix e (x ++ e)) eqn:E; [discriminate|]. rewrite (proj2 (strip_suffix_spec e (x ++ e) x) eq_refl) in E. discriminate. Qed.
Lemma no_both x y : x ++ "os" <> y ++ "bsd".
Proof.
  intros H. apply (f_equal srev) in H. rewrite !srev_sapp in H. cbn in H. discriminate H.
Qed.

(** The name of a variant is the one the specification gives, and no other. *)
Theorem C88_variant_names : forall value name, variant_name value = name <-> names value name.
Proof.
  intros value name.
  assert (A : names value (variant_name value)).
  { unfold variant_name. pose proof (special_iff (to_ascii_lowercase value)) as S.
    destruct (lookup_key special_names (to_ascii_lowercase value)) as [n|].
    - eapply names_renamed; [apply lowered_fun|exact S].
    - unfold upper_ending. destruct (strip_suffix "os" _) as [x|] eqn:E1; [|destruct (strip_suffix "bsd" _) as [x|] eqn:E2].
      + apply strip_suffix_spec in E1. eapply names_os; [apply lowered_fun|exact S|]. now apply in_words_iff.
      + apply strip_suffix_spec in E2. eapply names_bsd; [apply lowered_fun|exact S|]. now apply in_words_iff.
      + eapply names_other; [apply lowered_fun|exact S|now apply in_words_iff|apply suffix_none, E1|apply suffix_none, E2]. }
  split; [intros <-; exact A|].
  assert (No : forall low n m, lowered value low -> In (low, n) renamed -> lowered value m -> ~ In m (map fst renamed) -> False).
  { intros low n m L I M N. apply lowered_unique in L, M. subst. apply N. exact (in_map fst _ _ I). }
  intros B.
  destruct A as [low n L I|low x L N W|low x L N W|low n L N W N1 N2]; destruct B as [low' n' L' I'|low' x' L' N' W'|low' x' L' N' W'|low' n' L' N' W' N1' N2'];
    try (exfalso; first [exact (No _ _ _ L I L' N')|exact (No _ _ _ L' I' L N)]);
    apply lowered_unique in L, L'; subst low low'; try (exact (renamed_fun _ _ _ I I'));
    apply in_words_iff in W, W'.
  - f_equal. apply sapp_inj_r with (p := "os"). congruence.
  - destruct (no_both x x'). congruence.
  - destruct (N1' x). congruence.
  - destruct (no_both x' x). congruence.
  - f_equal. apply sapp_inj_r with (p := "bsd"). congruence.
  - destruct (N2' x). congruence.
  - destruct (N1 x'). congruence.
  - destruct (N2 x'). congruence.
  - congruence.
Qed.

(** ** The warning switched off *)
Definition first_is (p : ascii -> Prop) (s : string) : Prop := exists c r, s = String c r /\ p c.
Lemma low_letter c : is_lower c = true <-> exists big, In (c, big) alphabet.
Proof. pose proof (low_char c) as L. destruct (is_lower c); split; [eauto|reflexivity|discriminate|intros [b I]; destruct (L b I)]. Qed.
(** A variant is marked when it starts with a small letter: in ASCII, one of the alphabet; outside, as Unicode says. *)
Theorem C88_marked_variants : forall wide s, low wide s = true <->
  first_is (fun c => exists big, In (c, big) alphabet) s \/ (first_is (fun c => 128 <= nat_of_ascii c)%nat s /\ wide s = true).
Proof.
  intros wide s. unfold low, starts_lowercase, first_is. destruct s as [|c r].
  - split; [discriminate|]. intros [(c & r & [=] & _)|[(c & r & [=] & _) _]].
  - assert (Nc : (128 <= nat_of_ascii c)%nat <-> ~ (N_of_ascii c < 128)%N) by (unfold nat_of_ascii; lia).
    destruct (N.ltb_spec (N_of_ascii c) 128) as [H|H].
    + rewrite low_letter. split.
      * intros I. left. eauto.
      * intros [(c' & r' & [= <- <-] & I)|[(c' & r' & [= <- <-] & I) _]]; [exact I|]. apply Nc in I. contradiction.
    + split.
      * intros W. right. split; [|exact W]. exists c, r. split; [reflexivity|]. apply Nc. lia.
      * intros [(c' & r' & [= <- <-] & I)|[_ W]]; [|exact W].
        apply low_letter in I. exfalso. unfold is_lower in I. apply andb_prop in I as [_ I]. apply N.leb_le in I. lia.
Qed.
Lemma title_first s c r : titlecase true s = String c r -> is_lower c = false.
Proof.
  induction s as [|a s IH]; [discriminate|]. cbn [titlecase andb]. destruct (Ascii.eqb a "_"); [exact IH|].
  destruct (is_dig a); [now intros [= <- _]|]. destruct (is_lower a) eqn:L; intros [= <- _]; [|exact L].
  revert L. destruct a as [[|] [|] [|] [|] [|] [|] [|] [|]]; vm_compute; congruence.
Qed.
(** Among values in ASCII, that is `ios` alone. *)
Theorem C88_marked_values : forall wide v, str_forall (fun c => Nat.ltb (nat_of_ascii c) 128) v = true ->
  (low wide (variant_name v) = true <-> lowered v "ios").
Proof.
  intros wide v A. split.
  - intros H. apply C88_marked_variants in H.
    assert (Asc : forall s, str_forall (fun c => Nat.ltb (nat_of_ascii c) 128) s = true -> str_forall (fun c => Nat.ltb (nat_of_ascii c) 128) (to_ascii_lowercase s) = true).
    { clear. induction s as [|c s IH]; [reflexivity|]. cbn [to_ascii_lowercase str_forall]. intros H. apply andb_prop in H as [H1 H2].
      rewrite (IH H2), andb_true_r. revert H1. destruct c as [[|] [|] [|] [|] [|] [|] [|] [|]]; vm_compute; congruence. }
    assert (AT : forall b s, str_forall (fun c => Nat.ltb (nat_of_ascii c) 128) s = true -> str_forall (fun c => Nat.ltb (nat_of_ascii c) 128) (titlecase b s) = true).
    { clear. intros b s. revert b. induction s as [|c s IH]; intros b; [reflexivity|]. cbn [titlecase str_forall]. intros H. apply andb_prop in H as [H1 H2].
      destruct (Ascii.eqb c "_"); [now apply IH|]. destruct (b && is_dig c).
      - cbn [str_forall]. rewrite H1, (IH _ H2). reflexivity.
      - destruct (b && is_lower c); cbn [str_forall]; rewrite (IH _ H2), andb_true_r; [|exact H1].
        revert H1. destruct c as [[|] [|] [|] [|] [|] [|] [|] [|]]; vm_compute; congruence. }
    specialize (AT true _ (Asc _ A)).
    assert (F : forall x e, titlecase true (to_ascii_lowercase v) = x ++ e -> e <> "" -> first_is (fun c => is_lower c = false /\ (nat_of_ascii c < 128)%nat) x \/ x = "").
    { intros x e E Ne. destruct x as [|c x]; [now right|]. left. exists c, x. split; [reflexivity|]. split; [exact (title_first _ c (x ++ e) E)|].
      rewrite E in AT. cbn [append str_forall] in AT. apply andb_prop in AT as [AT _]. now apply Nat.ltb_lt. }
    assert (Contra : forall s, first_is (fun c => is_lower c = false /\ (nat_of_ascii c < 128)%nat) s ->
       first_is (fun c => exists big, In (c, big) alphabet) s \/ (first_is (fun c => 128 <= nat_of_ascii c)%nat s /\ wide s = true) -> False).
    { intros s (c & r & -> & L & B) [(c' & r' & [= <- <-] & I)|[(c' & r' & [= <- <-] & I) _]]; [|lia].
      apply low_letter in I. congruence. }
    assert (End : forall x e, first_is (fun c => is_lower c = false /\ (nat_of_ascii c < 128)%nat) x \/ x = "" -> first_is (fun c => is_lower c = false /\ (nat_of_ascii c < 128)%nat) e ->
       first_is (fun c => is_lower c = false /\ (nat_of_ascii c < 128)%nat) (x ++ e)).
    { intros x e [(c & r & -> & P)| ->] Fe; [|exact Fe]. exists c, (r ++ e). now split. }
    unfold variant_name in H. pose proof (special_iff (to_ascii_lowercase v)) as S.
    destruct (lookup_key special_names (to_ascii_lowercase v)) as [n|].
    + assert (I : to_ascii_lowercase v = "ios").
      { cbn [renamed In] in S.
        repeat (destruct S as [S|S]; [injection S as Sa <-; first [symmetry; exact Sa | exfalso; refine (Contra _ _ H); do 2 eexists; split; [reflexivity|split; [reflexivity|apply Nat.ltb_lt; reflexivity]]]|]).
        destruct S. }
      rewrite <- I. apply lowered_fun.
    + exfalso. unfold upper_ending in H. destruct (strip_suffix "os" _) as [x|] eqn:E1; [|destruct (strip_suffix "bsd" _) as [x|] eqn:E2].
      * apply strip_suffix_spec in E1. refine (Contra _ (End _ _ (F x "os" E1 ltac:(discriminate)) _) H). do 2 eexists; split; [reflexivity|split; [reflexivity|apply Nat.ltb_lt; reflexivity]].
      * apply strip_suffix_spec in E2. refine (Contra _ (End _ _ (F x "bsd" E2 ltac:(discriminate)) _) H). do 2 eexists; split; [reflexivity|split; [reflexivity|apply Nat.ltb_lt; reflexivity]].
      * destruct (titlecase true (to_ascii_lowercase v)) as [|c r] eqn:E.
        -- destruct H as [(c & r & [=] & _)|[(c & r & [=] & _) _]].
        -- cbn [str_forall] in AT. apply andb_prop in AT as [AT _]. apply Nat.ltb_lt in AT.
           eapply Contra; [|exact H]. exists c, r. split; [reflexivity|]. split; [exact (title_first _ _ _ E)|exact AT].
  - intros L. apply lowered_unique in L. unfold variant_name. rewrite <- L. reflexivity.
Qed.

(** The enumeration of each key; any other key crashes the generator. *)
Theorem C88_enumeration_names : forall key,
  (forall name, enum_name key = Ok name <-> enum_of_key key name \/ key = "tier" /\ name = "Tier")
  /\ ((forall name, ~ enum_of_key key name) -> key <> "tier" -> enum_name key = Panic).
Proof.
  intros key.
  assert (A : forall name, enum_name key = Ok name <-> enum_of_key key name \/ key = "tier" /\ name = "Tier").
  { intros name. split.
    - unfold enum_name, or_panic, lookup_key. destruct (find _ _) as [[k w]|] eqn:F; [|discriminate]. intros [= <-].
      apply find_some in F as [I F]. cbn in F. apply String.eqb_eq in F. subst k. cbn [snd].
      unfold enum_of_key. cbn [In] in I |- *. destruct I as [I|[I|[I|[I|[I|[I|[]]]]]]]; injection I as <- <-; tauto.
    - intros [H|[-> ->]]; [now apply enum_of_key_name|reflexivity]. }
  split; [exact A|]. intros N1 N2.
  destruct (enum_name key) as [n| |] eqn:E; [|unfold enum_name, or_panic in E; destruct (lookup_key _ key); discriminate|reflexivity].
  exfalso. destruct (proj1 (A n) eq_refl) as [H|[H _]]; [exact (N1 n H)|exact (N2 H)].
Qed.

Theorem C88_names_nonvacuous : variant_name "x86_64" = "X86_64" /\ variant_name "MacOS" = "MacOS" /\ variant_name "loongarch64" = "Loongarch64"
  /\ variant_name "solid_asp3" = "SolidAsp3" /\ variant_name "AArch64" = "AArch64" /\ low (fun _ => false) (variant_name "iOS") = true.
Proof. repeat split; reflexivity. Qed.
