(** Property C87: the notes of a target. *)
From Coq Require Import List NArith Ascii String Bool Arith Lia.
From Verif Require Import Base StrLib IdModel PartsModel AssignModel PlatGenModel PlatGenSpec PropsPlatGen PropsPlatGen2.
Import ListNotations.
Local Open Scope string_scope.

(** [t] is [s] without the line feeds and carriage returns at its end. *)
Definition breaks (s : string) : Prop := str_forall (fun c => Ascii.eqb c (ascii_of_nat 10) || Ascii.eqb c (ascii_of_nat 13)) s = true.
Definition stripped (s t : string) : Prop :=
  exists e, s = t ++ e /\ breaks e /\ forall u c, t = u ++ String c "" -> c <> ascii_of_nat 10 /\ c <> ascii_of_nat 13.
(** Each `\` followed by [b] is dropped, from the left. *)
Inductive unescaped (b : ascii) : string -> string -> Prop :=
  | un_end : unescaped b "" ""
  | un_pair s t : unescaped b s t -> unescaped b (String "\" (String b s)) (String b t)
  | un_other c s t : (c = "\"%char -> forall r, s <> String b r) -> unescaped b s t -> unescaped b (String c s) (String c t).
(** The node does not count for the notes. *)
Definition skipped (n : md) : Prop :=
  match kind_of n with MSoftBreak | MLineBreak | MFootnoteReference _ => True | _ => False end.

Lemma drop_ends_spec s : exists e, s = e ++ drop_line_ends s /\ breaks e
  /\ forall c r, drop_line_ends s = String c r -> c <> ascii_of_nat 10 /\ c <> ascii_of_nat 13.
Proof.
  induction s as [|c s (e & E & B & F)].
  - exists "". split; [reflexivity|]. split; [reflexivity|]. discriminate.
  - cbn [drop_line_ends]. destruct (line_end c) eqn:L.
    + exists (String c e). split; [cbn [append]; rewrite <- E; reflexivity|]. split; [|exact F].
      unfold breaks in *. cbn [str_forall]. rewrite B, andb_true_r. exact L.
    + exists "". split; [reflexivity|]. split; [reflexivity|]. intros c' r [= <- <-]. unfold line_end in L.
      apply orb_false_iff in L as [L1 L2]. split; intros ->; [discriminate L1|discriminate L2].
Qed.
Lemma srev_app2 a b : srev (a ++ b) = srev b ++ srev a.
Proof. apply srev_sapp. Qed.
Lemma forall_srev P s : str_forall P (srev s) = str_forall P s.
Proof.
  induction s as [|c s IH]; [reflexivity|]. change (String c s) with (String c "" ++ s). rewrite srev_app2, !str_forall_app, IH. cbn. rewrite andb_true_r. apply andb_comm.
Qed.
Lemma strip_iff s t : trim_line_ends s = t <-> stripped s t.
Proof.
  unfold trim_line_ends. destruct (drop_ends_spec (srev s)) as (e & E & B & F).
  assert (S : stripped s (srev (drop_line_ends (srev s)))).
  { exists (srev e). split; [rewrite <- srev_app2, <- E; symmetry; apply srev_involutive|]. split; [unfold breaks; rewrite forall_srev; exact B|].
    intros u c H. apply (F c (srev u)). apply (f_equal srev) in H. rewrite srev_involutive, srev_app2 in H. exact H. }
  split; [intros <-; exact S|]. intros (e2 & E2 & B2 & F2). destruct S as (e1 & E1 & B1 & F1).
  set (t1 := srev (drop_line_ends (srev s))) in *. clearbody t1. clear E B F e.
  assert (G : forall a b e e', a ++ e = b ++ e' -> breaks e -> breaks e' ->
     (forall u c, a = u ++ String c "" -> c <> ascii_of_nat 10 /\ c <> ascii_of_nat 13) ->
     (forall u c, b = u ++ String c "" -> c <> ascii_of_nat 10 /\ c <> ascii_of_nat 13) -> a = b).
  { assert (K : forall a e e', a ++ e = e' -> breaks e' -> (forall u c, a = u ++ String c "" -> c <> ascii_of_nat 10 /\ c <> ascii_of_nat 13) -> a = "").
    { intros a e e' H B L. destruct a as [|x a]; [reflexivity|]. exfalso.
      assert (Hb : breaks (String x a)).
      { unfold breaks in *. rewrite <- H, str_forall_app in B. apply andb_prop in B as [B _]. exact B. }
      assert (Ex : exists u c, String x a = u ++ String c "").
      { clear. revert x. induction a as [|y a IH]; intros x; [now exists "", x|]. destruct (IH y) as (u & c & ->). now exists (String x u), c. }
      destruct Ex as (u & c & Eu). rewrite Eu in Hb, L. unfold breaks in Hb. rewrite str_forall_app in Hb. apply andb_prop in Hb as [_ Hb].
      cbn [str_forall] in Hb. rewrite andb_true_r in Hb. destruct (L u c eq_refl) as [L1 L2]. apply orb_prop in Hb as [Hb|Hb]; apply Ascii.eqb_eq in Hb; congruence. }
    induction a as [|x a IH]; intros b e e' H B B' La Lb.
    - symmetry. apply (K b e' e); [symmetry; exact H|exact B|exact Lb].
    - destruct b as [|y b].
      + apply (K (String x a) e e'); [exact H|exact B'|exact La].
      + cbn in H. injection H as <- H. f_equal. apply (IH b e e' H B B').
        * intros u c ->. apply (La (String x u) c). reflexivity.
        * intros u c ->. apply (Lb (String x u) c). reflexivity. }
  apply (G t1 t e1 e2); [congruence|exact B1|exact B2|exact F1|exact F2].
Qed.
Lemma unescape_iff b s t : unescape "\" b s = t <-> unescaped b s t.
Proof.
  assert (A : forall n s, (String.length s <= n)%nat -> unescaped b s (unescape "\" b s)).
  { induction n as [|n IH]; intros [|x [|y r]] L; cbn [String.length] in L; try lia; try constructor; try (intros _ r; discriminate); try constructor.
    cbn [unescape]. destruct (Ascii.eqb_spec x "\") as [->|Nx]; cbn [andb].
    - destruct (Ascii.eqb_spec y b) as [->|Ny].
      + constructor. apply IH. lia.
      + constructor; [intros _ r' [= ? _]; congruence|]. apply (IH (String y r)). cbn. lia.
    - constructor; [congruence|]. apply (IH (String y r)). cbn. lia. }
  split; [intros <-; apply (A (String.length s)); lia|].
  assert (U : forall s t1, unescaped b s t1 -> forall t2, unescaped b s t2 -> t1 = t2).
  { clear. intros s t1 H. induction H as [|s t H IH|c s t N H IH]; intros t2 K; inversion K as [|? ? K1|? ? ? N1 K1]; subst.
    - reflexivity.
    - f_equal. apply IH. exact K1.
    - destruct (N1 eq_refl s eq_refl).
    - destruct (N eq_refl _ eq_refl).
    - f_equal. apply IH. exact K1. }
  intros H. exact (U s _ (A (String.length s) s (le_n _)) t H).
Qed.

Section Notes.
  Context (format_node : md -> option string).
  (** The text collected from the nodes of a cell: each node that counts and can be formatted is appended, and line ends at the end
      are dropped each time. *)
  Inductive collected : list md -> string -> Prop :=
    | col_none : collected [] ""
    | col_skip l n t : skipped n \/ format_node n = None -> collected l t -> collected (l ++ [n]) t
    | col_add l n t f t' : ~ skipped n -> format_node n = Some f -> collected l t -> stripped (t ++ f) t' -> collected (l ++ [n]) t'.
  Lemma notes_snoc l n acc : notes_text format_node (l ++ [n]) acc =
    match kind_of n with
    | MSoftBreak | MLineBreak | MFootnoteReference _ => notes_text format_node l acc
    | _ => match format_node n with None => notes_text format_node l acc | Some t => trim_line_ends (notes_text format_node l acc ++ t) end
    end.
  Proof.
    revert acc. induction l as [|x l IH]; intros acc.
    - cbn [app notes_text]. destruct (kind_of n), (format_node n); reflexivity.
    - cbn [app notes_text]. destruct (kind_of x), (format_node x); rewrite ?IH; reflexivity.
  Qed.
  Lemma collected_iff l t : notes_text format_node l "" = t <-> collected l t.
  Proof.
    assert (A : forall l, collected l (notes_text format_node l "")).
    { clear. induction l as [|n l IH] using rev_ind; [constructor|]. rewrite notes_snoc.
      destruct (kind_of n) eqn:K; try (apply col_skip; [left; unfold skipped; rewrite K; exact Logic.I|exact IH]);
        (destruct (format_node n) as [f|] eqn:F; [|apply col_skip; [now right|exact IH]];
         apply (col_add l n (notes_text format_node l "") f); [unfold skipped; rewrite K; auto|exact F|exact IH|apply strip_iff; reflexivity]). }
    split; [intros <-; apply A|]. revert t. induction l as [|n l IH] using rev_ind; intros t H.
    - inversion H as [|l' n' t' _ _ E|l' n' t' f t'' _ _ _ _ E]; [reflexivity| |]; destruct l'; discriminate.
    - rewrite notes_snoc. inversion H as [E|l' n' t' C K E|l' n' t' f t'' C F K S E].
      + destruct l; discriminate.
      + apply app_inj_tail in E as [-> ->]. apply IH in K. destruct C as [C|C].
        * unfold skipped in C. destruct (kind_of n); try contradiction; exact K.
        * rewrite C. destruct (kind_of n); exact K.
      + apply app_inj_tail in E as [-> ->]. apply IH in K. unfold skipped in C.
        rewrite F, K. apply strip_iff in S. destruct (kind_of n); try exact S; destruct (C Logic.I).
  Qed.
  (** The notes are what is collected, without white space at the end and without the backslashes before `_` and `-`. *)
  Theorem C87_notes : forall cell text,
    notes_of format_node cell = text
    <-> exists t u, collected (kids cell) t /\ unescaped "_" (trim_end t) u /\ unescaped "-" u text.
  Proof.
    intros cell text. unfold notes_of, clean_notes. split.
    - intros H. eexists. eexists. split; [apply collected_iff; reflexivity|]. split; [apply unescape_iff; reflexivity|]. apply unescape_iff. exact H.
    - intros (t & u & C & U1 & U2). apply collected_iff in C. rewrite C. apply unescape_iff in U1. rewrite U1. apply unescape_iff. exact U2.
  Qed.
End Notes.
