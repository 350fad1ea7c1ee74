(** C34, C35 continued: blanks around and inside the text of a source; the order of sources. *)
From Coq Require Import List NArith Ascii String Bool Arith Lia.
From Verif Require Import Base StrLib PkgModel UrlModel UrlSpec UrlProofs PropsSource.
Import ListNotations.
Local Open Scope string_scope.

(** ** Blanks *)
(** A space or a control character before it. *)
Definition blank (s : string) : Prop := forall n a, String.get n s = Some a -> (N_of_ascii a <= 32)%N.
Definition line_char (a : ascii) : Prop := In (N_of_ascii a) [9; 10; 13]%N.

Lemma blank_forall s : blank s -> str_forall c0_or_space s = true.
Proof.
  induction s as [|a s IH]; intros H; [reflexivity|]. cbn [str_forall]. rewrite IH; [|intros n b; exact (H (S n) b)].
  unfold c0_or_space. rewrite (proj2 (N.leb_le _ _) (H 0%nat a eq_refl)). reflexivity.
Qed.
Lemma trim_blank P a s : str_forall P a = true -> trim_left P (a ++ s) = trim_left P s.
Proof. induction a as [|c a IH]; cbn [str_forall String.append trim_left]; [reflexivity|]. intros H. apply andb_prop in H as [-> H]. exact (IH H). Qed.
Lemma trim_stop P a s : str_forall P a = false -> trim_left P (a ++ s) = trim_left P a ++ s.
Proof.
  induction a as [|c a IH]; cbn [str_forall String.append trim_left]; [discriminate|]. intros H. destruct (P c); [exact (IH H)|reflexivity].
Qed.
Lemma trim_all P a : str_forall P a = true -> trim_left P a = "".
Proof. intros H. rewrite <- (sapp_nil_r a), (trim_blank P a "" H). reflexivity. Qed.
Lemma trim_keeps P a : str_forall P a = false -> str_forall P (trim_left P a) = false.
Proof. induction a as [|c a IH]; cbn [str_forall trim_left]; [discriminate|]. intros H. destruct (P c) eqn:E; [exact (IH H)|]. cbn [str_forall]. rewrite E. reflexivity. Qed.
Lemma trim_both_blanks P a m b : str_forall P a = true -> str_forall P b = true -> trim_both P (a ++ m ++ b) = trim_both P m.
Proof.
  intros A B. unfold trim_both. rewrite (trim_blank P a _ A). destruct (str_forall P m) eqn:M.
  - rewrite (trim_blank P m b M), (trim_all P b B), (trim_all P m M). reflexivity.
  - rewrite (trim_stop P m b M), srev_sapp, trim_blank by (rewrite str_forall_srev; exact B). reflexivity.
Qed.
Lemma drop_app P a b : drop_chars P (a ++ b) = drop_chars P a ++ drop_chars P b.
Proof. induction a as [|c a IH]; [reflexivity|]. cbn [String.append drop_chars]. rewrite IH. destruct (P c); reflexivity. Qed.
(** What trimming leaves of two parts, one of which may vanish. *)
Lemma clean_folds x c y : tab_or_newline c = true -> c0_or_space c = true -> clean_input (x ++ String c y) = clean_input (x ++ y).
Proof.
  intros T C. unfold clean_input. destruct (str_forall c0_or_space x) eqn:X.
  - rewrite <- (sapp_nil_r y) at 2. rewrite (trim_both_blanks c0_or_space x y "" X eq_refl). replace (x ++ String c y) with ((x ++ String c "") ++ (y ++ "")) by (rewrite sapp_assoc, sapp_nil_r; reflexivity).
    rewrite (trim_both_blanks c0_or_space (x ++ String c "") y ""); [reflexivity| |reflexivity]. rewrite str_forall_app, X. cbn [str_forall]. rewrite C. reflexivity.
  - destruct (str_forall c0_or_space y) eqn:Y.
    + pose proof (trim_both_blanks c0_or_space "" x y eq_refl Y) as E1. pose proof (trim_both_blanks c0_or_space "" x (String c y) eq_refl) as E2.
      change ("" ++ x ++ y) with (x ++ y) in E1. change ("" ++ x ++ String c y) with (x ++ String c y) in E2. rewrite E1, E2; [reflexivity|]. cbn [str_forall]. rewrite C, Y. reflexivity.
    + unfold trim_both. rewrite !(trim_stop _ x _ X). assert (R : forall z, str_forall c0_or_space z = false -> trim_left c0_or_space (srev (trim_left c0_or_space x ++ z)) = trim_left c0_or_space (srev z) ++ srev (trim_left c0_or_space x)).
      { intros z Z. rewrite srev_sapp. apply trim_stop. rewrite str_forall_srev. exact Z. }
      rewrite (R y Y), (R (String c y)) by (cbn [str_forall]; rewrite C, Y; reflexivity).
      rewrite srev_cons, trim_stop by (rewrite str_forall_srev; exact Y).
      rewrite !srev_sapp, !srev_involutive, !drop_app. f_equal. cbn. rewrite T. reflexivity.
Qed.
Lemma parse_clean norm s s' : clean_input s = clean_input s' -> url_parse norm s = url_parse norm s'.
Proof. intros E. unfold url_parse. rewrite E. reflexivity. Qed.
Lemma from_url_clean norm kind s s' : has_char "+" kind = false -> clean_input s = clean_input s' -> from_url norm (kind ++ "+" ++ s) = from_url norm (kind ++ "+" ++ s').
Proof.
  intros K E. unfold from_url. assert (P : forall z, split_once "+" (kind ++ "+" ++ z) = Some (kind, z)) by (intros z; apply split_once_spec; split; [reflexivity|exact K]).
  rewrite !P, (parse_clean norm s s' E). reflexivity.
Qed.

(** Blanks around the address do not matter; nor do tabs and line ends anywhere in it. *)
Theorem C34_blanks : forall norm kind a t b, ~ (exists n, String.get n kind = Some "+"%char) -> blank a -> blank b ->
  from_url norm (kind ++ "+" ++ a ++ t ++ b) = from_url norm (kind ++ "+" ++ t).
Proof.
  intros norm kind a t b K A B. apply from_url_clean.
  - destruct (has_char "+" kind) eqn:E; [|reflexivity]. exfalso. apply K. clear -E. induction kind as [|c k IH]; [discriminate|]. cbn [has_char] in E. apply orb_prop in E as [E|E].
    + apply Ascii.eqb_eq in E. subst c. exists 0%nat. reflexivity.
    + destruct (IH E) as (n & G). exists (S n). exact G.
  - unfold clean_input. rewrite trim_both_blanks by (apply blank_forall; assumption). reflexivity.
Qed.
Theorem C34_line_ends : forall norm kind x c y, ~ (exists n, String.get n kind = Some "+"%char) -> line_char c ->
  from_url norm (kind ++ "+" ++ x ++ String c y) = from_url norm (kind ++ "+" ++ x ++ y).
Proof.
  intros norm kind x c y K C. apply from_url_clean.
  - destruct (has_char "+" kind) eqn:E; [|reflexivity]. exfalso. apply K. clear -E. induction kind as [|d k IH]; [discriminate|]. cbn [has_char] in E. apply orb_prop in E as [E|E].
    + apply Ascii.eqb_eq in E. subst d. exists 0%nat. reflexivity.
    + destruct (IH E) as (n & G). exists (S n). exact G.
  - apply clean_folds; unfold tab_or_newline, c0_or_space; destruct C as [<-|[<-|[<-|[]]]]; reflexivity.
Qed.
Print Assumptions C34_blanks.
Example C34_blanks_nonvacuous : blank (String "009" " ") /\ line_char "010" /\
  from_url (fun s => Some s) (String.append "registry+ https://exa" (String "010" "mple.org ")) = from_url (fun s => Some s) "registry+https://example.org" /\
  from_url (fun s => Some s) "registry+https://example.org" <> Err.
Proof.
  split; [intros [|[|n]] a; cbn [String.get]; intros H; [| |destruct n; discriminate]; injection H as <-; cbv; discriminate|]. split; [right; left; reflexivity|]. split; [reflexivity|discriminate].
Qed.

(** ** The order of sources *)
(** Address first, then name (none before any), then: two git sources by their commits, if both have one; otherwise the kinds: git,
    path, registry, sparse, local registry, directory. *)
Definition text_before (a b : string) : Prop := str_cmp a b = Lt.
Definition name_before (a b : option string) : Prop :=
  match a, b with None, Some _ => True | Some x, Some y => text_before x y | _, None => False end.
Definition is_git (k : source_kind) : Prop := exists r, k = SGit r.
Definition kinds_listed : list (source_kind -> Prop) := [is_git; eq SPath; eq SRegistry; eq SSparseRegistry; eq SLocalRegistry; eq SDirectory].
Definition kind_before (a b : source_kind) : Prop :=
  exists i j A B, (i < j)%nat /\ nth_error kinds_listed i = Some A /\ nth_error kinds_listed j = Some B /\ A a /\ B b.
Definition source_before (a b : source_id) : Prop :=
  text_before (s_url a) (s_url b) \/
  (s_url a = s_url b /\ (name_before (s_name a) (s_name b) \/
    (s_name a = s_name b /\ ((is_git (s_kind a) /\ is_git (s_kind b) /\ exists x y, s_precise a = Some x /\ s_precise b = Some y /\ text_before x y) \/ kind_before (s_kind a) (s_kind b))))).
Lemma kind_place k : exists A, nth_error kinds_listed (source_kind_rank k) = Some A /\ A k.
Proof. destruct k as [r| | | | |]; eexists; (split; [reflexivity|]); try reflexivity. exists r. reflexivity. Qed.
Lemma kind_unique k i A : nth_error kinds_listed i = Some A -> A k -> i = source_kind_rank k.
Proof.
  intros N H. do 6 (destruct i as [|i]; [cbn in N; injection N as <-; first [subst k; reflexivity|destruct H as [r ->]; reflexivity]|]). destruct i; discriminate.
Qed.
Lemma kind_before_iff a b : kind_before a b <-> (source_kind_rank a < source_kind_rank b)%nat.
Proof.
  split.
  - intros (i & j & A & B & L & NA & NB & Ha & Hb). rewrite <- (kind_unique a i A NA Ha), <- (kind_unique b j B NB Hb). exact L.
  - intros L. destruct (kind_place a) as (A & NA & Ha), (kind_place b) as (B & NB & Hb). exists (source_kind_rank a), (source_kind_rank b), A, B. auto.
Qed.
Definition last_cmp (a b : source_id) : comparison :=
  match s_kind a, s_kind b with
   | SGit _, SGit _ => match s_precise a, s_precise b with Some x, Some y => str_cmp x y | _, _ => Eq end
   | x, y => source_kind_cmp x y end.
Lemma source_cmp_last a b : source_cmp a b = then_cmp (str_cmp (s_url a) (s_url b)) (then_cmp (option_cmp str_cmp (s_name a) (s_name b)) (last_cmp a b)).
Proof. reflexivity. Qed.
Lemma not_both_git a b : ~ (is_git (s_kind a) /\ is_git (s_kind b)) ->
  last_cmp a b = Nat.compare (source_kind_rank (s_kind a)) (source_kind_rank (s_kind b)).
Proof.
  intros N. unfold last_cmp. destruct (s_kind a) as [r| | | | |], (s_kind b) as [r'| | | | |]; try reflexivity. exfalso. apply N. split; eexists; reflexivity.
Qed.
Theorem C35_order : forall a b, source_cmp a b = Lt <-> source_before a b.
Proof.
  intros a b. rewrite source_cmp_last. unfold source_before, text_before. pose proof (fun x y => cmp_eq str_cmp str_cmp_laws x y) as Eqs.
  assert (Refl : forall x, str_cmp x x = Eq) by (intros x; apply (cmp_refl str_cmp str_cmp_laws)).
  assert (K : last_cmp a b = Lt <->
     (is_git (s_kind a) /\ is_git (s_kind b) /\ exists x y, s_precise a = Some x /\ s_precise b = Some y /\ text_before x y) \/ kind_before (s_kind a) (s_kind b)).
  { assert (D : (is_git (s_kind a) /\ is_git (s_kind b)) \/ ~ (is_git (s_kind a) /\ is_git (s_kind b))).
    { destruct (s_kind a) as [r| | | | |], (s_kind b) as [r'| | | | |]; try (right; intros [[? ?] [? ?]]; discriminate). left. split; eexists; reflexivity. }
    rewrite kind_before_iff. destruct D as [[[r Ea] [r' Eb]]|D].
    - unfold last_cmp. rewrite Ea, Eb. cbn [source_kind_rank]. split.
      + intros H. left. split; [exists r; reflexivity|]. split; [exists r'; reflexivity|]. destruct (s_precise a) as [x|], (s_precise b) as [y|]; try discriminate. exists x, y. auto.
      + intros [(_ & _ & x & y & -> & -> & H)|H]; [exact H|lia].
    - rewrite (not_both_git a b D), Nat.compare_lt_iff. split; [auto|]. intros [(H1 & H2 & _)|H]; [destruct (D (conj H1 H2))|exact H]. }
  rewrite <- K. clear K. generalize (last_cmp a b). intros k.
  assert (Eb : forall x y, x = y -> str_cmp x y = Eq) by (intros x y ->; apply Refl).
  destruct (str_cmp (s_url a) (s_url b)) eqn:U; cbn [then_cmp].
  - apply Eqs in U. unfold name_before. destruct (s_name a) as [x|], (s_name b) as [y|]; cbn [option_cmp then_cmp].
    + unfold text_before. destruct (str_cmp x y) eqn:N; cbn [then_cmp].
      * apply Eqs in N. subst y. split; [intros ->; right; split; [exact U|]; right; split; reflexivity|]. intros [H|[_ [H|[_ H]]]]; first [discriminate|exact H].
      * split; [intros _; right; split; [exact U|]; left; reflexivity|reflexivity].
      * split; [discriminate|]. intros [H|[_ [H|[H _]]]]; try discriminate. injection H as H. rewrite (Eb _ _ H) in N. discriminate.
    + split; [discriminate|]. intros [H|[_ [[]|[H _]]]]; discriminate.
    + split; [intros _; right; split; [exact U|]; left; exact Logic.I|reflexivity].
    + split; [intros ->; right; split; [exact U|]; right; split; reflexivity|]. intros [H|[_ [[]|[_ H]]]]; [discriminate|exact H].
  - tauto.
  - split; [discriminate|]. intros [H|[H _]]; [discriminate|]. rewrite (Eb _ _ H) in U. discriminate.
Qed.
Print Assumptions C35_order.
(** The kinds themselves (their order is public): git sources by reference: the default branch, tags, branches, commits, each by its text. *)
Definition reference_place (r : git_reference) : nat := match r with GDefaultBranch => 0 | GTag _ => 1 | GBranch _ => 2 | GRev _ => 3 end.
Inductive reference_before : git_reference -> git_reference -> Prop :=
| rb_place a b : (reference_place a < reference_place b)%nat -> reference_before a b
| rb_tag x y : text_before x y -> reference_before (GTag x) (GTag y)
| rb_branch x y : text_before x y -> reference_before (GBranch x) (GBranch y)
| rb_rev x y : text_before x y -> reference_before (GRev x) (GRev y).
Theorem C35_kind_order : forall a b, source_kind_cmp a b = Lt <-> kind_before a b \/ exists r r', a = SGit r /\ b = SGit r' /\ reference_before r r'.
Proof.
  intros a b. rewrite kind_before_iff. assert (D : (exists r r', a = SGit r /\ b = SGit r') \/ ~ (exists r r', a = SGit r /\ b = SGit r')).
  { destruct a, b; try (right; intros (? & ? & ? & ?); discriminate). left. eauto. }
  destruct D as [(r & r' & -> & ->)|D].
  - cbn [source_kind_cmp source_kind_rank]. transitivity (reference_before r r').
    + unfold git_reference_cmp, pair_cmp, git_reference_key, text_before. destruct r as [|x|x|x], r' as [|y|y|y]; cbn [fst snd Nat.compare then_cmp];
        (split; [intros H; first [discriminate|apply rb_place; cbn; lia|constructor; exact H]|intros H; inversion H; subst; cbn in *; first [lia|reflexivity|assumption]]).
    + split; [intros H; right; eauto|]. intros [H|(x & y & Ex & Ey & H)]; [lia|]. injection Ex as <-. injection Ey as <-. exact H.
  - transitivity (Nat.compare (source_kind_rank a) (source_kind_rank b) = Lt).
    + destruct a, b; try reflexivity. exfalso. apply D. eauto.
    + rewrite Nat.compare_lt_iff. split; [auto|]. intros [H|(r & r' & Ea & Eb & _)]; [exact H|]. exfalso. apply D. eauto.
Qed.
Example C35_order_nonvacuous : source_before (git_repo (GBranch "a") (Some "abc")) (git_repo (GBranch "a") (Some "abd")) /\
  kind_before SPath SRegistry /\ reference_before (GTag "z") (GBranch "a").
Proof. split; [apply C35_order; reflexivity|]. split; [apply kind_before_iff; cbn; lia|]. apply rb_place. cbn. lia. Qed.
