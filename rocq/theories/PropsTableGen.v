(** C94: the table of platforms. *)
From Coq Require Import List NArith Ascii String Bool Arith Lia Permutation.
From Verif Require Import Base StrLib PlatData PartsModel OsvAdvModel PlatGenModel TableGenModel TableGenSpec PropsPlatGen4.
Import ListNotations.
Local Open Scope string_scope.
Local Infix "++" := String.append (right associativity, at level 60).
Local Notation NL := (String nl "").

(** ** The widest name *)
Lemma widest_spec l w : widest l = Some w <-> In w l /\ forall x, In x l -> (x <= w)%nat.
Proof.
  assert (X : forall x r, In (fold_right Nat.max x r) (x :: r) /\ forall y, In y (x :: r) -> (y <= fold_right Nat.max x r)%nat).
  { intros x r. induction r as [|a r [I B]]; [split; [left; reflexivity|intros y [<-|[]]; cbn; lia]|]. cbn [fold_right]. split.
    - destruct (Nat.max_spec a (fold_right Nat.max x r)) as [[_ ->]|[_ ->]]; [|right; left; reflexivity].
      destruct I as [I|I]; [left; exact I|right; right; exact I].
    - intros y [<-|[<-|I2]]; [specialize (B x (or_introl eq_refl)); lia|lia|specialize (B y (or_intror I2)); lia]. }
  destruct l as [|x r]; [split; [discriminate|intros [[] _]]|]. cbn [widest]. destruct (X x r) as [I B]. split.
  - intros H. injection H as <-. split; assumption.
  - intros [I' B']. f_equal. apply Nat.le_antisymm; [apply B', I|apply B, I'].
Qed.
(** [w] is the length of the longest of the names. *)
Definition longest (names : list string) (w : nat) : Prop :=
  (exists s, In s names /\ String.length s = w) /\ forall s, In s names -> (String.length s <= w)%nat.
Lemma widest_longest {A} (f : A -> string) ps w : widest (map (fun p => String.length (f p)) ps) = Some w <-> longest (map f ps) w.
Proof.
  rewrite widest_spec. unfold longest. rewrite <- (map_map f String.length). split.
  - intros [I B]. apply in_map_iff in I as (s & E & I). split; [exists s; auto|]. intros t J. apply B, in_map, J.
  - intros [(s & I & <-) B]. split; [apply in_map, I|]. intros x J. apply in_map_iff in J as (t & <- & J). apply B, J.
Qed.
(** *** C94: a table is written exactly if the widths the program assumes for targets and systems are those of the platforms; otherwise
    it stops before writing anything. *)
Theorem C94_runs : forall ps,
  ((exists text, table_gen ps = Ok text) <-> longest (map pf_triple ps) 36 /\ longest (map (fun p => os_str (pf_os p)) ps) 10) /\
  (table_gen ps = Panic \/ exists text, table_gen ps = Ok text).
Proof.
  intros ps. rewrite <- !widest_longest. unfold table_gen. destruct (widest (map (fun p => String.length (pf_triple p)) ps)) as [w|]; cbn [or_panic obind].
  2:{ split; [|left; reflexivity]. split; [intros [? H]; discriminate|intros [H _]; discriminate]. }
  destruct (Nat.eqb_spec w TARGET_TRIPLE_WIDTH) as [->|N]; cbn [negb].
  2:{ split; [|left; reflexivity]. split; [intros [? H]; discriminate|intros [H _]]. exfalso. apply N. injection H as ->. reflexivity. }
  destruct (widest (map (fun p => String.length (os_str (pf_os p))) ps)) as [v|]; cbn [or_panic obind].
  2:{ split; [|left; reflexivity]. split; [intros [? H]; discriminate|intros [_ H]; discriminate]. }
  destruct (Nat.eqb_spec v TARGET_OS_WIDTH) as [->|N]; cbn [negb].
  2:{ split; [|left; reflexivity]. split; [intros [? H]; discriminate|intros [_ H]]. exfalso. apply N. injection H as ->. reflexivity. }
  split; [|right; eexists; reflexivity]. split; [intros _; split; reflexivity|intros _; eexists; reflexivity].
Qed.
Lemma gen_text ps text : table_gen ps = Ok text ->
  text = entries None (sort_list by_tier ps) ++ NL ++ fold_right (fun p s => platform_link p ++ s) "" ps.
Proof.
  unfold table_gen. destruct (or_panic _) as [w| |]; cbn [obind]; try discriminate. destruct (negb _); try discriminate.
  destruct (or_panic _) as [v| |]; cbn [obind]; try discriminate. destruct (negb _); try discriminate. congruence.
Qed.

(** ** Sorting by tier *)
Lemma of_tier_iff t p ps : In p (of_tier t ps) <-> In p ps /\ pf_tier p = t.
Proof. unfold of_tier. rewrite filter_In. destruct (pf_tier p), t; split; intros [? ?]; split; try assumption; try discriminate; reflexivity. Qed.
Lemma insert_group p (l1 l2 l3 : list platform) :
  Forall (fun q => pf_tier q = TierOne) l1 -> Forall (fun q => pf_tier q = TierTwo) l2 -> Forall (fun q => pf_tier q = TierThree) l3 ->
  insert_sorted by_tier p (app l1 (app l2 l3)) =
    match pf_tier p with TierOne => p :: app l1 (app l2 l3) | TierTwo => app l1 (p :: app l2 l3) | TierThree => app l1 (app l2 (p :: l3)) end.
Proof.
  intros F1 F2 F3. destruct (pf_tier p) eqn:T.
  - destruct (app l1 (app l2 l3)) as [|q r] eqn:E; [reflexivity|]. cbn [insert_sorted]. unfold by_tier. rewrite T. destruct (pf_tier q); reflexivity.
  - induction F1 as [|q r Q F1 IH]; [|cbn [app insert_sorted]; unfold by_tier at 1; rewrite T, Q; cbn [tier_rank Nat.compare]; f_equal; exact IH].
    cbn [app]. destruct l2 as [|q2 r2]; cbn [app].
    + destruct l3 as [|q3 r3]; [reflexivity|]. cbn [insert_sorted]. unfold by_tier. inversion F3 as [|? ? Q3 _ E]. rewrite T, Q3. reflexivity.
    + cbn [insert_sorted]. unfold by_tier. inversion F2 as [|? ? Q2 _ E]. rewrite T, Q2. reflexivity.
  - induction F1 as [|q r Q F1 IH]; [|cbn [app insert_sorted]; unfold by_tier at 1; rewrite T, Q; cbn [tier_rank Nat.compare]; f_equal; exact IH].
    cbn [app]. induction F2 as [|q r Q F2 IH]; [|cbn [app insert_sorted]; unfold by_tier at 1; rewrite T, Q; cbn [tier_rank Nat.compare]; f_equal; exact IH].
    cbn [app]. destruct l3 as [|q3 r3]; [reflexivity|]. cbn [insert_sorted]. unfold by_tier. inversion F3 as [|? ? Q3 _ E]. rewrite T, Q3. reflexivity.
Qed.
Lemma all_of_tier t ps : Forall (fun q => pf_tier q = t) (of_tier t ps).
Proof. apply Forall_forall. intros p I. apply of_tier_iff in I. exact (proj2 I). Qed.
Lemma sorted_by_tier ps : sort_list by_tier ps = app (of_tier TierOne ps) (app (of_tier TierTwo ps) (of_tier TierThree ps)).
Proof.
  induction ps as [|p ps IH]; [reflexivity|]. unfold sort_list in *. cbn [fold_right]. rewrite IH, insert_group by apply all_of_tier.
  unfold of_tier. cbn [filter]. destruct (pf_tier p); reflexivity.
Qed.

(** ** The text, line by line *)
Fixpoint unlines (l : list string) : string := match l with [] => "" | x :: r => x ++ String line_end (unlines r) end.
Lemma unlines_app a b : unlines (app a b) = unlines a ++ unlines b.
Proof. induction a as [|x a IH]; [reflexivity|]. cbn [app unlines]. rewrite IH, sapp_assoc. reflexivity. Qed.
Lemma split_unlines l : Forall (fun x => has_char line_end x = false) l -> split_on line_end (unlines l) = app l [""].
Proof. induction 1 as [|x l X F IH]; [reflexivity|]. cbn [unlines app]. rewrite split_on_app by exact X. rewrite IH. reflexivity. Qed.
Definition entry_line (p : platform) : string :=
  "| " ++ pad_right 38 ("[" ++ pf_triple p ++ "]") ++ " | " ++ pad_right 11 (arch_str (pf_arch p)) ++ " | "
  ++ pad_right 10 (os_str (pf_os p)) ++ " | " ++ pad_right 10 (env_str (pf_env p)) ++ " |".
Definition link_line (p : platform) : string :=
  "[" ++ pf_triple p ++ "]: https://docs.rs/platforms/latest/platforms/platform/constant."
  ++ replace_char "-" "_" (to_ascii_uppercase (pf_triple p)) ++ ".html".
Definition header_lines (t : tier) : list string :=
  ["### " ++ title_of t; ""; "| target triple                          | target_arch | target_os  | target_env |";
   "|----------------------------------------|-------------|------------|------------|"].
Definition section (t : tier) (ps : list platform) : list string :=
  match of_tier t ps with [] => [] | l => app (header_lines t) (map entry_line l) end.
Lemma entry_text p : platform_entry p = unlines [entry_line p].
Proof. unfold platform_entry, entry_line. cbn [unlines]. rewrite !sapp_assoc. reflexivity. Qed.
Lemma link_text p : platform_link p = unlines [link_line p].
Proof. unfold platform_link, link_line. cbn [unlines]. rewrite !sapp_assoc. reflexivity. Qed.
Lemma header_text t : table_header t = unlines (header_lines t).
Proof. destruct t; reflexivity. Qed.
Lemma links_text ps : fold_right (fun p s => platform_link p ++ s) "" ps = unlines (map link_line ps).
Proof. induction ps as [|p ps IH]; [reflexivity|]. cbn [fold_right map]. rewrite IH, link_text. cbn [unlines]. rewrite !sapp_assoc. reflexivity. Qed.
Lemma same_tier_iff a b : same_tier a b = true <-> a = b.
Proof. destruct a, b; split; intros H; try reflexivity; discriminate. Qed.
Lemma entries_group t ps r : Forall (fun q => pf_tier q = t) ps -> entries (Some t) (app ps r) = unlines (map entry_line ps) ++ entries (Some t) r.
Proof.
  induction 1 as [|p ps P F IH]; [reflexivity|]. cbn [app entries map]. rewrite P, (proj2 (same_tier_iff t t) eq_refl), IH, entry_text.
  cbn [String.append]. cbn [unlines]. rewrite !sapp_assoc. reflexivity.
Qed.
Lemma entries_start cur t p ps r : cur <> Some t -> Forall (fun q => pf_tier q = t) (p :: ps) ->
  entries cur (app (p :: ps) r) =
    (match cur with Some _ => NL | None => "" end) ++ unlines (app (header_lines t) (map entry_line (p :: ps))) ++ entries (Some t) r.
Proof.
  intros C F. pose proof (Forall_inv F) as P. cbn beta in P. cbn [app entries]. rewrite P, (entries_group t ps r (Forall_inv_tail F)), unlines_app, <- header_text.
  assert (E : match cur with Some t0 => same_tier t0 t | None => false end = false).
  { destruct cur as [t0|]; [|reflexivity]. destruct (same_tier t0 t) eqn:S; [|reflexivity]. apply same_tier_iff in S. subst t0. exfalso. apply C. reflexivity. }
  rewrite E, entry_text. cbn [map unlines]. rewrite !sapp_assoc. reflexivity.
Qed.
(** The lines of the sections, with an empty line between two of them. *)
Definition glue (a b : list string) : list string := match a, b with [], _ => b | _, [] => a | _, _ => app a ("" :: b) end.
Lemma entries_lines ps : entries None (sort_list by_tier ps) = unlines (glue (glue (section TierOne ps) (section TierTwo ps)) (section TierThree ps)).
Proof.
  rewrite sorted_by_tier. unfold section. pose proof (all_of_tier TierOne ps) as F1. pose proof (all_of_tier TierTwo ps) as F2. pose proof (all_of_tier TierThree ps) as F3.
  set (l1 := of_tier TierOne ps) in *. set (l2 := of_tier TierTwo ps) in *. set (l3 := of_tier TierThree ps) in *. clearbody l1 l2 l3.
  assert (E3 : forall cur, cur <> Some TierThree -> entries cur l3 = match l3 with [] => "" | _ => (match cur with Some _ => NL | None => "" end) ++ unlines (app (header_lines TierThree) (map entry_line l3)) end).
  { intros cur C. destruct l3 as [|p r]; [reflexivity|]. rewrite <- (app_nil_r (p :: r)) at 1. rewrite (entries_start cur TierThree p r []) by assumption.
    cbn [entries]. rewrite sapp_nil_r. reflexivity. }
  assert (E2 : forall cur, cur <> Some TierThree -> cur <> Some TierTwo -> entries cur (app l2 l3) =
    match l2 with [] => entries cur l3 | _ => (match cur with Some _ => NL | None => "" end) ++ unlines (app (header_lines TierTwo) (map entry_line l2)) ++ entries (Some TierTwo) l3 end).
  { intros cur C C'. destruct l2 as [|p r]; [reflexivity|]. apply entries_start; assumption. }
  destruct l1 as [|p1 r1].
  - cbn [app glue]. rewrite E2 by discriminate. destruct l2 as [|p2 r2].
    + cbn [glue]. rewrite E3 by discriminate. destruct l3 as [|p3 r3]; reflexivity.
    + rewrite E3 by discriminate. destruct l3 as [|p3 r3].
      * cbn [header_lines app glue]. rewrite sapp_nil_r. reflexivity.
      * change (glue (app (header_lines TierTwo) (map entry_line (p2 :: r2))) (app (header_lines TierThree) (map entry_line (p3 :: r3))))
          with (app (app (header_lines TierTwo) (map entry_line (p2 :: r2))) ("" :: app (header_lines TierThree) (map entry_line (p3 :: r3)))).
        rewrite (unlines_app _ ("" :: _)). reflexivity.
  - rewrite (entries_start None TierOne p1 r1 (app l2 l3)) by (try discriminate; exact F1). rewrite E2 by discriminate.
    set (s1 := app (header_lines TierOne) (map entry_line (p1 :: r1))).
    assert (G : forall b, glue s1 b = match b with [] => s1 | _ => app s1 ("" :: b) end) by (intros [|? ?]; reflexivity).
    cbn [String.append]. destruct l2 as [|p2 r2].
    + rewrite G. cbv match. rewrite E3 by discriminate. destruct l3 as [|p3 r3]; [exact (sapp_nil_r _)|].
      transitivity (unlines (app s1 ("" :: app (header_lines TierThree) (map entry_line (p3 :: r3))))); [|reflexivity]. rewrite (unlines_app s1). reflexivity.
    + rewrite E3 by discriminate. set (s2 := app (header_lines TierTwo) (map entry_line (p2 :: r2))). destruct l3 as [|p3 r3].
      * transitivity (unlines (app s1 ("" :: s2))); [|reflexivity]. rewrite (unlines_app s1), sapp_nil_r. reflexivity.
      * set (s3 := app (header_lines TierThree) (map entry_line (p3 :: r3))).
        transitivity (unlines (app (app s1 ("" :: s2)) ("" :: s3))); [|reflexivity]. rewrite (unlines_app _ ("" :: s3)), (unlines_app s1). cbn [unlines]. rewrite !sapp_assoc. reflexivity.
Qed.
Definition all_lines (ps : list platform) : list string :=
  app (glue (glue (section TierOne ps) (section TierTwo ps)) (section TierThree ps)) ("" :: map link_line ps).
Lemma gen_lines ps text : table_gen ps = Ok text -> text = unlines (all_lines ps).
Proof. intros H. rewrite (gen_text ps text H), entries_lines, links_text. unfold all_lines. rewrite unlines_app. reflexivity. Qed.

(** ** Reading a row *)
Lemma has_char_blanks c k : Ascii.eqb c " " = false -> has_char c (blanks k) = false.
Proof. intros N. induction k as [|k IH]; [reflexivity|]. cbn [blanks has_char]. rewrite Ascii.eqb_sym, N. exact IH. Qed.
Lemma drop_blanks_blanks k s : drop_blanks (blanks k ++ s) = drop_blanks s.
Proof. induction k as [|k IH]; [reflexivity|exact IH]. Qed.
Lemma drop_shorter s : (String.length (drop_blanks s) <= String.length s)%nat.
Proof. induction s as [|c s IH]; [reflexivity|]. cbn [drop_blanks]. destruct (Ascii.eqb c " "); cbn [String.length]; lia. Qed.
Lemma drop_app s y : s <> "" -> drop_blanks s = s -> drop_blanks (s ++ y) = s ++ y.
Proof.
  destruct s as [|c s]; [congruence|]. intros _ E. cbn [String.append drop_blanks] in *. destruct (Ascii.eqb c " "); [|reflexivity].
  exfalso. pose proof (drop_shorter s) as L. rewrite E in L. cbn [String.length] in L. lia.
Qed.
Lemma blanks_snoc k s : blanks k ++ String " " s = String " " (blanks k ++ s).
Proof. induction k as [|k IH]; [reflexivity|]. cbn [blanks String.append]. rewrite IH. reflexivity. Qed.
Lemma srev_blanks k : srev (blanks k) = blanks k.
Proof.
  induction k as [|k IH]; [reflexivity|]. cbn [blanks]. rewrite srev_cons, IH. rewrite blanks_snoc, sapp_nil_r. reflexivity.
Qed.
Definition edged (s : string) : Prop := s = "" \/ (drop_blanks s = s /\ drop_blanks (srev s) = srev s).
Lemma cell_padded s k : edged s -> cell (String " " (s ++ blanks k ++ " ")) = s.
Proof.
  intros E. replace (blanks k ++ " ") with (blanks (S k)) by (rewrite blanks_snoc, sapp_nil_r; reflexivity). unfold cell. cbn [drop_blanks]. rewrite Ascii.eqb_refl.
  destruct (String.eqb_spec s "") as [->|N].
  - cbn [String.append]. rewrite <- (sapp_nil_r (blanks (S k))), drop_blanks_blanks. reflexivity.
  - destruct E as [E|[E1 E2]]; [congruence|]. rewrite drop_app by assumption. rewrite srev_sapp, srev_blanks, drop_blanks_blanks, E2. apply srev_involutive.
Qed.
Lemma padded_bar w s : has_char "|" s = false -> has_char "|" (String " " (pad_right w s ++ " ")) = false.
Proof. intros H. cbn [has_char]. change (Ascii.eqb " " "|") with false. unfold pad_right. rewrite !has_char_app, H, has_char_blanks by reflexivity. reflexivity. Qed.
Lemma entry_cells p : has_char "|" (pf_triple p) = false -> cells (entry_line p) = row_of p.
Proof.
  intros T. unfold cells, entry_line.
  assert (B0 : has_char "|" ("[" ++ pf_triple p ++ "]") = false) by (cbn [String.append has_char]; change (Ascii.eqb "[" "|") with false; rewrite has_char_app, T; reflexivity).
  assert (B1 : has_char "|" (arch_str (pf_arch p)) = false) by (destruct (pf_arch p); reflexivity).
  assert (B2 : has_char "|" (os_str (pf_os p)) = false) by (destruct (pf_os p); reflexivity).
  assert (B3 : has_char "|" (env_str (pf_env p)) = false) by (destruct (pf_env p); reflexivity).
  set (t := "[" ++ pf_triple p ++ "]") in *. set (a := arch_str (pf_arch p)) in *. set (o := os_str (pf_os p)) in *. set (e := env_str (pf_env p)) in *.
  assert (S : "| " ++ pad_right 38 t ++ " | " ++ pad_right 11 a ++ " | " ++ pad_right 10 o ++ " | " ++ pad_right 10 e ++ " |"
    = "" ++ String "|" (String " " (pad_right 38 t ++ " ") ++ String "|" (String " " (pad_right 11 a ++ " ") ++ String "|" (String " " (pad_right 10 o ++ " ")
      ++ String "|" (String " " (pad_right 10 e ++ " ") ++ String "|" ""))))).
  { cbn [String.append]. rewrite !sapp_assoc. reflexivity. }
  rewrite S. clear S. rewrite split_on_app by reflexivity. rewrite (split_on_app "|" (String " " (pad_right 38 t ++ " "))) by (apply padded_bar; assumption).
  rewrite (split_on_app "|" (String " " (pad_right 11 a ++ " "))) by (apply padded_bar; assumption).
  rewrite (split_on_app "|" (String " " (pad_right 10 o ++ " "))) by (apply padded_bar; assumption).
  rewrite (split_on_app "|" (String " " (pad_right 10 e ++ " "))) by (apply padded_bar; assumption).
  cbn [split_on tl removelast map]. unfold pad_right. rewrite !sapp_assoc. unfold row_of.
  rewrite !cell_padded; [reflexivity| | | |].
  - unfold e. destruct (pf_env p); solve [left; reflexivity|right; split; reflexivity].
  - unfold o. destruct (pf_os p); solve [left; reflexivity|right; split; reflexivity].
  - unfold a. destruct (pf_arch p); solve [left; reflexivity|right; split; reflexivity].
  - right. unfold t. split; [reflexivity|]. cbn [String.append]. rewrite srev_cons, srev_sapp. cbn. reflexivity.
Qed.
Definition clean (p : platform) : Prop := tame (pf_triple p).
Lemma entry_line_ends p : clean p -> has_char line_end (entry_line p) = false.
Proof.
  intros (_ & _ & T). unfold entry_line, pad_right. rewrite !has_char_app, T, !has_char_blanks by reflexivity.
  replace (has_char line_end (arch_str (pf_arch p))) with false by (destruct (pf_arch p); reflexivity).
  replace (has_char line_end (os_str (pf_os p))) with false by (destruct (pf_os p); reflexivity).
  replace (has_char line_end (env_str (pf_env p))) with false by (destruct (pf_env p); reflexivity). reflexivity.
Qed.
Lemma has_char_upper c s : (forall a, Ascii.eqb (ascii_upper a) c = true -> Ascii.eqb a c = true) -> has_char c s = false -> has_char c (to_ascii_uppercase s) = false.
Proof.
  intros U. induction s as [|a s IH]; [reflexivity|]. cbn [has_char to_ascii_uppercase]. rewrite !orb_false_iff. intros [A B]. split; [|exact (IH B)].
  destruct (Ascii.eqb (ascii_upper a) c) eqn:E; [|reflexivity]. apply U in E. congruence.
Qed.
Lemma has_char_replace c a b s : Ascii.eqb b c = false -> has_char c s = false -> has_char c (replace_char a b s) = false.
Proof.
  intros N. induction s as [|x s IH]; [reflexivity|]. cbn [has_char replace_char]. rewrite !orb_false_iff. intros [A B]. split; [|exact (IH B)].
  destruct (Ascii.eqb x a); assumption.
Qed.
Lemma upper_line_end a : Ascii.eqb (ascii_upper a) line_end = true -> Ascii.eqb a line_end = true.
Proof. destruct a as [[] [] [] [] [] [] [] []]; cbn; intros H; try discriminate; reflexivity. Qed.
Lemma link_line_ends p : clean p -> has_char line_end (link_line p) = false.
Proof.
  intros (_ & _ & T). unfold link_line. rewrite !has_char_app, T. rewrite (has_char_replace line_end "-" "_" _ eq_refl (has_char_upper _ _ upper_line_end T)). reflexivity.
Qed.
Lemma glue_forall (P : string -> Prop) a b : P "" -> Forall P a -> Forall P b -> Forall P (glue a b).
Proof. intros E A B. destruct a as [|x a]; [exact B|]. destruct b as [|y b]; [exact A|]. cbn [glue]. apply Forall_app. split; [exact A|]. constructor; assumption. Qed.
Lemma section_forall (P : string -> Prop) t ps : (forall t, Forall P (header_lines t)) -> (forall p, In p ps -> P (entry_line p)) -> Forall P (section t ps).
Proof.
  intros H E. unfold section. destruct (of_tier t ps) as [|p r] eqn:O; [constructor|]. apply Forall_app. split; [apply H|].
  apply Forall_forall. intros l I. apply in_map_iff in I as (q & <- & I). apply E. rewrite <- O in I. apply of_tier_iff in I. exact (proj1 I).
Qed.
Lemma lines_ends ps : (forall p, In p ps -> clean p) -> Forall (fun l => has_char line_end l = false) (all_lines ps).
Proof.
  intros C. apply Forall_app. split.
  - assert (S : forall t, Forall (fun l => has_char line_end l = false) (section t ps)).
    { intros t. apply section_forall; [intros []; repeat constructor|]. intros p I. apply entry_line_ends, C, I. }
    apply glue_forall; [reflexivity|apply glue_forall; [reflexivity| |]|]; apply S.
  - constructor; [reflexivity|]. apply Forall_forall. intros l I. apply in_map_iff in I as (p & <- & I). apply link_line_ends, C, I.
Qed.

(** ** Reading the rows *)
Lemma rows_entries h ps rest : (forall p, In p ps -> clean p) -> rows_under h (app (map entry_line ps) rest) = app (map (fun p => (h, row_of p)) ps) (rows_under h rest).
Proof.
  induction ps as [|p ps IH]; intros C; [reflexivity|]. cbn [map app rows_under].
  assert (A : strip_prefix "### " (entry_line p) = None) by reflexivity. assert (B : starts_with "| [" (entry_line p) = true) by reflexivity.
  rewrite A, B, entry_cells by (exact (proj1 (C p (or_introl eq_refl)))). f_equal. apply IH. intros q I. apply C. right. exact I.
Qed.
Lemma rows_header h t rest : rows_under h (app (header_lines t) rest) = rows_under (title_of t) rest.
Proof. destruct t; reflexivity. Qed.
Lemma rows_section t ps rest r : (forall p, In p ps -> clean p) -> (forall h, rows_under h rest = r) ->
  forall h, rows_under h (app (section t ps) rest) = app (map (fun p => (title_of t, row_of p)) (of_tier t ps)) r.
Proof.
  intros C R h. unfold section. destruct (of_tier t ps) as [|p l] eqn:O; [apply R|]. rewrite <- app_assoc, rows_header, rows_entries, R; [reflexivity|].
  intros q I. apply C. rewrite <- O in I. apply of_tier_iff in I. exact (proj1 I).
Qed.
Lemma rows_skip a b : forall h, rows_under h (app a ("" :: b)) = rows_under h (app a b).
Proof.
  induction a as [|l a IH]; intros h; [reflexivity|]. cbn [app rows_under]. destruct (strip_prefix "### " l); [apply IH|]. destruct (starts_with "| [" l); [f_equal|]; apply IH.
Qed.
Lemma rows_glue a b rest h : rows_under h (app (glue a b) rest) = rows_under h (app a (app b rest)).
Proof.
  destruct a as [|x a]; [reflexivity|]. destruct b as [|y b]; [reflexivity|]. cbn [glue]. rewrite <- app_assoc. cbn [app]. apply (rows_skip (x :: a) (y :: b ++ rest)%list).
Qed.
Lemma rows_links ps h : rows_under h (app (map link_line ps) [""]) = [].
Proof.
  induction ps as [|p ps IH]; [reflexivity|]. cbn [map app rows_under].
  assert (A : strip_prefix "### " (link_line p) = None) by reflexivity. assert (B : starts_with "| [" (link_line p) = false) by reflexivity. rewrite A, B. exact IH.
Qed.
(** *** C94: reading the written table gives back, under the heading of each tier, the platforms of that tier in their order, each
    with its target, architecture, system and environment. *)
Theorem C94_rows : forall ps text, table_gen ps = Ok text -> (forall p, In p ps -> tame (pf_triple p)) ->
  rows text = app (map (fun p => ("Tier 1", row_of p)) (of_tier TierOne ps))
             (app (map (fun p => ("Tier 2", row_of p)) (of_tier TierTwo ps)) (map (fun p => ("Tier 3", row_of p)) (of_tier TierThree ps))).
Proof.
  intros ps text H C. rewrite (gen_lines ps text H). unfold rows. rewrite split_unlines by (apply lines_ends, C). unfold all_lines.
  rewrite <- app_assoc, rows_glue, rows_glue.
  assert (L : forall h, rows_under h (app ("" :: map link_line ps) [""]) = []) by (intros h; cbn [app rows_under]; apply rows_links).
  rewrite (rows_section TierOne ps _ (app (map (fun p => ("Tier 2", row_of p)) (of_tier TierTwo ps)) (map (fun p => ("Tier 3", row_of p)) (of_tier TierThree ps))) C); [reflexivity|].
  apply (rows_section TierTwo ps _ (map (fun p => ("Tier 3", row_of p)) (of_tier TierThree ps)) C).
  intros h. rewrite (rows_section TierThree ps _ [] C L). apply app_nil_r.
Qed.
(** *** C94: no platform is missing or listed twice. *)
Theorem C94_every_platform_once : forall ps text, table_gen ps = Ok text -> (forall p, In p ps -> tame (pf_triple p)) ->
  Permutation (rows text) (map (fun p => (title_of (pf_tier p), row_of p)) ps).
Proof.
  intros ps text H C. rewrite (C94_rows ps text H C). clear.
  assert (T : forall t, map (fun p => (title_of t, row_of p)) (of_tier t ps) = map (fun p => (title_of (pf_tier p), row_of p)) (of_tier t ps)).
  { intros t. apply map_ext_in. intros p I. apply of_tier_iff in I as [_ ->]. reflexivity. }
  rewrite (T TierOne : map (fun p => ("Tier 1", row_of p)) _ = _), (T TierTwo : map (fun p => ("Tier 2", row_of p)) _ = _), (T TierThree : map (fun p => ("Tier 3", row_of p)) _ = _).
  rewrite <- !map_app. apply Permutation_map. rewrite <- sorted_by_tier. symmetry. clear T.
  induction ps as [|p ps IH]; [reflexivity|]. unfold sort_list in *. cbn [fold_right].
  transitivity (p :: fold_right (insert_sorted by_tier) [] ps); [constructor; exact IH|]. generalize (fold_right (insert_sorted by_tier) [] ps). clear.
  intros l. induction l as [|q l IH]; [reflexivity|]. cbn [insert_sorted]. destruct (by_tier p q); try reflexivity. rewrite perm_swap. constructor. exact IH.
Qed.

(** ** Reading the links *)
Definition address (p : platform) : string :=
  "https://docs.rs/platforms/latest/platforms/platform/constant." ++ replace_char "-" "_" (to_ascii_uppercase (pf_triple p)) ++ ".html".
Lemma link_read p : has_char "]" (pf_triple p) = false -> link_of (link_line p) = Some (pf_triple p, address p).
Proof.
  intros T. unfold link_of, link_line. cbn [String.append strip_prefix]. change (Ascii.eqb "[" "[") with true. cbv iota.
  rewrite (proj2 (split_once_spec "]" _ (pf_triple p) (": https://docs.rs/platforms/latest/platforms/platform/constant." ++ replace_char "-" "_" (to_ascii_uppercase (pf_triple p)) ++ ".html"))).
  - reflexivity.
  - split; [|exact T]. reflexivity.
Qed.
(** *** C94: the link definitions are one for each platform, in order; so every row's link is defined. *)
Theorem C94_links : forall ps text, table_gen ps = Ok text -> (forall p, In p ps -> tame (pf_triple p)) ->
  links text = map (fun p => (pf_triple p, address p)) ps.
Proof.
  intros ps text H C. rewrite (gen_lines ps text H). unfold links. rewrite split_unlines by (apply lines_ends, C). unfold all_lines. rewrite !flat_map_app.
  assert (Z : forall l, Forall (fun x => link_of x = None) l -> flat_map (fun l => match link_of l with Some x => [x] | None => [] end) l = []).
  { induction 1 as [|x l X F IH]; [reflexivity|]. cbn [flat_map]. rewrite X. exact IH. }
  assert (S : forall t, Forall (fun x => link_of x = None) (section t ps)).
  { intros t. apply section_forall; [intros []; repeat constructor|]. intros p _. reflexivity. }
  rewrite Z by (apply glue_forall; [reflexivity|apply glue_forall; [reflexivity| |]|]; apply S). cbn [app flat_map]. rewrite app_nil_r.
  change (link_of "") with (@None (string * string)). cbn [app]. clear H. induction ps as [|p ps IH]; [reflexivity|]. cbn [map flat_map].
  rewrite link_read by (exact (proj1 (proj2 (C p (or_introl eq_refl))))). cbn [app]. f_equal. apply IH; [intros q I; apply C; right; exact I|].
  intros t. apply section_forall; [intros []; repeat constructor|]. intros q _. reflexivity.
Qed.

(** ** Where the links lead *)
(** The documentation page of a constant. *)
Definition page (constant : string) : string := "https://docs.rs/platforms/latest/platforms/platform/constant." ++ constant ++ ".html".
Lemma dotted_const t : has_char "." (const_name t) = false.
Proof.
  unfold const_name. induction (replace_char "-" "_" (to_ascii_uppercase t)) as [|a s IH]; [reflexivity|]. cbn [replace_char has_char]. rewrite IH, orb_false_r.
  destruct (Ascii.eqb_spec a ".") as [->|N]; [reflexivity|]. apply Ascii.eqb_neq. exact N.
Qed.
Lemma dotless_same s : has_char "." s = false <-> replace_char "." "_" s = s.
Proof.
  induction s as [|a s IH]; [split; reflexivity|]. cbn [has_char replace_char]. rewrite orb_false_iff, IH. destruct (Ascii.eqb_spec a ".") as [->|N].
  - split; [intros [? _]; discriminate|intros H; discriminate].
  - split; [intros [_ ->]; reflexivity|intros H; split; [reflexivity|]; congruence].
Qed.
Lemma dot_kept t : has_char "." (replace_char "-" "_" (to_ascii_uppercase t)) = has_char "." t.
Proof.
  induction t as [|a t IH]; [reflexivity|]. cbn [to_ascii_uppercase replace_char has_char]. rewrite IH. f_equal.
  clear. destruct a as [[] [] [] [] [] [] [] []]; reflexivity.
Qed.
Lemma page_inj a b : page a = page b <-> a = b.
Proof. split; [|congruence]. unfold page. intros H. apply sapp_inj_l in H. eapply sapp_inj_r. exact H. Qed.
(** *** C94: the link of a target leads to the page of the constant generated for it exactly if its name has no dot... *)
Theorem C94_link_target : forall p, address p = page (const_name (pf_triple p)) <-> has_char "." (pf_triple p) = false.
Proof.
  intros p. change (address p) with (page (replace_char "-" "_" (to_ascii_uppercase (pf_triple p)))). rewrite page_inj, <- dot_kept, dotless_same.
  unfold const_name. split; intros H; symmetry; exact H.
Qed.
(** *** C94: ... and a target with a dot has a link to no constant's page at all. *)
Theorem C94_dotted_links : forall p t, has_char "." (pf_triple p) = true -> address p <> page (const_name t).
Proof.
  intros p t D E. change (address p) with (page (replace_char "-" "_" (to_ascii_uppercase (pf_triple p)))) in E. pose proof (proj1 (page_inj _ _) E) as E2. clear E. rename E2 into E.
  pose proof (dotted_const t) as N. rewrite <- E, dot_kept, D in N. discriminate.
Qed.

(** ** Alignment *)
Definition raw_rows (text : string) : list string := filter (starts_with "| [") (split_on line_end text).
Definition heading_width : nat := String.length "| target triple                          | target_arch | target_os  | target_env |".
Lemma slength_blanks k : String.length (blanks k) = k.
Proof. induction k as [|k IH]; [reflexivity|]. cbn [blanks String.length]. rewrite IH. reflexivity. Qed.
Lemma pad_length w s : String.length (pad_right w s) = Nat.max w (String.length s).
Proof. unfold pad_right. rewrite slength_app, slength_blanks. lia. Qed.
Lemma entry_length p : String.length (entry_line p) =
  (2 + Nat.max 38 (2 + String.length (pf_triple p)) + 3 + Nat.max 11 (String.length (arch_str (pf_arch p))) + 3 + Nat.max 10 (String.length (os_str (pf_os p)))
   + 3 + Nat.max 10 (String.length (env_str (pf_env p))) + 2)%nat.
Proof.
  unfold entry_line. rewrite !slength_app, !pad_length, !slength_app. cbn [String.length]. lia.
Qed.
Lemma raw_in ps text l : table_gen ps = Ok text -> (forall p, In p ps -> tame (pf_triple p)) -> (In l (raw_rows text) <-> exists p, In p ps /\ l = entry_line p).
Proof.
  intros H C. unfold raw_rows. rewrite (gen_lines ps text H), split_unlines by (apply lines_ends, C). rewrite filter_In.
  assert (GI : forall a b, In l (glue a b) -> starts_with "| [" l = true -> In l a \/ In l b).
  { intros [|x a] [|y b] I S; cbn [glue] in I; try tauto. apply in_app_or in I as [I|[<-|I]]; [tauto|discriminate S|tauto]. }
  assert (SI : forall t, In l (section t ps) -> starts_with "| [" l = true -> exists p, In p ps /\ l = entry_line p).
  { intros t I S. unfold section in I. destruct (of_tier t ps) as [|p r] eqn:O; [destruct I|]. apply in_app_or in I as [I|I].
    - exfalso. destruct t; cbn [header_lines In] in I; destruct I as [<-|[<-|[<-|[<-|[]]]]]; discriminate S.
    - apply in_map_iff in I as (q & <- & I). exists q. split; [|reflexivity]. rewrite <- O in I. apply of_tier_iff in I. exact (proj1 I). }
  unfold all_lines. split.
  - intros [I S]. apply in_app_or in I as [I|[<-|[]]]; [|discriminate S]. apply in_app_or in I as [I|I].
    + apply GI in I; [|exact S]. destruct I as [I|I]; [apply GI in I; [|exact S]; destruct I as [I|I]|]; exact (SI _ I S).
    + exfalso. destruct I as [<-|I]; [discriminate S|]. apply in_map_iff in I as (q & <- & _). discriminate S.
  - intros (p & I & ->). split; [|reflexivity]. apply in_or_app. left. apply in_or_app. left.
    assert (SJ : In (entry_line p) (section (pf_tier p) ps)).
    { unfold section. assert (J : In p (of_tier (pf_tier p) ps)) by (apply of_tier_iff; auto). destruct (of_tier (pf_tier p) ps) as [|q r]; [destruct J|]. apply in_or_app. right. apply in_map. exact J. }
    clear -SJ.
    assert (GJ : forall a b, In (entry_line p) a \/ In (entry_line p) b -> In (entry_line p) (glue a b)).
    { intros [|x a] [|y b] [I|I]; cbn [glue]; try solve [destruct I]; try exact I; apply in_or_app; [left; exact I|right; right; exact I]. }
    destruct (pf_tier p); [apply GJ; left; apply GJ; left; exact SJ|apply GJ; left; apply GJ; right; exact SJ|apply GJ; right; exact SJ].
Qed.
(** *** C94: the columns line up with the heading exactly if architectures have at most 11 and environments at most 10 characters. *)
Theorem C94_aligned : forall ps text, table_gen ps = Ok text -> (forall p, In p ps -> tame (pf_triple p)) ->
  ((forall l, In l (raw_rows text) -> String.length l = heading_width) <->
   forall p, In p ps -> (String.length (arch_str (pf_arch p)) <= 11)%nat /\ (String.length (env_str (pf_env p)) <= 10)%nat).
Proof.
  intros ps text H C. assert (W : heading_width = 82%nat) by reflexivity. rewrite W.
  assert (R : exists text, table_gen ps = Ok text) by (exists text; exact H). apply C94_runs in R as [[_ LT] [_ LO]].
  assert (B : forall p, In p ps -> (String.length (pf_triple p) <= 36)%nat /\ (String.length (os_str (pf_os p)) <= 10)%nat).
  { intros p I. split; [apply LT, in_map, I|apply LO, (in_map (fun p => os_str (pf_os p))), I]. }
  split.
  - intros A p I. specialize (A (entry_line p) (proj2 (raw_in ps text _ H C) (ex_intro _ p (conj I eq_refl)))). rewrite entry_length in A. destruct (B p I). lia.
  - intros A l I. apply (raw_in ps text l H C) in I as (p & I & ->). rewrite entry_length. destruct (B p I), (A p I). lia.
Qed.

(** ** The committed platforms *)
Lemma committed_widths : widest (map (fun p => String.length (pf_triple p)) ALL) = Some 36%nat /\ widest (map (fun p => String.length (os_str (pf_os p))) ALL) = Some 10%nat.
Proof. split; vm_compute; reflexivity. Qed.
Definition tame_b (s : string) : bool := (negb (has_char "|" s) && negb (has_char "]" s) && negb (has_char line_end s))%bool.
Lemma committed_tame : forallb (fun p => tame_b (pf_triple p)) ALL = true.
Proof. vm_compute. reflexivity. Qed.
(** *** C94: for the platforms of the crate the table is written, and the theorems above apply. *)
Theorem C94_committed : (exists text, table_gen ALL = Ok text) /\ forall p, In p ALL -> tame (pf_triple p).
Proof.
  split.
  - apply (proj1 (C94_runs ALL)). rewrite <- !widest_longest. exact committed_widths.
  - intros p I. pose proof committed_tame as T. rewrite forallb_forall in T. specialize (T p I). unfold tame_b in T. rewrite !andb_true_iff, !negb_true_iff in T. unfold tame. tauto.
Qed.
(** *** C94: it is not aligned: one environment is longer than its column. *)
Theorem C94_alignment_refuted : forall text, table_gen ALL = Ok text -> exists l, In l (raw_rows text) /\ String.length l <> heading_width.
Proof.
  intros text H.
  assert (E : exists p, In p ALL /\ env_str (pf_env p) = "nto71_iosock").
  { assert (B : existsb (fun p => String.eqb (env_str (pf_env p)) "nto71_iosock") ALL = true) by (vm_compute; reflexivity).
    apply existsb_exists in B as (p & I & B). exists p. split; [exact I|]. apply String.eqb_eq. exact B. }
  destruct E as (p & I & E). exists (entry_line p). split; [apply (raw_in ALL text _ H (proj2 C94_committed)); eauto|].
  change heading_width with 82%nat. rewrite entry_length, E. cbn [String.length]. lia.
Qed.
(** *** C94: and it has links to constants that do not exist. *)
Theorem C94_live_links_refuted : exists p, In p ALL /\ pf_triple p = "thumbv8m.main-none-eabi" /\ forall q, In q ALL -> address p <> page (const_name (pf_triple q)).
Proof.
  assert (B : existsb (fun p => String.eqb (pf_triple p) "thumbv8m.main-none-eabi") ALL = true) by (vm_compute; reflexivity).
  apply existsb_exists in B as (p & I & B). apply String.eqb_eq in B. exists p. split; [exact I|]. split; [exact B|]. intros q _. apply C94_dotted_links. rewrite B. reflexivity.
Qed.
(** *** C94: the whole text: the sections of the tiers that have platforms, a heading, the head of the table and the rows, an empty line
    between two sections, an empty line and the links. *)
Theorem C94_text : forall ps text, table_gen ps = Ok text ->
  text = unlines (app (glue (glue (section TierOne ps) (section TierTwo ps)) (section TierThree ps)) ("" :: map link_line ps)).
Proof. exact gen_lines. Qed.
Print Assumptions C94_text.
Print Assumptions C94_runs.
Print Assumptions C94_rows.
Print Assumptions C94_every_platform_once.
Print Assumptions C94_links.
Print Assumptions C94_link_target.
Print Assumptions C94_dotted_links.
Print Assumptions C94_aligned.
Print Assumptions C94_committed.
Print Assumptions C94_alignment_refuted.
Print Assumptions C94_live_links_refuted.
