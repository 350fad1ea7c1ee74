(** Properties C87: what the generator of the `platforms` tables reads from the documentation page and from rustc. *)
From Coq Require Import List NArith Ascii String Bool Arith Lia.
From Verif Require Import Base StrLib IdModel PartsModel AssignModel PlatGenModel PlatGenSpec.
Import ListNotations.
Local Open Scope string_scope.

Lemma nth_snoc {A} (l : list A) (x : A) i y :
  nth_error (l ++ [x])%list i = Some y <-> nth_error l i = Some y \/ i = List.length l /\ y = x.
Proof.
  destruct (Nat.lt_ge_cases i (List.length l)) as [L|G].
  - rewrite nth_error_app1 by exact L. split; [now left|]. intros [H|[-> _]]; [exact H|lia].
  - rewrite nth_error_app2 by exact G. split.
    + intros H. right. destruct (i - List.length l)%nat as [|k] eqn:E; cbn in H.
      * split; [lia|congruence].
      * destruct k; discriminate H.
    + intros [H|[-> ->]].
      * assert (i < List.length l)%nat by (apply nth_error_Some; congruence). lia.
      * rewrite Nat.sub_diag. reflexivity.
Qed.
Lemma nth_in {A} (l : list A) i y : nth_error l i = Some y -> (i < List.length l)%nat.
Proof. intros H. apply nth_error_Some. congruence. Qed.

(** ** Headings *)
Lemma digit_of_iff c d : digit_of c = Some d <-> c = ascii_of_N (48 + d) /\ (d < 10)%N.
Proof.
  unfold digit_of. split.
  - destruct ((48 <=? N_of_ascii c) && (N_of_ascii c <=? 57))%N eqn:E; [|discriminate].
    apply andb_prop in E as [A B]. apply N.leb_le in A, B. intros H.
    assert (d = N_of_ascii c - 48)%N by congruence. subst d. split; [|lia].
    rewrite <- (ascii_N_embedding c) at 1. f_equal. lia.
  - intros [-> H]. rewrite N_ascii_embedding by lia.
    replace (48 <=? 48 + d)%N with true by (symmetry; apply N.leb_le; lia).
    replace (48 + d <=? 57)%N with true by (symmetry; apply N.leb_le; lia). cbn [andb]. f_equal. lia.
Qed.
Lemma heading_iff n d : kind_of n = MHeading /\ heading_tier n = Some d <-> announces n d.
Proof.
  destruct n as [k ks]. unfold announces, heading_tier. cbn [kind_of kids]. split.
  - intros [-> H]. destruct ks as [|[[| |s|l| | |f|o] inner] rest]; try discriminate H.
    destruct (strip_prefix "Tier " (trim s)) as [[|c r]|] eqn:E; try discriminate H.
    apply strip_prefix_spec in E. apply digit_of_iff in H as [Hc Hd].
    exists s, inner, rest, c, r. auto.
  - intros (s & inner & rest & c & r & E & T & Hc & Hd). injection E as -> ->. split; [reflexivity|].
    rewrite T. rewrite (proj2 (strip_prefix_spec "Tier " ("Tier " ++ String c r) (String c r)) eq_refl).
    apply digit_of_iff. auto.
Qed.

Lemma in_tier_snoc doc n i d : (i <= List.length doc)%nat -> in_tier (doc ++ [n]) i d <-> in_tier doc i d.
Proof.
  intros Hi. split; intros (h & x & L & N & A & F); exists h, x; (split; [exact L|]).
  - split; [apply nth_snoc in N as [N|[-> _]]; [exact N|lia]|]. split; [exact A|].
    intros j n' d' Hj Hn. apply (F j n' d' Hj). apply nth_snoc. now left.
  - split; [apply nth_snoc; now left|]. split; [exact A|].
    intros j n' d' Hj Hn. apply nth_snoc in Hn as [Hn|[-> _]]; [|lia]. exact (F j n' d' Hj Hn).
Qed.
Lemma in_tier_end doc n d :
  in_tier (doc ++ [n]) (S (List.length doc)) d
  <-> announces n d \/ in_tier doc (List.length doc) d /\ forall d', ~ announces n d'.
Proof.
  split.
  - intros (h & x & L & N & A & F). apply nth_snoc in N as [N|[-> ->]]; [|now left].
    right. assert (Hh := nth_in _ _ _ N). split.
    + exists h, x. split; [exact Hh|]. split; [exact N|]. split; [exact A|].
      intros j n' d' Hj Hn. apply (F j n' d'); [lia|]. apply nth_snoc. now left.
    + intros d'. apply (F (List.length doc) n d'); [lia|]. apply nth_snoc. now right.
  - intros [A|[(h & x & L & N & A & F) H]].
    + exists (List.length doc), n. split; [lia|]. split; [apply nth_snoc; now right|]. split; [exact A|].
      intros j n' d' Hj. lia.
    + exists h, x. split; [lia|]. split; [apply nth_snoc; now left|]. split; [exact A|].
      intros j n' d' Hj Hn. apply nth_snoc in Hn as [Hn|[-> ->]]; [|apply H].
      apply (F j n' d'); [|exact Hn]. split; [lia|]. exact (nth_in _ _ _ Hn).
Qed.
Lemma announces_unique n d d' : announces n d -> announces n d' -> d = d'.
Proof. intros A B. apply heading_iff in A as [_ A], B as [_ B]. congruence. Qed.
Lemma in_tier_unique doc i d d' : in_tier doc i d -> in_tier doc i d' -> d = d'.
Proof.
  intros (h & x & L & N & A & F) (h' & x' & L' & N' & A' & F').
  destruct (Nat.lt_trichotomy h h') as [C|[->|C]].
  - destruct (F h' x' d' (conj C L') N' A').
  - assert (x = x') by congruence. subst. exact (announces_unique _ _ _ A A').
  - destruct (F' h x d (conj C L) N A).
Qed.

(** ** Columns *)
Definition is_named (c : md) (name : string) : bool :=
  match kids c with Md (MText s) _ :: _ => String.eqb (trim s) name | _ => false end.
Lemma is_named_iff c name : is_named c name = true <-> named c name.
Proof.
  unfold is_named, named. destruct (kids c) as [|[[| |s|l| | |f|o] inner] rest];
    (split; [try discriminate|intros (s' & i' & r' & E & T); try discriminate E]).
  - intros H. apply String.eqb_eq in H. exists s, inner, rest. auto.
  - injection E as -> -> ->. apply String.eqb_eq. exact T.
Qed.
Lemma columns_snoc l : forall i t n c,
  columns i (l ++ [c]) t n =
  (if is_named c "target" then Some (i + List.length l) else fst (columns i l t n),
   if is_named c "notes" then Some (i + List.length l) else snd (columns i l t n))%nat.
Proof.
  induction l as [|x l IH]; intros i t n c.
  - cbn [app columns List.length fst snd]. rewrite Nat.add_0_r. unfold is_named.
    destruct (kids c) as [|[[| |s|l'| | |f|o] inner] rest]; try reflexivity.
    destruct (String.eqb_spec (trim s) "target") as [->|]; [reflexivity|].
    destruct (String.eqb (trim s) "notes"); reflexivity.
  - cbn [app columns List.length]. rewrite <- Nat.add_succ_comm.
    destruct (kids x) as [|[[| |s|l'| | |f|o] inner] rest]; try apply IH.
    destruct (String.eqb (trim s) "target"); [apply IH|]. destruct (String.eqb (trim s) "notes"); apply IH.
Qed.
Lemma column_snoc k l c name i :
  column (Md k (l ++ [c])) name i <-> named c name /\ i = List.length l \/ ~ named c name /\ column (Md k l) name i.
Proof.
  unfold column. cbn [kids]. split.
  - intros [(x & N & H) F]. apply nth_snoc in N as [N|[-> ->]]; [|now left].
    right. assert (Hi := nth_in _ _ _ N). split.
    + apply (F (List.length l) c); [exact Hi|]. apply nth_snoc. now right.
    + split; [now exists x|]. intros j y Hj Hy. apply (F j y Hj). apply nth_snoc. now left.
  - intros [[H ->]|[H [(x & N & Hx) F]]].
    + split; [exists c; split; [apply nth_snoc; now right|exact H]|].
      intros j y Hj Hy. apply nth_snoc in Hy as [Hy|[-> _]]; [apply nth_in in Hy|]; lia.
    + split; [exists x; split; [apply nth_snoc; now left|exact Hx]|].
      intros j y Hj Hy. apply nth_snoc in Hy as [Hy|[-> ->]]; [exact (F j y Hj Hy)|exact H].
Qed.
Lemma columns_iff k l :
  (forall i, fst (columns 0 l None None) = Some i <-> column (Md k l) "target" i)
  /\ (forall i, snd (columns 0 l None None) = Some i <-> column (Md k l) "notes" i).
Proof.
  induction l as [|c l [IH1 IH2]] using rev_ind.
  - split; intros i; (split; [discriminate|]); intros [(c & N & _) _]; destruct i; discriminate N.
  - split; intros i; rewrite column_snoc, columns_snoc; cbn [fst snd]; rewrite Nat.add_0_l.
    + destruct (is_named c "target") eqn:E.
      * apply is_named_iff in E. split; [intros [= <-]; now left|]. intros [[_ ->]|[H _]]; [reflexivity|contradiction].
      * assert (N : ~ named c "target") by (rewrite <- is_named_iff; congruence). rewrite IH1.
        split; [now right|]. intros [[H _]|[_ H]]; [contradiction|exact H].
    + destruct (is_named c "notes") eqn:E.
      * apply is_named_iff in E. split; [intros [= <-]; now left|]. intros [[_ ->]|[H _]]; [reflexivity|contradiction].
      * assert (N : ~ named c "notes") by (rewrite <- is_named_iff; congruence). rewrite IH2.
        split; [now right|]. intros [[H _]|[_ H]]; [contradiction|exact H].
Qed.
Lemma columns_differ h i j : column h "target" i -> column h "notes" j -> i <> j.
Proof.
  intros [(c & N & s & x & r & K & T) _] [(c' & N' & s' & x' & r' & K' & T') _] ->.
  assert (c' = c) by congruence. subst c'. rewrite K in K'. injection K' as <- _ _. congruence.
Qed.
Lemma column_unique h name i j : column h name i -> column h name j -> i = j.
Proof.
  intros [(c & N & H) F] [(c' & N' & H') F']. destruct (Nat.lt_trichotomy i j) as [C|[C|C]]; [|exact C|].
  - destruct (F j c' C N' H').
  - destruct (F' i c C N H).
Qed.

(** ** Rows *)
Lemma row_cells_spec l : forall i tc nc t n, tc <> nc -> (i <= tc)%nat -> (i <= nc)%nat ->
  row_cells i l tc nc t n =
  (match nth_error l (tc - i) with Some c => Some c | None => t end,
   match nth_error l (nc - i) with Some c => Some c | None => n end).
Proof.
  assert (G : forall l i tc nc t n, tc <> nc ->
    row_cells i l tc nc t n =
    (if i <=? tc then match nth_error l (tc - i) with Some c => Some c | None => t end else t,
     if i <=? nc then match nth_error l (nc - i) with Some c => Some c | None => n end else n)%nat).
  { clear l. induction l as [|c l IH]; intros i tc nc t n D.
    - cbn [row_cells]. destruct (i <=? tc)%nat, (i <=? nc)%nat; destruct (tc - i)%nat, (nc - i)%nat; reflexivity.
    - cbn [row_cells]. destruct (Nat.eqb_spec i tc) as [->|A]; [|destruct (Nat.eqb_spec i nc) as [->|B]]; rewrite IH by exact D.
      + rewrite (proj2 (Nat.leb_gt (S tc) tc)) by lia. rewrite Nat.leb_refl, Nat.sub_diag. cbn [nth_error].
        f_equal. destruct (Nat.leb_spec tc nc) as [L|L].
        * rewrite (proj2 (Nat.leb_le (S tc) nc)) by lia. replace (nc - tc)%nat with (S (nc - S tc)) by lia. reflexivity.
        * rewrite (proj2 (Nat.leb_gt (S tc) nc)) by lia. reflexivity.
      + rewrite (proj2 (Nat.leb_gt (S nc) nc)) by lia. rewrite Nat.leb_refl, Nat.sub_diag. cbn [nth_error].
        f_equal. destruct (Nat.leb_spec nc tc) as [L|L].
        * rewrite (proj2 (Nat.leb_le (S nc) tc)) by lia. replace (tc - nc)%nat with (S (tc - S nc)) by lia. reflexivity.
        * rewrite (proj2 (Nat.leb_gt (S nc) tc)) by lia. reflexivity.
      + f_equal.
        * destruct (Nat.leb_spec i tc) as [L|L].
          -- rewrite (proj2 (Nat.leb_le (S i) tc)) by lia. replace (tc - i)%nat with (S (tc - S i)) by lia. reflexivity.
          -- rewrite (proj2 (Nat.leb_gt (S i) tc)) by lia. reflexivity.
        * destruct (Nat.leb_spec i nc) as [L|L].
          -- rewrite (proj2 (Nat.leb_le (S i) nc)) by lia. replace (nc - i)%nat with (S (nc - S i)) by lia. reflexivity.
          -- rewrite (proj2 (Nat.leb_gt (S i) nc)) by lia. reflexivity. }
  intros i tc nc t n D A B. rewrite G by exact D.
  rewrite (proj2 (Nat.leb_le i tc) A), (proj2 (Nat.leb_le i nc) B). reflexivity.
Qed.
Lemma code_iff : forall n l, code_of n = Some l <-> code_span n l.
Proof.
  fix IH 1. intros [k [|c r]] l.
  - destruct k; cbn [code_of]; (split; [try discriminate; intros [= <-]; constructor|]);
      intros H; inversion H; subst; reflexivity.
  - destruct k; cbn [code_of];
      try (rewrite (IH c l); split;
           [intros H; constructor; [discriminate|exact H]|intros H; inversion H; subst; assumption]).
    split; [intros [= <-]; constructor|]. intros H. inversion H as [|? ? ? ? Nc]; subst; [reflexivity|].
    destruct (Nc literal eq_refl).
Qed.

Lemma lookup_snoc {A} (m : list (string * A)) k v t :
  lookup_key (m ++ [(k, v)])%list t = match lookup_key m t with Some x => Some x | None => if String.eqb t k then Some v else None end.
Proof.
  unfold lookup_key. induction m as [|[k' v'] m IH]; cbn [app find fst snd].
  - destruct (String.eqb t k); reflexivity.
  - destruct (String.eqb t k'); [reflexivity|exact IH].
Qed.
Lemma or_insert_lookup {A} k (v : A) m t :
  lookup_key (or_insert k v m) t = match lookup_key m t with Some x => Some x | None => if String.eqb t k then Some v else None end.
Proof.
  unfold or_insert. destruct (lookup_key m k) eqn:E; [|apply lookup_snoc].
  destruct (lookup_key m t) eqn:F; [reflexivity|]. destruct (String.eqb_spec t k) as [->|]; [congruence|reflexivity].
Qed.

Section Page.
  Context (format_node : md -> option string).
  (** The notes of a row, from its notes cell. *)
  Definition notes_of (cell : md) : string := clean_notes (notes_text format_node (kids cell) "").
  Definition row_entry (d : N) (tc nc : nat) (row : md) : option (string * doc_info) :=
    match nth_error (kids row) tc, nth_error (kids row) nc with
    | Some cell, Some notes => match code_of cell with Some t => Some (t, mkDoc d (notes_of notes)) | None => None end
    | _, _ => None
    end.
  Lemma read_row_entry d tc nc row m : tc <> nc ->
    read_row format_node d tc nc row m = match row_entry d tc nc row with Some (t, i) => or_insert t i m | None => m end.
  Proof.
    intros D. unfold read_row, row_entry. rewrite row_cells_spec by (try exact D; lia). rewrite !Nat.sub_0_r.
    destruct (nth_error (kids row) tc) as [c|], (nth_error (kids row) nc) as [n|]; try reflexivity.
    destruct (code_of c); reflexivity.
  Qed.
  Lemma rows_lookup d tc nc t rows : tc <> nc -> forall m,
    forall v, lookup_key (fold_left (fun m row => read_row format_node d tc nc row m) rows m) t = Some v
    <-> lookup_key m t = Some v
        \/ lookup_key m t = None /\ exists j row, nth_error rows j = Some row /\ row_entry d tc nc row = Some (t, v)
           /\ forall j' row' v', (j' < j)%nat -> nth_error rows j' = Some row' -> row_entry d tc nc row' <> Some (t, v').
  Proof.
    intros D. induction rows as [|x rows IH]; intros m v.
    - cbn [fold_left]. split; [now left|]. intros [H|(_ & j & row & N & _)]; [exact H|destruct j; discriminate N].
    - cbn [fold_left]. rewrite IH, read_row_entry by exact D. destruct (row_entry d tc nc x) as [[k i]|] eqn:E.
      + rewrite or_insert_lookup. destruct (lookup_key m t) as [w|] eqn:L.
        * split; intros [H|[H _]]; try discriminate H; now left.
        * destruct (String.eqb_spec t k) as [<-|Nk].
          -- split.
             ++ intros [H|[H _]]; [|discriminate H]. right. split; [reflexivity|]. exists 0%nat, x.
                split; [reflexivity|]. split; [congruence|]. intros j' row' v' Hj. lia.
             ++ intros [H|(_ & j & row & N & R & F)]; [discriminate H|]. destruct j as [|j].
                ** left. cbn in N. congruence.
                ** destruct (F 0%nat x i ltac:(lia) eq_refl E).
          -- split.
             ++ intros [H|(_ & j & row & N & R & F)]; [discriminate H|]. right. split; [reflexivity|].
                exists (S j), row. split; [exact N|]. split; [exact R|].
                intros [|j'] row' v' Hj Hn; [cbn in Hn; congruence|]. apply (F j' row' v'); [lia|exact Hn].
             ++ intros [H|(_ & [|j] & row & N & R & F)]; [discriminate H|cbn in N; congruence|]. right. split; [reflexivity|].
                exists j, row. split; [exact N|]. split; [exact R|].
                intros j' row' v' Hj Hn. apply (F (S j') row' v'); [lia|exact Hn].
      + split.
        * intros [H|(L & j & row & N & R & F)]; [now left|]. right. split; [exact L|].
          exists (S j), row. split; [exact N|]. split; [exact R|].
          intros [|j'] row' v' Hj Hn; [cbn in Hn; congruence|]. apply (F j' row' v'); [lia|exact Hn].
        * intros [H|(L & [|j] & row & N & R & F)]; [now left|cbn in N; congruence|]. right. split; [exact L|].
          exists j, row. split; [exact N|]. split; [exact R|].
          intros j' row' v' Hj Hn. apply (F (S j') row' v'); [lia|exact Hn].
  Qed.

  (** The row [i], [j] speaks of [t], and no row before it does. *)
  Definition first_row (doc : list md) (i j : nat) (t : string) (d : N) (notes : md) : Prop :=
    row_of doc i j t d notes
    /\ forall i' j' d' notes', row_of doc i' j' t d' notes' -> (i < i')%nat \/ i = i' /\ (j <= j')%nat.
  Definition state_of (doc : list md) : doc_state := fold_left (read_block format_node) doc (mkState None false []).

  Lemma usable_snoc doc n i d tc nc rows :
    usable_table (doc ++ [n]) i d tc nc rows
    <-> usable_table doc i d tc nc rows
        \/ i = List.length doc /\ exists header, n = Md MTable (header :: rows) /\ in_tier doc i d /\ column header "target" tc /\ column header "notes" nc.
  Proof.
    unfold usable_table. split.
    - intros (h & N & T & C1 & C2). apply nth_snoc in N as [N|[-> N]].
      + left. exists h. split; [exact N|]. split; [|now split]. apply (in_tier_snoc doc n); [apply nth_in in N; lia|exact T].
      + right. split; [reflexivity|]. exists h. split; [congruence|]. split; [|now split]. apply (in_tier_snoc doc n); [lia|exact T].
    - intros [(h & N & T & C1 & C2)|(-> & h & -> & T & C1 & C2)]; exists h.
      + split; [apply nth_snoc; now left|]. split; [|now split]. apply in_tier_snoc; [apply nth_in in N; lia|exact T].
      + split; [apply nth_snoc; now right|]. split; [|now split]. apply in_tier_snoc; [lia|exact T].
  Qed.
  Lemma row_of_inside doc i j t d notes : row_of doc i j t d notes -> (i < List.length doc)%nat.
  Proof. intros (tc & nc & rows & row & cell & (h & N & _) & _). exact (nth_in _ _ _ N). Qed.
  Lemma row_of_snoc_old doc n i j t d notes : (i < List.length doc)%nat ->
    row_of (doc ++ [n]) i j t d notes <-> row_of doc i j t d notes.
  Proof.
    intros L. split; intros (tc & nc & rows & row & cell & U & R); exists tc, nc, rows, row, cell; (split; [|exact R]).
    - apply usable_snoc in U as [U|[-> _]]; [exact U|lia].
    - apply usable_snoc. now left.
  Qed.

  (** The state after each block. *)
  Definition lookup_ok (doc : list md) : Prop := forall t v,
    lookup_key (documented (state_of doc)) t = Some v
    <-> exists i j cell, first_row doc i j t (doc_tier v) cell /\ doc_notes v = notes_of cell.
  Definition none_ok (doc : list md) : Prop := forall t,
    lookup_key (documented (state_of doc)) t = None -> forall i j d cell, ~ row_of doc i j t d cell.
  Lemma state_snoc doc n : state_of (doc ++ [n]) = read_block format_node (state_of doc) n.
  Proof. unfold state_of. rewrite fold_left_app. reflexivity. Qed.

  Lemma no_new_table doc n :
    (forall d tc nc rows header, n = Md MTable (header :: rows) -> in_tier doc (List.length doc) d ->
       column header "target" tc -> column header "notes" nc -> False) ->
    (forall i j t d c, row_of (doc ++ [n]) i j t d c <-> row_of doc i j t d c)
    /\ (forall i d tc nc rows, usable_table (doc ++ [n]) i d tc nc rows <-> usable_table doc i d tc nc rows).
  Proof.
    intros H.
    assert (U : forall i d tc nc rows, usable_table (doc ++ [n]) i d tc nc rows <-> usable_table doc i d tc nc rows).
    { intros i d tc nc rows. rewrite usable_snoc. split; [|now left].
      intros [X|(-> & h & E & T & C1 & C2)]; [exact X|]. destruct (H d tc nc rows h E T C1 C2). }
    split; [|exact U]. intros i j t d c. unfold row_of.
    split; intros (tc & nc & rows & row & cell & X & R); exists tc, nc, rows, row, cell; (split; [|exact R]); apply U; exact X.
  Qed.

  Lemma state_inv doc :
    (forall d, current_tier (state_of doc) = Some d <-> in_tier doc (List.length doc) d)
    /\ (found_table (state_of doc) = true <-> exists i d tc nc rows, usable_table doc i d tc nc rows)
    /\ lookup_ok doc /\ none_ok doc.
  Proof.
    induction doc as [|n doc (IT & IF & IL & IN)] using rev_ind.
    - split; [|split; [|split]].
      + intros d. split; [discriminate|]. intros (h & x & L & _). cbn in L. lia.
      + split; [discriminate|]. intros (i & d & tc & nc & rows & h & N & _). destruct i; discriminate N.
      + intros t v. split; [discriminate|]. intros (i & j & cell & [R _] & _). apply row_of_inside in R. cbn in R. lia.
      + intros t _ i j d cell R. apply row_of_inside in R. cbn in R. lia.
    - rewrite app_length. cbn [List.length]. rewrite Nat.add_1_r.
      assert (Keep : forall st, state_of (doc ++ [n]) = st -> found_table st = found_table (state_of doc) ->
        documented st = documented (state_of doc) ->
        (forall d tc nc rows header, n = Md MTable (header :: rows) -> in_tier doc (List.length doc) d ->
           column header "target" tc -> column header "notes" nc -> False) ->
        (found_table (state_of (doc ++ [n])) = true <-> exists i d tc nc rows, usable_table (doc ++ [n]) i d tc nc rows)
        /\ lookup_ok (doc ++ [n]) /\ none_ok (doc ++ [n])).
      { intros st Es Ef Ed H. destruct (no_new_table doc n H) as [R U]. split; [|split].
        - rewrite Es, Ef, IF. split; intros (i & d & tc & nc & rows & X); exists i, d, tc, nc, rows; apply U; exact X.
        - intros t v. rewrite Es, Ed. rewrite (IL t v). unfold first_row.
          split; intros (i & j & cell & [A F] & E); exists i, j, cell; (split; [|exact E]); (split; [apply R; exact A|]);
            intros i' j' d' c' X; apply (F i' j' d' c'); apply R; exact X.
        - intros t. rewrite Es, Ed. intros L i j d c X. apply R in X. exact (IN t L i j d c X). }
      assert (Tier : (forall d', ~ announces n d') -> current_tier (state_of (doc ++ [n])) = current_tier (state_of doc) ->
         forall d, current_tier (state_of (doc ++ [n])) = Some d <-> in_tier (doc ++ [n]) (S (List.length doc)) d).
      { intros H E d. rewrite E, IT, in_tier_end. split; [intros X; right; now split|]. intros [X|[X _]]; [destruct (H _ X)|exact X]. }
      destruct n as [k ks]. destruct k; rewrite state_snoc in *;
        try (split; [apply Tier; [intros d' A; apply heading_iff in A as [A _]; discriminate A|reflexivity]|];
             apply (Keep _ eq_refl); [reflexivity|reflexivity|]; intros d tc nc rows header E; discriminate E).
      + (* a heading *)
        assert (NT : forall d tc nc rows header, Md MHeading ks = Md MTable (header :: rows) -> in_tier doc (List.length doc) d ->
           column header "target" tc -> column header "notes" nc -> False) by (intros; discriminate).
        cbn [read_block kind_of] in *. destruct (heading_tier (Md MHeading ks)) as [d0|] eqn:E.
        * assert (A0 : announces (Md MHeading ks) d0) by (apply heading_iff; now split).
          split; [|apply (Keep _ eq_refl); [reflexivity|reflexivity|exact NT]].
          intros d. cbn [current_tier]. rewrite in_tier_end. split.
          -- intros H. left. assert (d = d0) by congruence. subst d. exact A0.
          -- intros [A|[_ F]]; [|destruct (F _ A0)]. rewrite (announces_unique _ _ _ A A0). reflexivity.
        * split; [|apply (Keep _ eq_refl); [reflexivity|reflexivity|exact NT]].
          apply Tier; [|reflexivity]. intros d' A. apply heading_iff in A as [_ A]. congruence.
      + (* a table *)
        assert (Na : forall d', ~ announces (Md MTable ks) d') by (intros d' A; apply heading_iff in A as [A _]; discriminate A).
        cbn [read_block kind_of kids] in *.
        destruct (current_tier (state_of doc)) as [d0|] eqn:E.
        2:{ split; [apply Tier; [exact Na|rewrite E; reflexivity]|]. apply (Keep _ eq_refl); [reflexivity|reflexivity|].
            intros d tc nc rows header _ T. apply IT in T. discriminate T. }
        assert (T0 : in_tier doc (List.length doc) d0) by (apply IT; reflexivity).
        destruct ks as [|header rows].
        { split; [apply Tier; [exact Na|exact E]|]. apply (Keep _ eq_refl); [reflexivity|reflexivity|]. intros d tc nc rows header X. discriminate X. }
        destruct header as [hk hs]. destruct (columns_iff hk hs) as [CT CN].
        cbn [kids] in *. destruct (columns 0 hs None None) as [[tc|] [nc|]] eqn:EC; cbn [fst snd] in CT, CN.
        2:{ split; [apply Tier; [exact Na|exact E]|]. apply (Keep _ eq_refl); [reflexivity|reflexivity|].
            intros d tc' nc' rows' header X _ _ C. injection X as <- _. apply CN in C. discriminate C. }
        2:{ split; [apply Tier; [exact Na|exact E]|]. apply (Keep _ eq_refl); [reflexivity|reflexivity|].
            intros d tc' nc' rows' header X _ C _. injection X as <- _. apply CT in C. discriminate C. }
        2:{ split; [apply Tier; [exact Na|exact E]|]. apply (Keep _ eq_refl); [reflexivity|reflexivity|].
            intros d tc' nc' rows' header X _ C _. injection X as <- _. apply CT in C. discriminate C. }
        clear Keep. assert (C1 := proj1 (CT tc) eq_refl). assert (C2 := proj1 (CN nc) eq_refl).
        assert (D := columns_differ _ _ _ C1 C2).
        set (tbl := Md MTable (Md hk hs :: rows)) in *.
        assert (New : forall j t d cell, row_of (doc ++ [tbl]) (List.length doc) j t d cell
           <-> d = d0 /\ exists row tcell, nth_error rows j = Some row /\ nth_error (kids row) tc = Some tcell
               /\ nth_error (kids row) nc = Some cell /\ code_span tcell t).
        { intros j t d cell. unfold row_of. split.
          - intros (tc' & nc' & rows' & row & tcell & U & R). apply usable_snoc in U as [(h & N & _)|(_ & h & N & T & K1 & K2)].
            + apply nth_in in N. lia.
            + injection N as <- <-. rewrite (column_unique _ _ _ _ K1 C1), (column_unique _ _ _ _ K2 C2) in R.
              split; [exact (in_tier_unique _ _ _ _ T T0)|]. exists row, tcell. exact R.
          - intros [-> (row & tcell & R)]. exists tc, nc, rows, row, tcell. split; [|exact R].
            apply usable_snoc. right. split; [reflexivity|]. exists (Md hk hs). split; [reflexivity|]. split; [exact T0|]. split; assumption. }
        assert (Doc : documented (state_of (doc ++ [tbl])) = fold_left (fun m row => read_row format_node d0 tc nc row m) rows (documented (state_of doc))).
        { rewrite state_snoc. unfold read_block, tbl. cbn [kind_of kids]. rewrite E, EC. reflexivity. }
        split; [apply Tier; [exact Na|reflexivity]|]. split; [|split].
        * cbn [found_table]. split; [|reflexivity]. intros _. exists (List.length doc), d0, tc, nc, rows.
          apply usable_snoc. right. split; [reflexivity|]. exists (Md hk hs). split; [reflexivity|]. split; [exact T0|]. split; assumption.
        * intros t v. rewrite Doc.
          rewrite rows_lookup by exact D. rewrite (IL t v). split.
          -- intros [(i & j & cell & [R F] & En)|(L & j & row & N & R & F)].
             ++ assert (Hi := row_of_inside _ _ _ _ _ _ R). exists i, j, cell. split; [|exact En].
                split; [apply row_of_snoc_old; assumption|]. intros i' j' d' c' X.
                destruct (Nat.lt_ge_cases i' (List.length doc)) as [L'|G].
                ** apply (F i' j' d' c'). apply (row_of_snoc_old doc tbl); assumption.
                ** left. lia.
             ++ unfold row_entry in R. destruct (nth_error (kids row) tc) as [tcell|] eqn:N1; [|discriminate R].
                destruct (nth_error (kids row) nc) as [cell|] eqn:N2; [|discriminate R].
                destruct (code_of tcell) as [t'|] eqn:Ec; [|discriminate R]. injection R as Et Ev. subst t' v.
                exists (List.length doc), j, cell. split; [|reflexivity]. split.
                ** apply New. split; [reflexivity|]. exists row, tcell. repeat split; try assumption. apply code_iff. exact Ec.
                ** intros i' j' d' c' X. destruct (Nat.lt_ge_cases i' (List.length doc)) as [L'|G].
                   --- exfalso. apply (row_of_snoc_old doc tbl) in X; [|exact L']. exact (IN t L _ _ _ _ X).
                   --- apply (row_of_inside) in X as Hx. rewrite app_length in Hx. cbn [List.length] in Hx.
                       assert (i' = List.length doc) by lia. subst i'. right. split; [reflexivity|].
                       apply New in X as [_ (row' & tcell' & M1 & M2 & M3 & M4)].
                       destruct (Nat.lt_ge_cases j' j) as [Lj|Gj]; [|exact Gj]. exfalso.
                       apply (F j' row' (mkDoc d0 (notes_of c')) Lj M1). unfold row_entry. rewrite M2, M3.
                       apply code_iff in M4. rewrite M4. reflexivity.
          -- intros (i & j & cell & [R F] & En).
             destruct (Nat.lt_ge_cases i (List.length doc)) as [L'|G].
             ++ left. exists i, j, cell. split; [|exact En]. split; [apply (row_of_snoc_old doc tbl); assumption|].
                intros i' j' d' c' X. apply (F i' j' d' c'). apply row_of_snoc_old; [exact (row_of_inside _ _ _ _ _ _ X)|exact X].
             ++ right. apply (row_of_inside) in R as Hx. rewrite app_length in Hx. cbn [List.length] in Hx.
                assert (i = List.length doc) by lia. subst i. split.
                ** destruct (lookup_key (documented (state_of doc)) t) as [w|] eqn:L; [|reflexivity]. exfalso.
                   apply IL in L as (i0 & j0 & c0 & [R0 _] & _). assert (Hi := row_of_inside _ _ _ _ _ _ R0).
                   assert (R1 : row_of (doc ++ [tbl]) i0 j0 t (doc_tier w) c0) by (apply row_of_snoc_old; assumption).
                   destruct (F _ _ _ _ R1) as [X|[X _]]; lia.
                ** assert (Y := proj1 (New _ _ _ _) R). destruct Y as (Ed & row & tcell & M1 & M2 & M3 & M4). exists j, row.
                   split; [exact M1|]. split.
                   --- unfold row_entry. rewrite M2, M3. apply code_iff in M4. rewrite M4. destruct v as [vt vn]. cbn in *. subst. reflexivity.
                   --- intros j' row' v' Lj N' R'. unfold row_entry in R'.
                       destruct (nth_error (kids row') tc) as [tcell'|] eqn:N1; [|discriminate R'].
                       destruct (nth_error (kids row') nc) as [cell'|] eqn:N2; [|discriminate R'].
                       destruct (code_of tcell') as [t'|] eqn:Ec; [|discriminate R']. injection R' as Et Ev. subst t'.
                       assert (X : row_of (doc ++ [tbl]) (List.length doc) j' t d0 cell').
                       { apply New. split; [reflexivity|]. exists row', tcell'. repeat split; try assumption. apply code_iff. exact Ec. }
                       destruct (F _ _ _ _ X) as [Z|[_ Z]]; lia.
        * intros t. rewrite Doc.
          intros L i j d cell R.
          destruct (Nat.lt_ge_cases i (List.length doc)) as [L'|G].
          -- apply (row_of_snoc_old doc tbl) in R; [|exact L'].
             destruct (lookup_key (documented (state_of doc)) t) as [w|] eqn:K; [|exact (IN t K _ _ _ _ R)].
             assert (Y : lookup_key (fold_left (fun m row => read_row format_node d0 tc nc row m) rows (documented (state_of doc))) t = Some w).
             { apply rows_lookup; [exact D|]. now left. }
             congruence.
          -- apply (row_of_inside) in R as Hx. rewrite app_length in Hx. cbn [List.length] in Hx.
             assert (i = List.length doc) by lia. subst i. apply New in R as [_ (row & tcell & M1 & M2 & M3 & M4)].
             revert L. generalize (documented (state_of doc)). clear - M1 M2 M3 M4 D. revert j M1.
             induction rows as [|x rows IH]; intros j M1 m L; [destruct j; discriminate M1|].
             assert (Mono : forall rows m k, lookup_key m k <> None -> lookup_key (fold_left (fun m row => read_row format_node d0 tc nc row m) rows m) k <> None).
             { clear - D. intros rows m k H. destruct (lookup_key m k) as [w|] eqn:Ew; [|congruence].
               rewrite (proj2 (rows_lookup d0 tc nc k rows D m w)); [discriminate|now left]. }
             cbn [fold_left] in L. destruct j as [|j]; [|exact (IH j M1 _ L)].
             cbn in M1. assert (x = row) by congruence. subst x.
             apply (Mono rows _ t) in L; [exact L|]. rewrite read_row_entry by exact D. unfold row_entry. rewrite M2, M3.
             apply code_iff in M4. rewrite M4, or_insert_lookup. rewrite String.eqb_refl. destruct (lookup_key m t); discriminate.
  Qed.

  (** Property C87. *)
  Theorem C87_documented : forall doc docs, parse_doc format_node doc = Ok docs ->
    forall t v, lookup_key docs t = Some v
    <-> exists i j cell, first_row doc i j t (doc_tier v) cell /\ doc_notes v = notes_of cell.
  Proof.
    intros doc docs H t v. unfold parse_doc in H. fold (state_of doc) in H.
    destruct (found_table (state_of doc)); [|discriminate H]. injection H as <-.
    exact (proj1 (proj2 (proj2 (state_inv doc))) t v).
  Qed.
  Theorem C87_undocumented : forall doc docs, parse_doc format_node doc = Ok docs ->
    forall t, lookup_key docs t = None <-> forall i j d cell, ~ row_of doc i j t d cell.
  Proof.
    intros doc docs H t. unfold parse_doc in H. fold (state_of doc) in H.
    destruct (state_inv doc) as (_ & _ & S & N).
    destruct (found_table (state_of doc)); [|discriminate H]. injection H as <-. split; [apply N|].
    intros F. destruct (lookup_key (documented (state_of doc)) t) as [v|] eqn:E; [|reflexivity].
    apply S in E as (i & j & cell & [R _] & _). destruct (F _ _ _ _ R).
  Qed.
  Theorem C87_page_accepted_iff : forall doc,
    ((exists docs, parse_doc format_node doc = Ok docs) <-> exists i d tc nc rows, usable_table doc i d tc nc rows)
    /\ (parse_doc format_node doc = Panic <-> ~ exists i d tc nc rows, usable_table doc i d tc nc rows).
  Proof.
    intros doc. unfold parse_doc. fold (state_of doc). destruct (state_inv doc) as (_ & F & _).
    destruct (found_table (state_of doc)).
    - split.
      + split; [intros _; now apply F|]. intros _. now eexists.
      + split; [discriminate|]. intros N. destruct (N (proj1 F eq_refl)).
    - split.
      + split; [intros [docs H]; discriminate H|]. intros X. apply F in X. discriminate X.
      + split; [|reflexivity]. intros _ X. apply F in X. discriminate X.
  Qed.
End Page.

(** ** What rustc prints *)
Lemma split_head l : exists h t, split_on "=" l = h :: t /\ has_char "=" h = false
  /\ (t = [] /\ h = l /\ has_char "=" l = false \/ exists rest, l = h ++ "=" ++ rest /\ t = split_on "=" rest).
Proof.
  induction l as [|a l (h & t & E & N & C)].
  - exists "", []. repeat split. left. auto.
  - cbn [split_on]. destruct (Ascii.eqb_spec a "=") as [->|Na].
    + exists "", (split_on "=" l). split; [reflexivity|]. split; [reflexivity|]. right. exists l. split; reflexivity.
    + rewrite E. exists (String a h), t. split; [reflexivity|]. assert (Ea : Ascii.eqb a "=" = false) by (now apply Ascii.eqb_neq).
      split; [cbn [has_char]; rewrite Ea; exact N|].
      destruct C as [(-> & -> & L)|(rest & -> & ->)].
      * left. split; [reflexivity|]. split; [reflexivity|]. cbn [has_char]. rewrite Ea. exact L.
      * right. exists rest. split; reflexivity.
Qed.
Lemma quoted_iff s v : match pop_quote s with Some x => remove_quote x = Some v | None => False end <-> s = String q "" ++ v ++ String q "".
Proof.
  unfold pop_quote, remove_quote. split.
  - destruct (strip_suffix (String q "") s) as [x|] eqn:E; [|contradiction]. intros H.
    apply strip_suffix_spec in E. apply strip_prefix_spec in H. subst. rewrite sapp_assoc. reflexivity.
  - intros ->. rewrite <- sapp_assoc. rewrite (proj2 (strip_suffix_spec _ _ _) eq_refl).
    apply strip_prefix_spec. reflexivity.
Qed.
Lemma read_line_iff l k v : read_line l = Ok (Some (k, v)) <-> says l k v.
Proof.
  unfold read_line, says. destruct (split_head l) as (h & t & E & N & C). rewrite E.
  destruct C as [(-> & -> & L)|(rest & -> & ->)].
  - split; [discriminate|]. intros (rest & El & _). exfalso. rewrite El in L. clear - L.
    induction k as [|a k IH]; cbn in L; [discriminate L|]. apply orb_false_iff in L as [_ L]. exact (IH L).
  - assert (Hr : exists x y, split_on "=" rest = x :: y).
    { pose proof (split_on_nonempty "=" rest). destruct (split_on "=" rest) as [|x y]; [congruence|now exists x, y]. }
    destruct Hr as (x & y & Er). rewrite Er. rewrite <- Er. fold (without_equals rest). split.
    + intros H. exists rest. assert (Q := proj1 (quoted_iff (without_equals rest) v)).
      destruct (pop_quote (without_equals rest)) as [w|]; [|discriminate H].
      destruct (remove_quote w) as [w'|]; [|discriminate H]. injection H as -> ->. split; [reflexivity|]. split; [exact N|].
      apply Q. reflexivity.
    + intros (rest' & El & Nk & Q).
      assert (S : split_on "=" (h ++ "=" ++ rest) = split_on "=" (k ++ "=" ++ rest')) by (rewrite El; reflexivity).
      change ("=" ++ rest) with (String "=" rest) in S. change ("=" ++ rest') with (String "=" rest') in S.
      rewrite !split_on_app in S by assumption. injection S as <- S.
      assert (rest = rest') by (rewrite <- (join_split "=" rest), <- (join_split "=" rest'), S; reflexivity). subst rest'.
      apply quoted_iff in Q. destruct (pop_quote (without_equals rest)) as [w|]; [|contradiction]. rewrite Q. reflexivity.
Qed.
Lemma read_line_none l : read_line l = Ok None <-> has_char "=" l = false.
Proof.
  unfold read_line. destruct (split_head l) as (h & t & E & N & C). rewrite E.
  destruct C as [(-> & -> & L)|(rest & -> & ->)]; [now split|].
  assert (Hr : exists x y, split_on "=" rest = x :: y).
  { pose proof (split_on_nonempty "=" rest). destruct (split_on "=" rest) as [|x y]; [congruence|now exists x, y]. }
  destruct Hr as (x & y & Er). rewrite Er. split.
  - destruct (pop_quote _) as [w|]; [|discriminate]. destruct (remove_quote w); discriminate.
  - intros H. exfalso. clear - H. induction h as [|a h IH]; cbn in H; [discriminate H|]. apply orb_false_iff in H as [_ H]. exact (IH H).
Qed.
Lemma read_line_cases l : (exists o, read_line l = Ok o) \/ read_line l = Panic.
Proof.
  unfold read_line. destruct (split_on "=" l) as [|h [|x y]]; [now right|left; now eexists|].
  destruct (pop_quote _) as [w|]; [|now right]. destruct (remove_quote w); [left; now eexists|now right].
Qed.
Lemma says_unique l k v k' v' : says l k v -> says l k' v' -> k = k' /\ v = v'.
Proof. intros A B. apply read_line_iff in A, B. split; congruence. Qed.

Lemma insert_lookup {A} (m : list (string * A)) k v t :
  lookup_key (insert_key m (k, v)) t = if String.eqb t k then Some v else lookup_key m t.
Proof.
  unfold insert_key. cbn [fst snd]. destruct (lookup_key m k) as [w|] eqn:E.
  - clear - E. unfold lookup_key in *. induction m as [|[k' v'] m IH]; [discriminate E|].
    cbn [map find fst snd] in *. destruct (String.eqb_spec k k') as [<-|Nk]; cbn [fst].
    + destruct (String.eqb_spec t k) as [->|Nt]; [reflexivity|]. clear IH E.
      induction m as [|[k' v''] m IH]; [reflexivity|]. cbn [map find fst snd].
      destruct (String.eqb_spec k k') as [<-|Nk]; cbn [fst].
      * rewrite (proj2 (String.eqb_neq t k) Nt). exact IH.
      * destruct (String.eqb t k'); [reflexivity|exact IH].
    + destruct (String.eqb_spec t k') as [->|Nt].
      * rewrite (proj2 (String.eqb_neq k' k)) by congruence. reflexivity.
      * apply IH. exact E.
  - rewrite lookup_snoc. destruct (lookup_key m t) as [w|] eqn:F; [|reflexivity].
    destruct (String.eqb_spec t k) as [->|]; [congruence|reflexivity].
Qed.
Lemma omap_nth2 {A B} (f : A -> outcome B) l l' : omap f l = Ok l' ->
  forall i x, nth_error l i = Some x -> exists y, nth_error l' i = Some y /\ f x = Ok y.
Proof.
  revert l'. induction l as [|a l IH]; intros l' H i x N; [destruct i; discriminate N|].
  cbn [omap] in H. destruct (f a) as [b| |] eqn:E; cbn in H; try discriminate H.
  destruct (omap f l) as [bs| |] eqn:E2; cbn in H; try discriminate H. injection H as <-.
  destruct i as [|i]; cbn in *.
  - exists b. split; congruence.
  - exact (IH bs eq_refl i x N).
Qed.
Lemma omap_length2 {A B} (f : A -> outcome B) l l' : omap f l = Ok l' -> List.length l' = List.length l.
Proof.
  revert l'. induction l as [|a l IH]; intros l' H; cbn [omap] in H; [injection H as <-; reflexivity|].
  destruct (f a) as [b| |]; cbn in H; try discriminate H.
  destruct (omap f l) as [bs| |] eqn:E2; cbn in H; try discriminate H. injection H as <-. cbn. f_equal. exact (IH bs eq_refl).
Qed.
Lemma collect_last lines pairs m : omap read_line lines = Ok pairs -> m = fold_left insert_key (somes pairs) [] ->
  forall k v, lookup_key m k = Some v <-> last_says lines k v.
Proof.
  intros H ->. revert pairs H. induction lines as [|l lines IH] using rev_ind; intros pairs H k v.
  - injection H as <-. split; [discriminate|]. intros (i & l & N & _). destruct i; discriminate N.
  - assert (Hs : exists ps o, omap read_line lines = Ok ps /\ read_line l = Ok o /\ pairs = (ps ++ [o])%list).
    { clear IH. revert pairs H. induction lines as [|a lines IH]; intros pairs H.
      - cbn [app omap] in H. destruct (read_line l) as [o| |]; cbn in H; try discriminate H. injection H as <-. exists [], o. auto.
      - cbn [app omap] in H. destruct (read_line a) as [b| |] eqn:Ea; cbn [obind] in H; try discriminate H.
        destruct (omap read_line (lines ++ [l])%list) as [bs| |] eqn:E2; cbn [obind] in H; try discriminate H. injection H as <-.
        destruct (IH bs eq_refl) as (ps & o & E & El & ->). exists (b :: ps), o. cbn [omap]. rewrite Ea, E. auto. }
    destruct Hs as (ps & o & E & El & ->). specialize (IH ps E k v).
    assert (Hso : somes (ps ++ [o]) = (somes ps ++ somes [o])%list).
    { clear. induction ps as [|[x|] ps IH]; cbn [app somes]; [reflexivity|f_equal; exact IH|exact IH]. }
    rewrite Hso, fold_left_app. destruct o as [[k0 v0]|]; cbn [somes fold_left].
    + rewrite insert_lookup. apply read_line_iff in El. destruct (String.eqb_spec k k0) as [->|Nk].
      * split.
        -- intros Ev. assert (v0 = v) by congruence. subst v0. exists (List.length lines), l.
           split; [apply nth_snoc; now right|]. split; [exact El|].
           intros j l' v' Hj Hn. apply nth_in in Hn. rewrite app_length in Hn. cbn in Hn. lia.
        -- intros (i & l' & N & S & F). apply nth_snoc in N as [N|[-> ->]].
           ++ assert (X := F (List.length lines) l v0 (nth_in _ _ _ N)). destruct X; [apply nth_snoc; now right|exact El].
           ++ f_equal. exact (proj2 (says_unique _ _ _ _ _ El S)).
      * rewrite IH. split; intros (i & l' & N & S & F).
        -- exists i, l'. split; [apply nth_snoc; now left|]. split; [exact S|].
           intros j l2 v2 Hj Hn Hs. apply nth_snoc in Hn as [Hn|[-> ->]]; [exact (F j l2 v2 Hj Hn Hs)|].
           destruct (says_unique _ _ _ _ _ El Hs) as [Ek _]. congruence.
        -- apply nth_snoc in N as [N|[-> ->]]; [|destruct (says_unique _ _ _ _ _ El S) as [Ek _]; congruence].
           exists i, l'. split; [exact N|]. split; [exact S|].
           intros j l2 v2 Hj Hn. apply (F j l2 v2 Hj). apply nth_snoc. now left.
    + rewrite IH. assert (Nl : forall k v, ~ says l k v) by (intros k' v' Hs; apply read_line_iff in Hs; congruence).
      split; intros (i & l' & N & S & F).
      * exists i, l'. split; [apply nth_snoc; now left|]. split; [exact S|].
        intros j l2 v2 Hj Hn. apply nth_snoc in Hn as [Hn|[-> ->]]; [exact (F j l2 v2 Hj Hn)|apply Nl].
      * apply nth_snoc in N as [N|[-> ->]]; [|destruct (Nl _ _ S)].
        exists i, l'. split; [exact N|]. split; [exact S|].
        intros j l2 v2 Hj Hn. apply (F j l2 v2 Hj). apply nth_snoc. now left.
Qed.

(** A value is what the last line with that key says. *)
Theorem C87_rustc_values : forall printed m, parse_cfg printed = Ok m ->
  forall k v, lookup_key m k = Some v <-> last_says (file_lines printed) k v.
Proof.
  intros printed m H. unfold parse_cfg in H. destruct (omap read_line (file_lines printed)) as [pairs| |] eqn:E; cbn in H; try discriminate H.
  injection H as <-. exact (collect_last _ _ _ E eq_refl).
Qed.
(** The output is understood unless a line has a `=` but is not of the form `key="value"`; then the program crashes. *)
Theorem C87_rustc_understood_iff : forall printed,
  ((exists m, parse_cfg printed = Ok m)
   <-> forall l, In l (file_lines printed) -> has_char "=" l = false \/ exists k v, says l k v)
  /\ ((exists m, parse_cfg printed = Ok m) \/ parse_cfg printed = Panic).
Proof.
  intros printed. unfold parse_cfg. generalize (file_lines printed) as lines. intros lines.
  assert (G : ((exists ps, omap read_line lines = Ok ps) <-> forall l, In l lines -> has_char "=" l = false \/ exists k v, says l k v)
              /\ ((exists ps, omap read_line lines = Ok ps) \/ omap read_line lines = Panic)).
  { induction lines as [|l lines [IH1 IH2]].
    - split; [split; [intros _ x []|intros _; now exists []]|left; now exists []].
    - cbn [omap]. split.
      + split.
        * intros [ps H] x [<-|Hx].
          -- destruct (read_line l) as [[[k v]|]| |] eqn:E; cbn in H; try discriminate H.
             ++ right. exists k, v. apply read_line_iff. exact E.
             ++ left. apply read_line_none. exact E.
          -- apply IH1; [|exact Hx]. destruct (read_line l); cbn in H; try discriminate H.
             destruct (omap read_line lines) as [ps'| |]; cbn in H; try discriminate H. now exists ps'.
        * intros H. destruct (proj2 IH1 (fun x Hx => H x (or_intror Hx))) as [ps E]. rewrite E.
          destruct (H l (or_introl eq_refl)) as [N|(k & v & S)].
          -- apply read_line_none in N. rewrite N. now eexists.
          -- apply read_line_iff in S. rewrite S. now eexists.
      + destruct (read_line_cases l) as [[o E]|E]; rewrite E; cbn [obind]; [|now right].
        destruct IH2 as [[ps E2]|E2]; rewrite E2; [left; now eexists|now right]. }
  destruct G as [G1 G2]. rewrite <- G1. split.
  - split; intros [m H]; destruct (omap read_line lines) as [ps| |]; cbn in *; try discriminate H; now eexists.
  - destruct G2 as [[ps E]|E]; rewrite E; [left; now eexists|now right].
Qed.

(** The names rustc lists and the documented ones must be the same. *)
Theorem C87_agreement : forall triples docs,
  agree triples docs = true <-> forall t, In t triples <-> exists v, lookup_key docs t = Some v.
Proof.
  intros triples docs. unfold agree. rewrite andb_true_iff, !forallb_forall.
  assert (L : forall t, (exists v : doc_info, lookup_key docs t = Some v) <-> exists v, In (t, v) docs).
  { clear. intros t. unfold lookup_key. split.
    - intros [v H]. destruct (find _ docs) as [[k w]|] eqn:E; [|discriminate H]. apply find_some in E as [I E].
      cbn in E. apply String.eqb_eq in E. subst k. now exists w.
    - intros [v H]. destruct (find (fun e => String.eqb t (fst e)) docs) as [[k w]|] eqn:E; [now exists w|].
      assert (X := find_none _ _ E _ H). cbn in X. rewrite String.eqb_refl in X. discriminate X. }
  split.
  - intros [A B] t. rewrite L. split.
    + intros Ht. rewrite <- L. specialize (A t Ht). destruct (lookup_key docs t) as [v|]; [now exists v|discriminate A].
    + intros [v Hv]. specialize (B _ Hv). apply existsb_exists in B as (x & Hx & E). cbn in E. apply String.eqb_eq in E. now subst.
  - intros H. split.
    + intros t Ht. apply H in Ht as [v Hv]. rewrite Hv. reflexivity.
    + intros [k v] Hv. apply existsb_exists. exists k. split; [|apply String.eqb_refl]. apply H, L. now exists v.
Qed.

(** Examples: `i686-pc-windows-msvc` documented twice keeps its first tier; a value with `=` loses it. *)
Definition text (s : string) : md := Md (MText s) [].
Definition cell (l : list md) : md := Md (MOther "cell") l.
Definition code (s : string) : md := Md (MCode s) [].
Definition row (l : list md) : md := Md (MOther "row") l.
Definition small_page : list md :=
  [Md MHeading [text "Some random header"];
   Md MTable [row [cell [text "target"]; cell [text "notes"]]; row [cell [code "ignored"]; cell []]];
   Md MHeading [text "Tier 1 with Host Tools"];
   Md MTable [row [cell [text "target "]; cell [text "notes"]];
              row [cell [code "i686-pc-windows-msvc"]; cell [text "32-bit MSVC"; Md (MFootnoteReference "a") []]];
              row [cell [text "no code"]; cell []]];
   Md MHeading [text "Tier 3"];
   Md MTable [row [cell [text "target"]; cell [text "std"]; cell [text "notes"]];
              row [cell [Md (MOther "link") [code "aarch64-kmc-solid_asp3"]]; cell []; cell [text "SOLID with TOPPERS\_ASP3"]];
              row [cell [code "i686-pc-windows-msvc"]; cell [text "*"]; cell [text "32-bit Windows XP support"]]]].
Definition as_text (n : md) : option string := match n with Md (MText s) _ => Some (s ++ String nl "") | _ => None end.
Theorem C87_nonvacuous :
  parse_doc as_text small_page =
    Ok [("i686-pc-windows-msvc", mkDoc 1 "32-bit MSVC"); ("aarch64-kmc-solid_asp3", mkDoc 3 "SOLID with TOPPERS_ASP3")]
  /\ parse_doc as_text (firstn 2 small_page) = Panic
  /\ let line := fun a b => a ++ "=" ++ String q (b ++ String q (String nl "")) in
     parse_cfg (line "target_feature" "fxsr" ++ "unix" ++ String nl (line "target_feature" "sse=2"))
     = Ok [("target_feature", "sse2")]
  /\ parse_cfg ("a=b" ++ String nl "") = Panic.
Proof. repeat split; vm_compute; reflexivity. Qed.
