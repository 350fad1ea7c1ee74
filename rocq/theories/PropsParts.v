(** C16: splitting an advisory file is exact. *)
From Coq Require Import List NArith Ascii String Bool Arith Lia.
From Verif Require Import Base StrLib PartsModel PartsSpec.
Import ListNotations.
Local Open Scope string_scope.
Local Infix "++" := String.append (right associativity, at level 60).

Lemma byte_is a n : N.eqb (N_of_ascii a) n = true -> a = ascii_of_N n.
Proof. intros H. apply N.eqb_eq in H. rewrite <- H, ascii_N_embedding. reflexivity. Qed.
Lemma between lo hi n : (N.leb lo n && N.leb n hi)%bool = true -> (lo <= n <= hi)%N.
Proof. rewrite andb_true_iff, N.leb_le, N.leb_le. tauto. Qed.
Ltac in_white := unfold white_space; cbn [map]; repeat (first [left; reflexivity | right]).
Lemma ws1_in a : ws1 a = true -> In (String a "") white_space.
Proof.
  unfold ws1. intros H. apply orb_true_iff in H as [H|H].
  - rewrite (byte_is _ _ H). in_white.
  - apply between in H. rewrite <- (ascii_N_embedding a).
    assert (E : (N_of_ascii a = 9 \/ N_of_ascii a = 10 \/ N_of_ascii a = 11 \/ N_of_ascii a = 12 \/ N_of_ascii a = 13)%N) by lia.
    destruct E as [E|[E|[E|[E|E]]]]; rewrite E; in_white.
Qed.
Lemma ws2_in a b : ws2 a b = true -> In (String a (String b "")) white_space.
Proof.
  unfold ws2. intros H. apply andb_true_iff in H as [H1 H]. rewrite (byte_is _ _ H1).
  apply orb_true_iff in H as [H|H]; rewrite (byte_is _ _ H); in_white.
Qed.
Lemma ws3_in a b c : ws3 a b c = true -> In (String a (String b (String c ""))) white_space.
Proof.
  unfold ws3. intros H.
  apply orb_true_iff in H as [H|H]; [apply orb_true_iff in H as [H|H]; [apply orb_true_iff in H as [H|H]|]|].
  - apply andb_true_iff in H as [H H3]. apply andb_true_iff in H as [H1 H2].
    rewrite (byte_is _ _ H1), (byte_is _ _ H2), (byte_is _ _ H3). in_white.
  - apply andb_true_iff in H as [H H3]. apply andb_true_iff in H as [H1 H2].
    rewrite (byte_is _ _ H1), (byte_is _ _ H2).
    apply orb_true_iff in H3 as [H3|H3]; [apply orb_true_iff in H3 as [H3|H3]; [apply orb_true_iff in H3 as [H3|H3]|]|].
    + apply between in H3. rewrite <- (ascii_N_embedding c).
      assert (E : (N_of_ascii c = 128 \/ N_of_ascii c = 129 \/ N_of_ascii c = 130 \/ N_of_ascii c = 131 \/ N_of_ascii c = 132
        \/ N_of_ascii c = 133 \/ N_of_ascii c = 134 \/ N_of_ascii c = 135 \/ N_of_ascii c = 136 \/ N_of_ascii c = 137 \/ N_of_ascii c = 138)%N) by lia.
      destruct E as [E|[E|[E|[E|[E|[E|[E|[E|[E|[E|E]]]]]]]]]]; rewrite E; in_white.
    + rewrite (byte_is _ _ H3). in_white.
    + rewrite (byte_is _ _ H3). in_white.
    + rewrite (byte_is _ _ H3). in_white.
  - apply andb_true_iff in H as [H H3]. apply andb_true_iff in H as [H1 H2].
    rewrite (byte_is _ _ H1), (byte_is _ _ H2), (byte_is _ _ H3). in_white.
  - apply andb_true_iff in H as [H H3]. apply andb_true_iff in H as [H1 H2].
    rewrite (byte_is _ _ H1), (byte_is _ _ H2), (byte_is _ _ H3). in_white.
Qed.

Ltac each_white H :=
  unfold white_space in H; cbn [map] in H;
  repeat (destruct H as [H|H]; [|]); [..|destruct H].
Lemma trim_start_white w x : In w white_space -> trim_start (w ++ x) = trim_start x.
Proof. intros H. each_white H; subst w; reflexivity. Qed.
Lemma trim_rev_white w x : In w white_space -> trim_rev (srev w ++ x) = trim_rev x.
Proof. intros H. each_white H; subst w; reflexivity. Qed.
Lemma trim_start_blank b x : blank b -> trim_start (b ++ x) = trim_start x.
Proof. induction 1; [reflexivity|]. rewrite sapp_assoc, trim_start_white; assumption. Qed.
Lemma trim_rev_blank b : blank b -> forall x, trim_rev (srev b ++ x) = trim_rev x.
Proof.
  induction 1; intros x; [reflexivity|]. rewrite srev_sapp, sapp_assoc, IHblank. apply trim_rev_white. assumption.
Qed.
Lemma trim_start_id s : ~ starts_blank s -> trim_start s = s.
Proof.
  intros H. destruct s as [|a r]; [reflexivity|]. cbn [trim_start].
  destruct (ws1 a) eqn:E1; [exfalso; apply H; exists (String a ""), r; split; [apply ws1_in; exact E1|reflexivity]|].
  destruct r as [|b r2]; [reflexivity|].
  destruct (ws2 a b) eqn:E2; [exfalso; apply H; exists (String a (String b "")), r2; split; [apply ws2_in; exact E2|reflexivity]|].
  destruct r2 as [|c r3]; [reflexivity|].
  destruct (ws3 a b c) eqn:E3; [exfalso; apply H; exists (String a (String b (String c ""))), r3; split; [apply ws3_in; exact E3|reflexivity]|].
  reflexivity.
Qed.
Lemma trim_rev_id s : ~ ends_blank s -> trim_rev (srev s) = srev s.
Proof.
  intros H. remember (srev s) as t eqn:Et.
  assert (Es : s = srev t) by (rewrite Et, srev_involutive; reflexivity). clear Et. subst s.
  destruct t as [|a r]; [reflexivity|]. cbn [trim_rev].
  destruct (ws1 a) eqn:E1; [exfalso; apply H; exists (String a ""), (srev r); split; [apply ws1_in; exact E1|apply srev_cons]|].
  destruct r as [|b r2]; [reflexivity|].
  destruct (ws2 b a) eqn:E2.
  { exfalso; apply H; exists (String b (String a "")), (srev r2); split; [apply ws2_in; exact E2|].
    rewrite !srev_cons, sapp_assoc. reflexivity. }
  destruct r2 as [|c r3]; [reflexivity|].
  destruct (ws3 c b a) eqn:E3.
  { exfalso; apply H; exists (String c (String b (String a ""))), (srev r3); split; [apply ws3_in; exact E3|].
    rewrite !srev_cons, !sapp_assoc. reflexivity. }
  reflexivity.
Qed.
Lemma trim_start_spec s : exists a, blank a /\ s = a ++ trim_start s /\ ~ starts_blank (trim_start s).
Proof.
  remember (String.length s) as n eqn:En. revert s En.
  induction n as [n IH] using lt_wf_ind; intros s ->.
  assert (Hstep : forall w r, In w white_space -> s = w ++ r -> (String.length r < String.length s)%nat ->
            exists a, blank a /\ s = a ++ trim_start s /\ ~ starts_blank (trim_start s)).
  { intros w r Hw E L. destruct (IH _ L r eq_refl) as (a & A1 & A2 & A3).
    exists (w ++ a). rewrite E, trim_start_white by exact Hw. split; [constructor; assumption|].
    split; [rewrite sapp_assoc; rewrite <- A2; reflexivity|exact A3]. }
  assert (Hd : starts_blank s \/ trim_start s = s /\ ~ starts_blank s).
  { destruct s as [|a r].
    - right. split; [reflexivity|]. intros (w & r & Hw & E). each_white Hw; subst w; discriminate.
    - destruct (ws1 a) eqn:E1; [left; exists (String a ""), r; split; [apply ws1_in; exact E1|reflexivity]|].
      assert (N1 : forall w q, In w white_space -> String a r = w ++ q ->
                 (exists b r2, r = String b r2 /\ (ws2 a b = true \/ exists c r3, r2 = String c r3 /\ ws3 a b c = true))).
      { intros w q Hw E. each_white Hw; subst w; cbn in E; injection E; intros; subst a; try discriminate E1;
          subst r; eexists; eexists; (split; [reflexivity|]);
          first [left; reflexivity | right; eexists; eexists; split; reflexivity]. }
      destruct r as [|b r2].
      { right. split; [cbn; rewrite E1; reflexivity|]. intros (w & q & Hw & E). destruct (N1 w q Hw E) as (x & y & X & _). discriminate. }
      destruct (ws2 a b) eqn:E2.
      { left. exists (String a (String b "")), r2. split; [apply ws2_in; exact E2|reflexivity]. }
      destruct r2 as [|c r3].
      { right. split; [cbn; rewrite E1, E2; reflexivity|]. intros (w & q & Hw & E).
        destruct (N1 w q Hw E) as (x & y & X & [Y|(z & t & Y & _)]); injection X; intros; subst; congruence. }
      destruct (ws3 a b c) eqn:E3.
      { left. exists (String a (String b (String c ""))), r3. split; [apply ws3_in; exact E3|reflexivity]. }
      right. split; [cbn; rewrite E1, E2, E3; reflexivity|]. intros (w & q & Hw & E).
      destruct (N1 w q Hw E) as (x & y & X & [Y|(z & t & Y & Z)]); injection X; intros; subst; try congruence. }
  destruct Hd as [(w & r & Hw & E)|[E Hn]].
  - apply (Hstep w r Hw E). rewrite E, slength_app. assert (String.length w <> 0%nat); [|lia].
    each_white Hw; subst w; discriminate.
  - exists "". split; [constructor|]. rewrite E. split; [reflexivity|exact Hn].
Qed.
Lemma blank_snoc b w : blank b -> In w white_space -> blank (b ++ w).
Proof.
  intros Hb Hw. induction Hb; cbn.
  - rewrite <- (sapp_nil_r w). constructor; [exact Hw|constructor].
  - rewrite sapp_assoc. constructor; assumption.
Qed.
Lemma ends_blank_dec s : ends_blank s \/ ~ ends_blank s.
Proof.
  unfold ends_blank. assert (H : forall l, (exists w r, In w l /\ s = r ++ w) \/ ~ (exists w r, In w l /\ s = r ++ w)).
  { induction l as [|w l IH]; [right; intros (w & r & [] & _)|].
    destruct (ends_with w s) eqn:E.
    - left. apply ends_with_spec in E as [t E]. exists w, t. split; [left; reflexivity|exact E].
    - destruct IH as [(w' & r & H1 & H2)|IH]; [left; exists w', r; split; [right; exact H1|exact H2]|].
      right. intros (w' & r & [->|H1] & H2).
      + assert (X : ends_with w' s = true) by (apply ends_with_spec; exists r; exact H2). congruence.
      + apply IH. exists w', r. split; assumption. }
  apply H.
Qed.
Lemma trim_end_spec s : exists b, blank b /\ s = trim_end s ++ b /\ ~ ends_blank (trim_end s).
Proof.
  remember (String.length s) as n eqn:En. revert s En.
  induction n as [n IH] using lt_wf_ind; intros s ->.
  destruct (ends_blank_dec s) as [(w & r & Hw & E)|Hn].
  - assert (L : (String.length r < String.length s)%nat).
    { rewrite E, slength_app. assert (String.length w <> 0%nat); [|lia]. each_white Hw; subst w; discriminate. }
    destruct (IH _ L r eq_refl) as (b & B1 & B2 & B3).
    assert (Et : trim_end s = trim_end r).
    { unfold trim_end. rewrite E, srev_sapp, trim_rev_white by exact Hw. reflexivity. }
    exists (b ++ w). split; [apply blank_snoc; assumption|]. rewrite Et. split; [|exact B3].
    rewrite <- sapp_assoc, <- B2. exact E.
  - exists "". split; [constructor|]. unfold trim_end. rewrite trim_rev_id by exact Hn. rewrite srev_involutive, sapp_nil_r.
    split; [reflexivity|exact Hn].
Qed.
Lemma trim_both_spec s : trimmed s (trim_end (trim_start s)).
Proof.
  destruct (trim_start_spec s) as (a & A1 & A2 & A3). destruct (trim_end_spec (trim_start s)) as (b & B1 & B2 & B3).
  split; [|split; [|exact B3]].
  - exists a, b. split; [exact A1|]. split; [exact B1|]. rewrite <- B2. exact A2.
  - intros (w & r & Hw & E). apply A3. exists w, (r ++ b). split; [exact Hw|]. rewrite B2, E, sapp_assoc. reflexivity.
Qed.

(** ** Removing white space is unambiguous *)
Definition cont (a : ascii) : bool := let n := N_of_ascii a in (N.leb 128 n && N.ltb n 192)%bool.
Lemma white_shape w : In w white_space -> exists a v, w = String a v /\ cont a = false /\ str_forall cont v = true.
Proof. intros H. each_white H; subst w; eexists; eexists; repeat split; reflexivity. Qed.
Lemma blank_head b : blank b -> b = "" \/ exists a r, b = String a r /\ cont a = false.
Proof.
  destruct 1 as [|w s Hw _]; [left; reflexivity|]. right. destruct (white_shape w Hw) as (a & v & -> & H & _).
  exists a, (v ++ s). split; [reflexivity|exact H].
Qed.
Lemma prefix_within v : forall t b r, str_forall cont v = true -> blank b -> t ++ b = v ++ r -> exists t', t = v ++ t'.
Proof.
  induction v as [|c v IH]; intros t b r Hv Hb E; [exists t; reflexivity|].
  cbn in Hv. apply andb_true_iff in Hv as [Hc Hv].
  destruct t as [|d t]; cbn in E.
  - destruct (blank_head b Hb) as [->|(a & q & -> & Ha)]; [discriminate|]. injection E; intros; subst. congruence.
  - injection E; intros E' ->. destruct (IH t b r Hv Hb E') as [t' ->]. exists t'. reflexivity.
Qed.
Lemma trim_start_blank_all b : blank b -> trim_start b = "".
Proof. intros H. rewrite <- (sapp_nil_r b), trim_start_blank by exact H. reflexivity. Qed.
Lemma not_starts_app t b : t <> "" -> blank b -> ~ starts_blank t -> ~ starts_blank (t ++ b).
Proof.
  intros Hn Hb Ht (w & r & Hw & E). destruct (white_shape w Hw) as (a & v & -> & Ha & Hv).
  destruct t as [|d t]; [congruence|]. cbn in E. injection E; intros E' ->.
  destruct (prefix_within v t b r Hv Hb E') as [t' ->].
  apply Ht. exists (String a v), t'. split; [exact Hw|reflexivity].
Qed.
Lemma trim_end_app t b : blank b -> ~ ends_blank t -> trim_end (t ++ b) = t.
Proof.
  intros Hb Ht. unfold trim_end. rewrite srev_sapp, trim_rev_blank by exact Hb.
  rewrite trim_rev_id by exact Ht. apply srev_involutive.
Qed.
Lemma trimmed_compute s t : trimmed s t -> trim_end (trim_start s) = t.
Proof.
  intros [(a & b & Ha & Hb & ->) [H1 H2]]. rewrite trim_start_blank by exact Ha.
  destruct t as [|d t].
  - cbn. rewrite trim_start_blank_all by exact Hb. reflexivity.
  - rewrite trim_start_id by (apply not_starts_app; [discriminate|exact Hb|exact H1]).
    apply trim_end_app; assumption.
Qed.
Lemma trimmed_end_compute s t : trimmed_end s t -> trim_end s = t.
Proof. intros [(b & Hb & ->) H]. apply trim_end_app; assumption. Qed.

(** ** Finding the fence *)
Lemma split_str_app p a b : p <> "" -> (forall x y, a = x ++ y -> y <> "" -> strip_prefix p (y ++ p ++ b) = None) ->
  split_str p (a ++ p ++ b) = Some (a, b).
Proof.
  intros Hp. induction a as [|c a IH]; intros H; cbn [String.append].
  - destruct p as [|d p]; [congruence|]. cbn [String.append split_str]. 
    change (String d (p ++ b)) with (String d p ++ b). rewrite strip_prefix_app. reflexivity.
  - cbn [split_str]. specialize (H "" (String c a) eq_refl) as H0.
    change (String c (a ++ p ++ b)) with (String c a ++ p ++ b). rewrite H0 by discriminate.
    rewrite IH; [reflexivity|]. intros x y E N. apply (H (String c x) y); [cbn; congruence|exact N].
Qed.
Lemma split_str_spec p s : p <> "" -> forall a b, split_str p s = Some (a, b) ->
  s = a ++ p ++ b /\ ~ occurs p a.
Proof.
  intros Hp. induction s as [|c s IH]; intros a b H; cbn [split_str] in H.
  - destruct p; [congruence|]. cbn in H. discriminate.
  - destruct (strip_prefix p (String c s)) as [t|] eqn:E.
    + injection H; intros; subst. apply strip_prefix_spec in E. split; [exact E|].
      intros (x & y & X). destruct p; [congruence|]. destruct x; discriminate.
    + destruct (split_str p s) as [[x y]|] eqn:E2; [|discriminate]. injection H; intros; subst.
      destruct (IH _ _ eq_refl) as [-> Hn]. split; [reflexivity|].
      intros (u & v & X). destruct u as [|d u].
      * cbn in X. assert (Y : strip_prefix p (String c (x ++ p ++ b)) = Some (v ++ p ++ b)).
        { apply strip_prefix_spec. change (String c (x ++ p ++ b)) with (String c x ++ p ++ b). rewrite X, sapp_assoc. reflexivity. }
        congruence.
      * cbn in X. injection X; intros; subst. apply Hn. exists u, v. reflexivity.
Qed.
Lemma split_str_none p s : split_str p s = None -> ~ occurs p s.
Proof.
  induction s as [|c s IH]; intros H (a & b & E); cbn [split_str] in H.
  - destruct a; [|discriminate]. cbn in E. destruct (strip_prefix p "") eqn:X; [discriminate|].
    rewrite E, strip_prefix_app in X. discriminate.
  - destruct (strip_prefix p (String c s)) eqn:X; [discriminate|].
    destruct a as [|d a]; cbn in E.
    + rewrite E, strip_prefix_app in X. discriminate.
    + injection E; intros; subst. destruct (split_str p (a ++ p ++ b)) as [[x y]|] eqn:Y; [discriminate|].
      apply IH; [reflexivity|]. exists a, b. reflexivity.
Qed.
Lemma no_earlier_fence front rest x y : ~ occurs CLOSE front -> front = x ++ y -> y <> "" ->
  strip_prefix CLOSE (y ++ CLOSE ++ rest) = None.
Proof.
  intros Hn -> Hy. destruct (strip_prefix CLOSE (y ++ CLOSE ++ rest)) as [t|] eqn:E; [|reflexivity]. exfalso.
  apply strip_prefix_spec in E. unfold CLOSE in *. cbn [String.append] in E.
  destruct y as [|a y]; [congruence|]. cbn [String.append] in E. injection E; intros E1 ->.
  destruct y as [|b y]; cbn [String.append] in E1; [discriminate|]. injection E1; intros E2 ->.
  destruct y as [|c y]; cbn [String.append] in E2; [discriminate|]. injection E2; intros E3 ->.
  destruct y as [|d y]; cbn [String.append] in E3; [discriminate|]. injection E3; intros E4 ->.
  apply Hn. exists x, y. reflexivity.
Qed.
Lemma has_char_occurs c s : has_char c s = false <-> ~ occurs (String c "") s.
Proof.
  split.
  - intros H (a & b & ->). rewrite has_char_app in H. apply orb_false_iff in H as [_ H]. cbn in H.
    rewrite Ascii.eqb_refl in H. discriminate.
  - intros H. destruct (has_char c s) eqn:E; [|reflexivity]. exfalso. apply H.
    destruct (split_once c s) as [[a b]|] eqn:S.
    + apply split_once_spec in S as [-> _]. exists a, b. reflexivity.
    + apply split_once_none in S. congruence.
Qed.
Lemma newline_eq : newline = String nl "". Proof. reflexivity. Qed.
Lemma file_eq rf gap rt rd : advisory_file rf gap rt rd = FENCE ++ rf ++ CLOSE ++ gap ++ "# " ++ rt ++ String nl rd.
Proof. reflexivity. Qed.
Lemma hash_not_blank x : ~ starts_blank ("# " ++ x).
Proof. intros (w & r & Hw & E). each_white Hw; subst w; discriminate. Qed.

(** *** C16: every well-formed file splits into its parts, *)
Theorem C16_split_complete raw_front gap raw_title raw_desc front title desc :
  file_parts raw_front gap raw_title ->
  trimmed raw_front front -> trimmed_end raw_title title -> trimmed raw_desc desc ->
  parts_parse (advisory_file raw_front gap raw_title raw_desc) =
  Ok (mkParts front ("# " ++ raw_title ++ newline ++ raw_desc) title desc).
Proof.
  intros (H1 & H2 & H3) F T D. unfold parts_parse. rewrite file_eq, strip_prefix_app.
  rewrite split_str_app; [|discriminate|intros x y E N; eapply no_earlier_fence; eassumption].
  rewrite trim_start_blank by exact H2. rewrite trim_start_id by apply hash_not_blank.
  rewrite strip_prefix_app.
  assert (X : split_once nl (raw_title ++ String nl raw_desc) = Some (raw_title, raw_desc)).
  { apply split_once_spec. split; [reflexivity|]. apply has_char_occurs. exact H3. }
  rewrite X, (trimmed_compute _ _ F), (trimmed_end_compute _ _ T), (trimmed_compute _ _ D). reflexivity.
Qed.
(** and whatever is accepted is such a file with these parts. *)
Theorem C16_split_sound data p :
  parts_parse data = Ok p ->
  exists raw_front gap raw_title raw_desc,
    data = advisory_file raw_front gap raw_title raw_desc /\ file_parts raw_front gap raw_title /\
    trimmed raw_front (pt_front p) /\ trimmed_end raw_title (pt_title p) /\ trimmed raw_desc (pt_description p) /\
    pt_markdown p = "# " ++ raw_title ++ newline ++ raw_desc.
Proof.
  unfold parts_parse. intros H. destruct (strip_prefix FENCE data) as [body|] eqn:E1.
  2: { destruct (Nat.ltb 20 (String.length data) && continuation_at 20 data)%bool; discriminate. }
  destruct (split_str CLOSE body) as [[front rest]|] eqn:E2; [|discriminate].
  destruct (strip_prefix "# " (trim_start rest)) as [m|] eqn:E3; [|discriminate].
  destruct (split_once nl m) as [[title desc]|] eqn:E4; [|discriminate].
  apply strip_prefix_spec in E1. apply split_str_spec in E2 as [E2 Hn]; [|discriminate].
  apply strip_prefix_spec in E3. apply split_once_spec in E4 as [E4 Ht].
  destruct (trim_start_spec rest) as (gap & G1 & G2 & _).
  assert (P : p = mkParts (trim_end (trim_start front)) (trim_start rest) (trim_end title) (trim_end (trim_start desc))) by congruence.
  subst p. cbn [pt_front pt_title pt_description pt_markdown].
  exists front, gap, title, desc. split; [|split; [|split; [|split; [|split]]]].
  - rewrite file_eq, E1, E2, G2, E3, E4. reflexivity.
  - split; [exact Hn|]. split; [exact G1|]. apply has_char_occurs. exact Ht.
  - apply trim_both_spec.
  - destruct (trim_end_spec title) as (b & B1 & B2 & B3). split; [|exact B3]. exists b. split; assumption.
  - apply trim_both_spec.
  - rewrite E3, E4. reflexivity.
Qed.
(** Removing surrounding white space has exactly one result. *)
Theorem C16_trim_unique s t1 t2 : trimmed s t1 -> trimmed s t2 -> t1 = t2.
Proof. intros H1 H2. rewrite <- (trimmed_compute _ _ H1). apply trimmed_compute. exact H2. Qed.
Lemma continuation_cont i s : continuation_at i s = match String.get i s with Some a => cont a | None => false end.
Proof. reflexivity. Qed.
(** A file that is not of this form is refused, and only the text shown in the message can make the refusal a panic. *)
Theorem C16_split_rejects data :
  (forall raw_front gap raw_title raw_desc, file_parts raw_front gap raw_title ->
     data <> advisory_file raw_front gap raw_title raw_desc) ->
  parts_parse data = Err \/
  parts_parse data = Panic /\ (~ exists t, data = "```toml" ++ t) /\
    exists a, String.get 20 data = Some a /\ (128 <= N_of_ascii a < 192)%N.
Proof.
  intros H. destruct (parts_parse data) as [p| |] eqn:E; [|left; reflexivity|].
  - destruct (C16_split_sound _ _ E) as (a & b & c & d & H1 & H2 & _). exfalso. exact (H a b c d H2 H1).
  - right. split; [reflexivity|]. unfold parts_parse in E. destruct (strip_prefix FENCE data) as [body|] eqn:E1.
    + destruct (split_str CLOSE body) as [[front rest]|]; [|discriminate].
      destruct (strip_prefix "# " (trim_start rest)) as [m|]; [|discriminate].
      destruct (split_once nl m) as [[title desc]|]; discriminate.
    + split.
      * intros [t T]. rewrite T in E1. change "```toml" with FENCE in E1. rewrite strip_prefix_app in E1. discriminate.
      * destruct (Nat.ltb 20 (String.length data) && continuation_at 20 data)%bool eqn:X; [|discriminate].
        apply andb_true_iff in X as [_ X]. unfold continuation_at in X. destruct (String.get 20 data) as [a|]; [|discriminate].
        exists a. split; [reflexivity|]. apply andb_true_iff in X as [X1 X2]. apply N.leb_le in X1. apply N.ltb_lt in X2. split; assumption.
Qed.
(** The full statement (always an error) is false: a file starting with 20 bytes that end inside a character crashes. *)
Theorem C16_split_error_refuted : exists data, parts_parse data = Panic.
Proof. exists ("aaaaaaaaaaaaaaaaaaa" ++ bytes [195; 169; 97]%N). reflexivity. Qed.

(** The advisory's title and description are those of the markdown part, and no others are accepted. *)
Theorem C16_advisory_text {A} (toml : string -> option A) title description with_text data a :
  advisory_from_str toml title description with_text data = Ok a ->
  exists raw_front gap raw_title raw_desc front t d a0,
    data = advisory_file raw_front gap raw_title raw_desc /\ file_parts raw_front gap raw_title /\
    trimmed raw_front front /\ trimmed_end raw_title t /\ trimmed raw_desc d /\
    (toml front = Some a0 /\ (exists r, front = "[advisory]" ++ r)
     \/ toml ("[advisory]" ++ newline ++ front) = Some a0 /\ ~ (exists r, front = "[advisory]" ++ r)) /\
    title a0 = "" /\ description a0 = "" /\ a = with_text a0 t d.
Proof.
  unfold advisory_from_str. destruct (parts_parse data) as [p| |] eqn:E; cbn [obind]; try discriminate.
  destruct (C16_split_sound _ _ E) as (rf & gap & rt & rd & H1 & H2 & H3 & H4 & H5 & _).
  unfold front_document. intros H.
  destruct (starts_with HEADER (pt_front p)) eqn:S.
  - destruct (toml (pt_front p)) as [a0|] eqn:T; [|discriminate].
    destruct (String.eqb_spec (title a0) "") as [X|X]; cbn [negb] in H; [|discriminate].
    destruct (String.eqb_spec (description a0) "") as [Y|Y]; cbn [negb] in H; [|discriminate].
    assert (a = with_text a0 (pt_title p) (pt_description p)) by congruence.
    exists rf, gap, rt, rd, (pt_front p), (pt_title p), (pt_description p), a0.
    do 5 (split; [assumption|]). split; [|repeat split; assumption]. left. split; [exact T|].
    apply starts_with_spec in S. exact S.
  - destruct (toml (HEADER ++ String nl (pt_front p))) as [a0|] eqn:T; [|discriminate].
    destruct (String.eqb_spec (title a0) "") as [X|X]; cbn [negb] in H; [|discriminate].
    destruct (String.eqb_spec (description a0) "") as [Y|Y]; cbn [negb] in H; [|discriminate].
    assert (a = with_text a0 (pt_title p) (pt_description p)) by congruence.
    exists rf, gap, rt, rd, (pt_front p), (pt_title p), (pt_description p), a0.
    do 5 (split; [assumption|]). split; [|repeat split; assumption]. right. split; [exact T|].
    apply starts_with_false in S. exact S.
Qed.

(** Non-vacuity: a real advisory. *)
Definition ex_front : string := newline ++ "[advisory]" ++ newline ++ "id = ""RUSTSEC-2021-0001""" ++ newline.
Definition ex_file : string := advisory_file ex_front (newline ++ newline) "Use after free " (newline ++ "Text." ++ newline).
Example ex_file_parts : file_parts ex_front (newline ++ newline) "Use after free ".
Proof.
  split; [|split].
  - apply split_str_none. reflexivity.
  - constructor; [in_white|]. apply (blank_cons newline ""); [in_white|constructor].
  - apply has_char_occurs. reflexivity.
Qed.
Example ex_file_parses : parts_parse ex_file =
  Ok (mkParts ("[advisory]" ++ newline ++ "id = ""RUSTSEC-2021-0001""")
       ("# Use after free " ++ newline ++ newline ++ "Text." ++ newline) "Use after free" "Text.").
Proof. reflexivity. Qed.
Example ex_file_trimmed : trimmed ex_front (trim_end (trim_start ex_front)).
Proof. apply trim_both_spec. Qed.

Print Assumptions C16_split_complete.
Print Assumptions C16_split_sound.
Print Assumptions C16_trim_unique.
Print Assumptions C16_split_rejects.
Print Assumptions C16_split_error_refuted.
Print Assumptions C16_advisory_text.
