(** Property C30, continued: the text of a saved lockfile. *)
From Coq Require Import List NArith Ascii String Bool Arith Lia.
From Verif Require Import Base StrLib SemverModel PkgModel UrlModel LockModel LockTextModel.
Import ListNotations.
Local Open Scope string_scope.
Local Infix "++" := String.append (right associativity, at level 60).

(** What is used of crate toml: where a quoted string or a key ends can be told from what is written; a key does not begin with a
    line end. *)
Definition delimited (f : string -> string) (after : string) : Prop :=
  forall a b x y, f a ++ after ++ x = f b ++ after ++ y -> a = b /\ x = y.
Definition toml_laws (quoted key pretty : string -> string) : Prop :=
  delimited quoted "" /\ delimited key " = " /\ delimited pretty "" /\
  forall k, exists a r, key k = String a r /\ a <> NEWLINE.

Definition starts_other (c : ascii) (s : string) : Prop := match s with String a _ => a <> c | EmptyString => True end.
Fixpoint newlines (n : nat) : string := match n with O => "" | S n => String NEWLINE (newlines n) end.

Lemma newlines_add m n : newlines m ++ newlines n = newlines (m + n).
Proof. induction m as [|m IH]; [reflexivity|]. cbn. rewrite IH. reflexivity. Qed.
Lemma newlines_end n : newlines n ++ LF = newlines (S n).
Proof. change LF with (newlines 1). rewrite newlines_add. f_equal. lia. Qed.
Lemma srev_newlines n : srev (newlines n) = newlines n.
Proof. induction n as [|n IH]; [reflexivity|]. cbn [newlines]. rewrite srev_cons, IH. exact (newlines_end n). Qed.
Lemma drop_spec r : exists n, r = newlines n ++ drop_newlines r.
Proof.
  induction r as [|a r IH]; [exists O; reflexivity|]. cbn [drop_newlines]. destruct r as [|b r]; [exists O; reflexivity|].
  destruct (Ascii.eqb_spec a NEWLINE) as [->|]; [|exists O; reflexivity]. destruct (Ascii.eqb_spec b NEWLINE) as [->|]; [|exists O; reflexivity].
  cbn [andb]. destruct IH as [n E]. exists (S n). cbn [newlines String.append]. rewrite <- E. reflexivity.
Qed.
Lemma trim_spec s : exists n, s = trim_newlines s ++ newlines n.
Proof.
  destruct (drop_spec (srev s)) as [n E]. exists n. unfold trim_newlines.
  rewrite <- (srev_involutive s) at 1. rewrite E at 1. rewrite srev_sapp, srev_newlines. reflexivity.
Qed.
Lemma drop_head r : match drop_newlines r with String a (String b _) => ~ (a = NEWLINE /\ b = NEWLINE) | _ => True end.
Proof.
  induction r as [|a r IH]; [exact Logic.I|]. cbn [drop_newlines]. destruct r as [|b r]; [exact Logic.I|].
  destruct (Ascii.eqb_spec a NEWLINE) as [->|N]; [|intros [H _]; exact (N H)]. destruct (Ascii.eqb_spec b NEWLINE) as [->|N]; [|intros [_ H]; exact (N H)].
  exact IH.
Qed.
Lemma drop_keeps_one r : drop_newlines (String NEWLINE r) = String NEWLINE r \/ exists r', r = String NEWLINE r' /\ drop_newlines (String NEWLINE r) = drop_newlines r.
Proof.
  cbn [drop_newlines]. destruct r as [|b r]; [left; reflexivity|]. rewrite Ascii.eqb_refl. destruct (Ascii.eqb_spec b NEWLINE) as [->|]; [right; eauto|left; reflexivity].
Qed.
Lemma drop_starts r : exists t, drop_newlines (String NEWLINE r) = String NEWLINE t.
Proof.
  induction r as [|a r IH]; [exists ""; reflexivity|]. destruct (drop_keeps_one (String a r)) as [-> |(r' & E & ->)]; [eauto|]. injection E as -> _. exact IH.
Qed.

Section Text.
  Context (quoted key pretty : string -> string) (L : toml_laws quoted key pretty).
  Local Notation line := (entry_line quoted).
  Lemma quoted_split a b x y : quoted a ++ x = quoted b ++ y -> a = b /\ x = y.
  Proof. destruct L as [D _]. exact (D a b x y). Qed.
  Lemma pretty_split a b x y : pretty a ++ x = pretty b ++ y -> a = b /\ x = y.
  Proof. destruct L as (_ & _ & D & _). exact (D a b x y). Qed.
  Lemma key_split a b x y : key a ++ " = " ++ x = key b ++ " = " ++ y -> a = b /\ x = y.
  Proof. destruct L as (_ & D & _). exact (D a b x y). Qed.

  Lemma line_split c k o o' R S : starts_other c R -> starts_other c S ->
    line (String c k) o ++ R = line (String c k) o' ++ S -> o = o' /\ R = S.
  Proof.
    intros HR HS. unfold entry_line. destruct o as [v|], o' as [w|]; rewrite ?sapp_assoc; intros H.
    - apply sapp_inj_l in H. apply (sapp_inj_l " = ") in H. apply quoted_split in H as [-> H]. apply (sapp_inj_l LF) in H. auto.
    - exfalso. cbn [String.append] in H. subst S. apply HS. reflexivity.
    - exfalso. cbn [String.append] in H. subst R. apply HR. reflexivity.
    - auto.
  Qed.
  Lemma line_starts c k o R d : c <> d -> starts_other d R -> starts_other d (line (String c k) o ++ R).
  Proof. intros N H. unfold entry_line. destruct o; [exact N|exact H]. Qed.

  Lemma children_split ds : forall es R S, 
    each_line (fun d => " " ++ quoted d ++ "," ++ LF) ds ++ "]" ++ R = each_line (fun d => " " ++ quoted d ++ "," ++ LF) es ++ "]" ++ S -> ds = es /\ R = S.
  Proof.
    induction ds as [|d ds IH]; intros [|e es] R S H; cbn [each_line] in H; rewrite ?sapp_assoc in H.
    - apply (sapp_inj_l "]") in H. auto.
    - discriminate H.
    - discriminate H.
    - apply (sapp_inj_l " ") in H. apply quoted_split in H as [-> H]. apply (sapp_inj_l "," ) in H. apply (sapp_inj_l LF) in H. apply IH in H as [-> ->]. auto.
  Qed.
  (** What of a package is written. *)
  Definition written (p : raw_package) : raw_package :=
    mkRawPkg (rp_name p) (rp_version p) (rp_source p) (rp_checksum p) (rp_deps p) (match rp_deps p with [] => rp_replace p | _ => None end).
  Lemma deps_starts p R c : (c <> "d")%char -> (c <> "r")%char -> starts_other c R -> starts_other c (emit_dependencies quoted p ++ R).
  Proof.
    intros N1 N2 H. unfold emit_dependencies. destruct (rp_deps p); [unfold entry_line; destruct (rp_replace p); [intros E; apply N2; symmetry; exact E|exact H]|].
    intros E. apply N1. symmetry. exact E.
  Qed.
  Lemma deps_split p q R S : starts_other "r" R -> starts_other "d" R -> starts_other "r" S -> starts_other "d" S ->
    emit_dependencies quoted p ++ R = emit_dependencies quoted q ++ S ->
    rp_deps p = rp_deps q /\ (rp_deps p = [] -> rp_replace p = rp_replace q) /\ R = S.
  Proof.
    intros R1 R2 S1 S2. unfold emit_dependencies. destruct (rp_deps p) as [|d ds], (rp_deps q) as [|e es]; intros H.
    - apply line_split in H as [-> ->]; auto.
    - exfalso. unfold entry_line in H. destruct (rp_replace p); [discriminate H|]. cbn [String.append] in H. subst R. apply R2. reflexivity.
    - exfalso. unfold entry_line in H. destruct (rp_replace q); [discriminate H|]. cbn [String.append] in H. subst S. apply S2. reflexivity.
    - rewrite !sapp_assoc in H. apply sapp_inj_l in H. apply (sapp_inj_l LF) in H. apply children_split in H as [H1 H2]. apply (sapp_inj_l LF) in H2.
      split; [exact H1|]. split; [discriminate|exact H2].
  Qed.
  Lemma line_always k v w R S : line k (Some v) ++ R = line k (Some w) ++ S -> v = w /\ R = S.
  Proof.
    unfold entry_line. rewrite !sapp_assoc. intros H. apply sapp_inj_l in H. apply (sapp_inj_l " = ") in H. apply quoted_split in H as [-> H].
    apply (sapp_inj_l LF) in H. auto.
  Qed.
  Lemma package_split p q R S : emit_package quoted p ++ R = emit_package quoted q ++ S -> written p = written q /\ R = S.
  Proof.
    unfold emit_package. rewrite !sapp_assoc. intros H. apply line_always in H as [E1 H]. apply line_always in H as [E2 H].
    assert (NL : forall c T, c <> NEWLINE -> starts_other c (LF ++ T)) by (intros c T N E; apply N; symmetry; exact E).
    assert (D : forall x c T, (c <> "d")%char -> (c <> "r")%char -> c <> NEWLINE -> starts_other c (emit_dependencies quoted x ++ LF ++ T)).
    { intros x c T N1 N2 N3. apply deps_starts; auto. }
    apply line_split in H as [E3 H]; [|apply line_starts; [discriminate|apply D; discriminate]..].
    apply line_split in H as [E4 H]; [|apply D; discriminate..].
    apply deps_split in H as (E5 & E6 & H); [|apply NL; discriminate..]. apply (sapp_inj_l LF) in H. split; [|exact H].
    unfold written. rewrite E1, E2, E3, E4. rewrite <- E5. destruct (rp_deps p); [rewrite (E6 eq_refl)|]; reflexivity.
  Qed.
  Lemma items_split {A B} (head : string) (f : A -> string) (g : A -> B) : head <> "" ->
    (forall a b R S, f a ++ R = f b ++ S -> g a = g b /\ R = S) -> forall l m R S,
    (forall x, R <> head ++ x) -> (forall x, S <> head ++ x) ->
    each_line (fun a => head ++ LF ++ f a) l ++ R = each_line (fun a => head ++ LF ++ f a) m ++ S -> map g l = map g m /\ R = S.
  Proof.
    intros NE F. induction l as [|a l IH]; intros [|b m] R S HR HS H; cbn [each_line map] in *; rewrite ?sapp_assoc in H.
    - auto.
    - exfalso. exact (HR _ H).
    - exfalso. exact (HS _ (eq_sym H)).
    - apply sapp_inj_l in H. apply (sapp_inj_l LF) in H. apply F in H as [-> H]. apply IH in H as [-> ->]; auto.
  Qed.
  Lemma meta_split l : forall m i j,
    each_line (fun kv => key (fst kv) ++ " = " ++ pretty (snd kv) ++ LF) l ++ newlines i = each_line (fun kv => key (fst kv) ++ " = " ++ pretty (snd kv) ++ LF) m ++ newlines j -> l = m.
  Proof.
    assert (N : forall k x i, key k ++ x <> newlines i).
    { intros k x i. destruct L as (_ & _ & _ & K). destruct (K k) as (a & r & -> & Na). destruct i; cbn; [discriminate|]. intros H. injection H as H _. exact (Na H). }
    induction l as [|[k v] l IH]; intros [|[k' v'] m] i j H; cbn [each_line fst snd] in H; rewrite ?sapp_assoc in H.
    - reflexivity.
    - exfalso. eapply (N k'). symmetry. exact H.
    - exfalso. eapply (N k). exact H.
    - apply key_split in H as [-> H]. apply pretty_split in H as [-> H]. apply (sapp_inj_l LF) in H. apply IH in H as ->. reflexivity.
  Qed.
  Definition meta_text (m : list (string * string)) : string :=
    match m with [] => "" | m => "[metadata]" ++ LF ++ each_line (fun kv => key (fst kv) ++ " = " ++ pretty (snd kv) ++ LF) m end.
  Lemma meta_other m i x : meta_text m ++ newlines i <> "[[" ++ x.
  Proof. destruct m; cbn; [destruct i; discriminate|discriminate]. Qed.
  Lemma patches_other l m i x :
    each_line (fun u => "[[patch.unused]]" ++ LF ++ emit_package quoted (mkRawPkg (ru_name u) (ru_version u) (ru_source u) None [] None) ++ LF) l ++ meta_text m ++ newlines i <> "[[package]]" ++ x.
  Proof. destruct l; [apply (meta_other m i ("package]]" ++ x))|cbn; discriminate]. Qed.
  Lemma dec_split a b R S : print_dec a ++ LF ++ R = print_dec b ++ LF ++ S -> a = b /\ R = S.
  Proof.
    assert (G : forall u v, str_forall is_dig u = true -> str_forall is_dig v = true -> u ++ LF ++ R = v ++ LF ++ S -> u = v /\ R = S).
    { induction u as [|c u IH]; intros [|d v] U V H; cbn [String.append str_forall] in *.
      - injection H as H. auto.
      - injection H as <- _. discriminate V.
      - injection H as -> _. discriminate U.
      - injection H as -> H. apply andb_prop in U as [_ U]. apply andb_prop in V as [_ V]. destruct (IH v U V H) as [-> ->]. auto. }
    intros H. apply G in H as [E ->]; [|apply print_dec_digits..]. split; [|reflexivity].
    pose proof (parse_print_dec a) as P. rewrite E, parse_print_dec in P. congruence.
  Qed.
  (** What of a document is written. *)
  Definition written_version (o : option N) : option N := match o with Some n => if N.leb 3 n then Some n else None | None => None end.
  Lemma long_eq r : lock_text_long quoted key pretty r =
    "# This file is automatically @generated by Cargo." ++ LF ++ "# It is not intended for manual editing." ++ LF ++
    match rl_version r with Some n => if N.leb 3 n then "version = " ++ print_dec n ++ LF else "" | None => "" end ++ LF ++
    each_line (fun p => "[[package]]" ++ LF ++ emit_package quoted p) (rl_packages r) ++
    each_line (fun u => "[[patch.unused]]" ++ LF ++ emit_package quoted (mkRawPkg (ru_name u) (ru_version u) (ru_source u) None [] None) ++ LF) (rl_patch r) ++ meta_text (rl_metadata r).
  Proof. unfold lock_text_long, meta_text. destruct (rl_metadata r); reflexivity. Qed.
  Lemma long_split r q i j : lock_text_long quoted key pretty r ++ newlines i = lock_text_long quoted key pretty q ++ newlines j ->
    written_version (rl_version r) = written_version (rl_version q) /\ map written (rl_packages r) = map written (rl_packages q) /\
    rl_patch r = rl_patch q /\ rl_metadata r = rl_metadata q.
  Proof.
    rewrite !long_eq, !sapp_assoc. intros H.
    apply sapp_inj_l in H. apply (sapp_inj_l LF) in H. apply sapp_inj_l in H. apply (sapp_inj_l LF) in H.
    assert (V : forall o, match o with Some n => if N.leb 3 n then "version = " ++ print_dec n ++ LF else "" | None => "" end =
                          match written_version o with Some n => "version = " ++ print_dec n ++ LF | None => "" end).
    { intros [n|]; [|reflexivity]. cbn [written_version]. destruct (N.leb 3 n); reflexivity. }
    rewrite !V in H. clear V.
    match type of H with _ ++ LF ++ ?X = _ ++ LF ++ ?Y => set (A := X) in *; set (B := Y) in * end.
    assert (E : written_version (rl_version r) = written_version (rl_version q) /\ A = B).
    { destruct (written_version (rl_version r)), (written_version (rl_version q)); rewrite ?sapp_assoc in H; try discriminate H.
      - apply (sapp_inj_l "version = ") in H. apply dec_split in H as [-> H]. apply (sapp_inj_l LF) in H. auto.
      - apply (sapp_inj_l LF) in H. auto. }
    destruct E as [EV E]. clear H. subst A B.
    apply (items_split "[[package]]" (emit_package quoted) written) in E as [EP E]; [|discriminate|exact package_split|intros x; apply patches_other..].
    apply (items_split "[[patch.unused]]" (fun u => emit_package quoted (mkRawPkg (ru_name u) (ru_version u) (ru_source u) None [] None) ++ LF) (fun u => u)) in E as [EU E];
      [|discriminate| |intros x; apply (meta_other _ _ ("patch.unused]]" ++ x))..].
    2:{ intros [a b c] [a' b' c'] R S H. rewrite !sapp_assoc in H. apply package_split in H as [W H]. apply (sapp_inj_l LF) in H. unfold written in W. cbn in W. split; [congruence|exact H]. }
    rewrite !map_id in EU.
    assert (EM : rl_metadata r = rl_metadata q).
    { destruct (rl_metadata r) as [|a m], (rl_metadata q) as [|b m']; cbn [meta_text] in E.
      - reflexivity.
      - exfalso. destruct i; discriminate E.
      - exfalso. destruct j; discriminate E.
      - rewrite !sapp_assoc in E. apply sapp_inj_l in E. apply (sapp_inj_l LF) in E. apply meta_split in E. exact E. }
    auto.
  Qed.

  (** *** The text of a saved lockfile tells the document it was written from: two lockfiles are written as the same text exactly if
      they are saved as the same document. *)
  Theorem C30_text_tells_the_document : forall l m, lock_text quoted key pretty (save l) = lock_text quoted key pretty (save m) <-> save l = save m.
  Proof.
    intros l m. split; [|intros ->; reflexivity]. unfold lock_text. intros H.
    destruct (trim_spec (lock_text_long quoted key pretty (save l))) as [i Ei]. destruct (trim_spec (lock_text_long quoted key pretty (save m))) as [j Ej].
    assert (E : lock_text_long quoted key pretty (save l) ++ newlines j = lock_text_long quoted key pretty (save m) ++ newlines i).
    { rewrite Ei, Ej, H, !sapp_assoc, !newlines_add. f_equal. f_equal. lia. }
    apply long_split in E as (E1 & E2 & E3 & E4).
    assert (W : forall x, map written (rl_packages (save x)) = rl_packages (save x)).
    { intros x. unfold save. cbn [rl_packages]. rewrite map_map. apply map_ext. intros p. unfold written, raw_of_enc. cbn. destruct (ep_deps (encode_package x p)); reflexivity. }
    rewrite !W in E2.
    assert (V : forall x, written_version (rl_version (save x)) = rl_version (save x)) by (intros x; unfold save; cbn [rl_version]; destruct (lk_version x); reflexivity).
    rewrite !V in E1. destruct (save l) as [a b c d e] eqn:S1, (save m) as [a' b' c' d' e'] eqn:S2.
    assert (c = None /\ c' = None) as [-> ->] by (unfold save in S1, S2; split; congruence).
    cbn in E1, E2, E3, E4. congruence.
  Qed.
  Definition MARKER : string := "# This file is automatically @generated by Cargo." ++ LF ++ "# It is not intended for manual editing".
  Lemma no_dot h : forall u k, h ++ "." ++ u <> newlines k.
  Proof. induction h as [|a h IH]; intros u [|k] H; cbn [String.append newlines] in H; try discriminate H. injection H as _ H. exact (IH u k H). Qed.
  Lemma keeps_start h : forall T u k, h ++ "." ++ u = T ++ newlines k -> exists b, T = h ++ "." ++ b.
  Proof.
    induction h as [|a h IH]; intros [|c T] u k H; cbn [String.append] in H.
    - destruct k; discriminate H.
    - injection H as <- _. exists T. reflexivity.
    - exfalso. apply (no_dot (String a h) u k). exact H.
    - injection H as <- H. destruct (IH T u k H) as [b ->]. exists b. reflexivity.
  Qed.
  Lemma lines_end {A} (f : A -> string) : (forall a, exists t, f a = t ++ LF) -> forall l t, exists t', t ++ LF ++ each_line f l = t' ++ LF.
  Proof.
    intros F. induction l as [|a l IH]; intros t; cbn [each_line]; [exists t; rewrite sapp_nil_r; reflexivity|].
    destruct (F a) as [x E]. rewrite E. destruct (IH (t ++ LF ++ x)) as [t' Et]. exists t'. rewrite <- Et, !sapp_assoc. reflexivity.
  Qed.
  Lemma long_ends r : exists u, lock_text_long quoted key pretty r = MARKER ++ "." ++ u ++ LF.
  Proof.
    assert (P : forall p, exists t, emit_package quoted p = t ++ LF).
    { intros p. exists (line "name" (Some (rp_name p)) ++ line "version" (Some (rp_version p)) ++ line "source" (rp_source p) ++ line "checksum" (rp_checksum p) ++ emit_dependencies quoted p).
      unfold emit_package. rewrite !sapp_assoc. reflexivity. }
    assert (F1 : forall p, exists t, "[[package]]" ++ LF ++ emit_package quoted p = t ++ LF).
    { intros p. destruct (P p) as [t ->]. exists ("[[package]]" ++ LF ++ t). rewrite !sapp_assoc. reflexivity. }
    assert (F2 : forall u, exists t, "[[patch.unused]]" ++ LF ++ emit_package quoted (mkRawPkg (ru_name u) (ru_version u) (ru_source u) None [] None) ++ LF = t ++ LF).
    { intros u. exists ("[[patch.unused]]" ++ LF ++ emit_package quoted (mkRawPkg (ru_name u) (ru_version u) (ru_source u) None [] None)). rewrite !sapp_assoc. reflexivity. }
    assert (F3 : forall kv : string * string, exists t, key (fst kv) ++ " = " ++ pretty (snd kv) ++ LF = t ++ LF).
    { intros kv. exists (key (fst kv) ++ " = " ++ pretty (snd kv)). rewrite !sapp_assoc. reflexivity. }
    rewrite long_eq.
    match goal with |- context [match rl_version r with Some n => _ | None => _ end ++ ?x] => set (v := match rl_version r with Some n => _ | None => _ end); set (X := x) end.
    assert (E : exists t, v ++ X = t ++ LF).
    { subst X. destruct (lines_end _ F1 (rl_packages r) v) as [t1 E1].
      destruct (lines_end _ F2 (rl_patch r) t1) as [t2 E2].
      assert (E3 : exists t3, t2 ++ LF ++ meta_text (rl_metadata r) = t3 ++ LF).
      { destruct (rl_metadata r) as [|a m]; cbn [meta_text]; [exists t2; rewrite sapp_nil_r; reflexivity|].
        destruct (lines_end _ F3 (a :: m) (t2 ++ LF ++ "[metadata]")) as [t3 E]. exists t3. rewrite <- E, !sapp_assoc. reflexivity. }
      destruct E3 as [t3 E3]. exists t3. rewrite <- E3. clear E3.
      pose proof (f_equal (fun z => z ++ meta_text (rl_metadata r)) E2) as E2'. cbv beta in E2'. rewrite !sapp_assoc in E2'. rewrite <- E2'. clear E2 E2'.
      match goal with |- _ = t1 ++ LF ++ ?y => set (Y := y) end.
      pose proof (f_equal (fun z => z ++ Y) E1) as E1'. cbv beta in E1'. rewrite !sapp_assoc in E1'. rewrite <- E1'. reflexivity. }
    destruct E as [t E]. exists (LF ++ t). rewrite E. unfold MARKER. rewrite !sapp_assoc. reflexivity.
  Qed.
  (** *** It begins with the two lines of the marker and ends with exactly one line end. *)
  Theorem C30_text_ends : forall r, exists body, lock_text quoted key pretty r = MARKER ++ "." ++ body ++ LF /\ forall x, MARKER ++ "." ++ body <> x ++ LF.
  Proof.
    intros r. destruct (long_ends r) as [u E]. destruct (trim_spec (lock_text_long quoted key pretty r)) as [n En].
    assert (X : exists y, lock_text quoted key pretty r = y ++ LF /\ forall x, y <> x ++ LF).
    { unfold lock_text, trim_newlines. rewrite E. replace (MARKER ++ "." ++ u ++ LF) with ((MARKER ++ "." ++ u) ++ LF) by (rewrite !sapp_assoc; reflexivity).
      rewrite srev_sapp. change (srev LF ++ srev (MARKER ++ "." ++ u)) with (String NEWLINE (srev (MARKER ++ "." ++ u))).
      pose proof (drop_head (String NEWLINE (srev (MARKER ++ "." ++ u)))) as H. destruct (drop_starts (srev (MARKER ++ "." ++ u))) as [t Et]. rewrite Et in *.
      exists (srev t). rewrite srev_cons. split; [reflexivity|]. intros x Ex. assert (t = String NEWLINE (srev x)) as ->.
      { rewrite <- (srev_involutive t), Ex, srev_sapp. reflexivity. }
      apply H. auto. }
    destruct X as (y & Ey & Ny). unfold lock_text in Ey. rewrite Ey, E in En. rewrite sapp_assoc in En.
    destruct (keeps_start MARKER y (u ++ LF) (S n)) as [b Eb]; [exact En|]. exists b. unfold lock_text. rewrite Ey, Eb, !sapp_assoc. split; [reflexivity|].
    intros x Ex. apply (Ny x). rewrite Eb. exact Ex.
  Qed.
End Text.
Print Assumptions C30_text_tells_the_document. Print Assumptions C30_text_ends.

(** The laws hold of strings in quotes with escapes; and a document written so. *)
Definition QUOTE : ascii := "034"%char.
Definition BACKSLASH : ascii := "092"%char.
Fixpoint escaped_rest (s : string) : string :=
  match s with
  | EmptyString => String QUOTE ""
  | String a r => if (Ascii.eqb a QUOTE || Ascii.eqb a BACKSLASH)%bool then String BACKSLASH (String a (escaped_rest r)) else String a (escaped_rest r)
  end.
Definition basic_string (s : string) : string := String QUOTE (escaped_rest s).
Lemma escaped_split a : forall b x y, escaped_rest a ++ x = escaped_rest b ++ y -> a = b /\ x = y.
Proof.
  induction a as [|c a IH]; intros [|d b] x y H; cbn [escaped_rest] in H.
  - cbn [String.append] in H. injection H as H. auto.
  - exfalso. destruct (Ascii.eqb_spec d QUOTE) as [->|N]; [discriminate H|]. destruct (Ascii.eqb_spec d BACKSLASH) as [->|]; [discriminate H|].
    cbn [orb String.append] in H. injection H as H _. exact (N (eq_sym H)).
  - exfalso. destruct (Ascii.eqb_spec c QUOTE) as [->|N]; [discriminate H|]. destruct (Ascii.eqb_spec c BACKSLASH) as [->|]; [discriminate H|].
    cbn [orb String.append] in H. injection H as H _. exact (N H).
  - destruct (Ascii.eqb_spec c QUOTE) as [->|N1]; destruct (Ascii.eqb_spec d QUOTE) as [->|M1]; try (destruct (Ascii.eqb_spec c BACKSLASH) as [->|N2]);
      try (destruct (Ascii.eqb_spec d BACKSLASH) as [->|M2]); cbn [orb String.append] in H; try discriminate H; try (injection H as H; exfalso; congruence).
    all: try (injection H as H; apply IH in H as [-> ->]; auto; fail).
    all: try (injection H as E H; apply IH in H as [-> ->]; subst; auto; fail).
    all: try (exfalso; injection H; intros; subst; congruence).
Qed.
Lemma basic_string_laws : toml_laws basic_string basic_string basic_string.
Proof.
  assert (D : forall u, delimited basic_string u).
  { intros u a b x y H. unfold basic_string in H. cbn [String.append] in H. injection H as H. apply escaped_split in H as [-> H]. apply sapp_inj_l in H. auto. }
  repeat apply conj; try apply D. intros k. exists QUOTE, (escaped_rest k). split; [reflexivity|discriminate].
Qed.
Definition small_document : raw_lock :=
  mkRawLock (Some 4%N) [mkRawPkg "app" "0.1.0" None None ["foo"] None; mkRawPkg "foo" "1.0.0" (Some "registry+https://x.test") None [] None] None [("k", "v")] [mkRawPatch "bar" "2.0.0" None].
Example C30_text_nonvacuous :
  lock_text (fun s => "'" ++ s ++ "'") (fun s => s) (fun s => "'" ++ s ++ "'") small_document =
  "# This file is automatically @generated by Cargo.
# It is not intended for manual editing.
version = 4

[[package]]
name = 'app'
version = '0.1.0'
dependencies = [
 'foo',
]

[[package]]
name = 'foo'
version = '1.0.0'
source = 'registry+https://x.test'

[[patch.unused]]
name = 'bar'
version = '2.0.0'


[metadata]
k = 'v'
".
Proof. vm_compute. reflexivity. Qed.
