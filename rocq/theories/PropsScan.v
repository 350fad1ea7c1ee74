(** C53 (affected functions), C54 (symbol matching), C62 (embedded dependency data). *)
From Coq Require Import List NArith Ascii String Bool Arith Lia.
From Verif Require Import Base StrLib SemverModel OsvModel VerText IdModel PkgModel DbModel DbSpec DbProofs2 PropsDb UrlModel
  LockModel LockSpec TreeModel TreeSpec PropsTree AuditModel AuditSpec ScanModel.
Import ListNotations.
Local Open Scope string_scope.
Local Infix "++" := String.append (right associativity, at level 60).

(** ** C53: specification *)
Definition LETTERS : string := "ABCDEFGHIJKLMNOPQRSTUVWXYZabcdefghijklmnopqrstuvwxyz".
Definition DIGITS : string := "0123456789".
Definition one_of (cs : string) (a : ascii) : Prop := has_char a cs = true.
(** An identifier as advisories write them, generics included. *)
Definition identifier (s : string) : Prop :=
  exists a r, s = String a r /\ one_of (LETTERS ++ "_<") a /\ forall b x y, r = x ++ String b y -> one_of (LETTERS ++ DIGITS ++ "_<>,") b.
(** Segments written with "::" between them. *)
Fixpoint joined (l : list string) : string :=
  match l with [] => "" | [s] => s | s :: r => s ++ "::" ++ joined r end.

Lemma ascii_all (P : ascii -> bool) : forallb P (map (fun n => ascii_of_nat n) (seq 0 256)) = true -> forall a, P a = true.
Proof.
  intros H a. rewrite forallb_forall in H. apply H. apply in_map_iff. exists (nat_of_ascii a).
  split; [apply ascii_nat_embedding|]. apply in_seq. pose proof (nat_ascii_bounded a). lia.
Qed.
Lemma ident_first_spec a : ident_first a = has_char a (LETTERS ++ "_<").
Proof. apply eqb_prop. revert a. apply ascii_all. vm_compute. reflexivity. Qed.
Lemma ident_rest_spec a : ident_rest a = has_char a (LETTERS ++ DIGITS ++ "_<>,").
Proof. apply eqb_prop. revert a. apply ascii_all. vm_compute. reflexivity. Qed.
Lemma str_forall_iff P s : str_forall P s = true <-> forall b x y, s = x ++ String b y -> P b = true.
Proof.
  induction s as [|a s IH]; cbn.
  - split; [|reflexivity]. intros _ b [|? ?] y E; discriminate.
  - rewrite andb_true_iff, IH. split.
    + intros [H1 H2] b [|c x] y E; cbn in E; injection E; intros; subst; [exact H1|eapply H2; reflexivity].
    + intros H. split; [apply (H a "" s eq_refl)|]. intros b x y ->. apply (H b (String a x) y). reflexivity.
Qed.
Lemma identifier_iff s : identifier_from_str s = Ok s <-> identifier s.
Proof.
  unfold identifier_from_str, validate_identifier, identifier. destruct s as [|a r].
  - cbn. split; [discriminate|]. intros (a & r & E & _). discriminate.
  - destruct (ident_first a) eqn:F.
    + destruct (str_forall ident_rest r) eqn:R; cbn [obind].
      * split; [|reflexivity]. intros _. exists a, r. split; [reflexivity|]. split; [unfold one_of; rewrite <- ident_first_spec; exact F|].
        intros b x y E. unfold one_of. rewrite <- ident_rest_spec. revert b x y E. apply str_forall_iff. exact R.
      * split; [discriminate|]. intros (a' & r' & E & _ & H). injection E; intros; subst.
        assert (str_forall ident_rest r' = true); [|congruence]. apply str_forall_iff. intros b x y E'. rewrite ident_rest_spec. eapply H. exact E'.
    + cbn. split; [discriminate|]. intros (a' & r' & E & H & _). injection E; intros; subst. unfold one_of in H. rewrite <- ident_first_spec in H. congruence.
Qed.
Lemma identifier_result s x : identifier_from_str s = Ok x -> x = s.
Proof. unfold identifier_from_str. destruct (validate_identifier s); cbn; congruence. Qed.
Lemma identifier_no_panic s : identifier_from_str s <> Panic.
Proof. unfold identifier_from_str, validate_identifier. destruct s; cbn; [discriminate|]. destruct (ident_first a); [destruct (str_forall ident_rest s)|]; discriminate. Qed.
Lemma identifier_no_colon s : identifier s -> has_char ":" s = false.
Proof.
  intros (a & r & -> & H1 & H2). cbn [has_char]. destruct (Ascii.eqb_spec a ":") as [->|N].
  - discriminate.
  - cbn. destruct (has_char ":" r) eqn:E; [|reflexivity]. exfalso.
    assert (S : exists x y, r = x ++ String ":" y).
    { destruct (split_once ":" r) as [[x y]|] eqn:S; [apply split_once_spec in S as [S _]; exists x, y; exact S|].
      apply split_once_none in S. congruence. }
    destruct S as (x & y & S). specialize (H2 _ _ _ S). discriminate.
Qed.
Lemma split_colons_nonempty s : split_colons s <> [].
Proof.
  destruct s as [|a r]; cbn; [discriminate|].
  assert (X : match split_colons r with h :: t => String a h :: t | [] => [String a ""] end <> []) by (destruct (split_colons r); discriminate).
  destruct (Ascii.eqb_spec a ":") as [->|N].
  - destruct r as [|b r]; [exact X|]. destruct (Ascii.eqb_spec b ":") as [->|M]; [discriminate|].
    repeat match goal with |- context [match ?b with _ => _ end] => destruct b end; try exact X; try discriminate.
  - repeat match goal with |- context [match ?b with _ => _ end] => destruct b end; try exact X; try discriminate.
Qed.
Lemma split_colons_cons a r : a <> ":"%char \/ (forall r', r <> String ":" r') ->
  split_colons (String a r) = match split_colons r with h :: t => String a h :: t | [] => [String a ""] end.
Proof.
  intros H. cbn [split_colons]. destruct (Ascii.eqb_spec a ":") as [->|N].
  - destruct H as [H|H]; [congruence|]. destruct r as [|b r]; [reflexivity|].
    destruct (Ascii.eqb_spec b ":") as [->|M]; [exfalso; apply (H r); reflexivity|].
    destruct b as [[|] [|] [|] [|] [|] [|] [|] [|]]; try reflexivity; exfalso; apply M; reflexivity.
  - destruct a as [[|] [|] [|] [|] [|] [|] [|] [|]]; try reflexivity; exfalso; apply N; reflexivity.
Qed.
Lemma split_colons_two r : split_colons (String ":" (String ":" r)) = "" :: split_colons r.
Proof. reflexivity. Qed.
Lemma joined_cons s x r : joined (s :: x :: r) = s ++ "::" ++ joined (x :: r).
Proof. reflexivity. Qed.
Lemma split_colons_app s r : has_char ":" s = false -> split_colons (s ++ "::" ++ r) = s :: split_colons r.
Proof.
  induction s as [|a s IH]; intros H; [reflexivity|]. cbn [has_char] in H. apply orb_false_iff in H as [H1 H2].
  change (String a s ++ "::" ++ r) with (String a (s ++ "::" ++ r)). rewrite split_colons_cons.
  - rewrite IH by exact H2. reflexivity.
  - left. intros ->. cbn in H1. discriminate.
Qed.
Lemma split_colons_plain s : has_char ":" s = false -> split_colons s = [s].
Proof.
  induction s as [|a s IH]; intros H; [reflexivity|]. cbn [has_char] in H. apply orb_false_iff in H as [H1 H2].
  rewrite split_colons_cons; [rewrite IH by exact H2; reflexivity|]. left. intros ->. discriminate.
Qed.
Lemma split_joined l : l <> [] -> (forall s, In s l -> has_char ":" s = false) -> split_colons (joined l) = l.
Proof.
  induction l as [|s [|x r] IH]; intros N H; [congruence| |].
  - apply split_colons_plain. apply H. left. reflexivity.
  - rewrite joined_cons, split_colons_app by (apply H; left; reflexivity). rewrite IH; [reflexivity|discriminate|].
    intros y Hy. apply H. right. exact Hy.
Qed.
Lemma joined_split s : joined (split_colons s) = s.
Proof.
  remember (String.length s) as n eqn:En. revert s En. induction n as [n IH] using lt_wf_ind; intros s ->.
  destruct s as [|a r]; [reflexivity|].
  assert (D : (exists r', a = ":"%char /\ r = String ":" r') \/ (a <> ":"%char \/ (forall r', r <> String ":" r'))).
  { destruct (Ascii.eqb_spec a ":") as [->|N]; [|right; left; exact N]. destruct r as [|b r]; [right; right; discriminate|].
    destruct (Ascii.eqb_spec b ":") as [->|M]; [left; exists r; split; reflexivity|]. right. right. intros r' E. congruence. }
  destruct D as [(r' & -> & ->)|D].
  - rewrite split_colons_two. pose proof (split_colons_nonempty r') as N. destruct (split_colons r') as [|h t] eqn:E; [congruence|].
    rewrite joined_cons, <- E, (IH (String.length r')); [reflexivity|cbn; lia|reflexivity].
  - rewrite split_colons_cons by exact D. pose proof (split_colons_nonempty r) as N. specialize (IH (String.length r)).
    destruct (split_colons r) as [|h t] eqn:E; [congruence|].
    assert (J : joined (h :: t) = r) by (rewrite <- E; apply IH; [cbn; lia|reflexivity]).
    destruct t as [|x t]; cbn [joined] in *; [congruence|]. cbn [String.append]. f_equal. exact J.
Qed.
Lemma omap_identifiers l segs : omap identifier_from_str l = Ok segs <-> segs = l /\ forall s, In s l -> identifier s.
Proof.
  revert segs. induction l as [|s l IH]; intros segs; cbn.
  - split; [intros [= <-]; split; [reflexivity|intros ? []]|intros [-> _]; reflexivity].
  - destruct (identifier_from_str s) as [x| |] eqn:E; cbn [obind].
    + pose proof (identifier_result _ _ E) as X. rewrite X in *. clear X x.
      destruct (omap identifier_from_str l) as [ss| |] eqn:O; cbn [obind].
      * split.
        -- intros [= <-]. destruct (proj1 (IH ss) eq_refl) as [-> H]. split; [reflexivity|].
           intros y [<-|Hy]; [apply identifier_iff; exact E|apply H; exact Hy].
        -- intros [-> H]. destruct (proj1 (IH ss) eq_refl) as [-> _]. reflexivity.
      * split; [discriminate|]. intros [-> H]. assert (X : @Err (list string) = Ok l) by (apply IH; split; [reflexivity|intros y Hy; apply H; right; exact Hy]). discriminate.
      * split; [discriminate|]. intros [-> H]. assert (X : @Panic (list string) = Ok l) by (apply IH; split; [reflexivity|intros y Hy; apply H; right; exact Hy]). discriminate.
    + split; [discriminate|]. intros [-> H]. specialize (H s (or_introl eq_refl)). apply identifier_iff in H. congruence.
    + exfalso. exact (identifier_no_panic _ E).
Qed.
Lemma omap_identifiers_no_panic l : omap identifier_from_str l <> Panic.
Proof.
  induction l as [|s l IH]; cbn; [discriminate|]. destruct (identifier_from_str s) eqn:E; cbn [obind]; [|discriminate|intros _; exact (identifier_no_panic _ E)].
  destruct (omap identifier_from_str l); cbn [obind]; congruence.
Qed.

(** *** C53: a path parses iff it is two or more identifiers joined by "::", otherwise it is an error; *)
Theorem C53_parse_iff s segs :
  path_from_str s = Ok segs <-> s = joined segs /\ 2 <= List.length segs /\ forall x, In x segs -> identifier x.
Proof.
  unfold path_from_str. split.
  - destruct (omap identifier_from_str (split_colons s)) as [l| |] eqn:O; cbn [obind]; try discriminate.
    apply omap_identifiers in O as [-> H]. destruct (Nat.leb_spec 2 (List.length (split_colons s))); [|discriminate].
    intros [= <-]. split; [symmetry; apply joined_split|]. split; assumption.
  - intros (-> & L & H). rewrite split_joined.
    + assert (O : omap identifier_from_str segs = Ok segs) by (apply omap_identifiers; split; [reflexivity|exact H]).
      rewrite O. cbn [obind]. destruct (Nat.leb_spec 2 (List.length segs)); [reflexivity|lia].
    + destruct segs; [cbn in L; lia|discriminate].
    + intros x Hx. apply identifier_no_colon. apply H. exact Hx.
Qed.
Theorem C53_parse_otherwise_error s : (forall segs, path_from_str s <> Ok segs) -> path_from_str s = Err.
Proof.
  intros H. destruct (path_from_str s) as [l| |] eqn:E; [exfalso; exact (H l eq_refl)|reflexivity|].
  unfold path_from_str in E. destruct (omap identifier_from_str (split_colons s)) eqn:O; cbn [obind] in E; try discriminate.
  - destruct (Nat.leb 2 (List.length a)); discriminate.
  - exfalso. exact (omap_identifiers_no_panic _ O).
Qed.
Lemma path_string_joined s l : path_string (s :: l) = Ok (joined (s :: l)).
Proof.
  unfold path_string. f_equal. revert s. induction l as [|x r IH]; intros s; [apply sapp_nil_r|].
  rewrite joined_cons. cbn [path_tail]. rewrite <- IH. reflexivity.
Qed.
(** and prints back as written, so that printing is injective on parsed paths. *)
Theorem C53_print_parse s segs : path_from_str s = Ok segs -> path_string segs = Ok s.
Proof.
  intros H. apply C53_parse_iff in H as (-> & L & _). destruct segs; [cbn in L; lia|]. apply path_string_joined.
Qed.
Theorem C53_parse_print segs : 2 <= List.length segs -> (forall x, In x segs -> identifier x) ->
  exists s, path_string segs = Ok s /\ path_from_str s = Ok segs.
Proof.
  intros L H. exists (joined segs). split; [destruct segs; [cbn in L; lia|]; apply path_string_joined|].
  apply C53_parse_iff. auto.
Qed.
(** The affected functions of a vulnerability are those with a requirement matching the package's version. *)
Theorem C53_affected_functions v :
  match affected_functions v with
  | None => forall af, a_affected (v_advisory v) = Some af -> af_functions af = []
  | Some l => exists af, a_affected (v_advisory v) = Some af /\ af_functions af <> [] /\
      forall p, In p l <-> exists reqs r, In (p, reqs) (af_functions af) /\ In r reqs /\ req_matches r (p_version (v_package v)) = true
  end.
Proof.
  unfold affected_functions. destruct (a_affected (v_advisory v)) as [af|]; [|discriminate].
  destruct (af_functions af) as [|f fs] eqn:E; [intros ? [= <-]; exact E|].
  exists af. split; [reflexivity|]. split; [congruence|]. rewrite E. intros p. rewrite in_map_iff. split.
  - intros ((q & reqs) & <- & H). apply filter_In in H as [H1 H2]. cbn [snd] in H2. apply existsb_exists in H2 as (r & R1 & R2).
    exists reqs, r. auto.
  - intros (reqs & r & H1 & H2 & H3). exists (p, reqs). split; [reflexivity|]. apply filter_In. split; [exact H1|].
    cbn [snd]. apply existsb_exists. exists r. split; assumption.
Qed.
Definition ex_path : list string := ["foo"; "<Bar>"; "baz_1"].
Example C53_nonvacuous : path_from_str "foo::<Bar>::baz_1" = Ok ex_path /\ path_from_str "foo::0rly" = Err /\ path_from_str "foo" = Err
  /\ path_from_str "foo:::bar" = Err.
Proof. repeat split; reflexivity. Qed.

(** ** C54 *)
(** [l] is a subsequence of [m]. *)
Inductive subsequence : list string -> list string -> Prop :=
| sub_nil m : subsequence [] m
| sub_take x l m : subsequence l m -> subsequence (x :: l) (x :: m)
| sub_skip y l m : subsequence l m -> subsequence l (y :: m).
(** A segment without its generic parameters. *)
Definition base_name (seg base : string) : Prop :=
  (exists g, seg = base ++ String "<" g) /\ has_char "<" base = false \/ seg = base /\ has_char "<" seg = false.
(** A function path names a symbol: same crate, same function, and the rest of the path in order in between. *)
Definition names_symbol (path symbol : list string) : Prop :=
  exists bases, Forall2 base_name path bases /\
   ((exists f, bases = [f] /\ symbol = [f]) \/
    (exists first pm sm last, bases = (first :: pm ++ [last])%list /\ symbol = (first :: sm ++ [last])%list /\ subsequence pm sm)).

Lemma skip_to_spec x symbol rest : skip_to x symbol = Some rest ->
  exists before, symbol = (before ++ x :: rest)%list /\ ~ In x before.
Proof.
  induction symbol as [|y s IH]; cbn; [discriminate|]. destruct (String.eqb_spec y x) as [->|N].
  - intros [= <-]. exists []. split; [reflexivity|intros []].
  - intros H. destruct (IH H) as (b & -> & Hb). exists (y :: b). split; [reflexivity|]. intros [E|E]; [congruence|exact (Hb E)].
Qed.
Lemma skip_to_none x symbol : skip_to x symbol = None -> ~ In x symbol.
Proof.
  induction symbol as [|y s IH]; cbn; [intros _ []|]. destruct (String.eqb_spec y x) as [->|N]; [discriminate|].
  intros H [E|E]; [congruence|exact (IH H E)].
Qed.
Lemma sub_app l m n : subsequence l m -> subsequence l (n ++ m).
Proof. intros H. induction n; cbn; [exact H|constructor; assumption]. Qed.
Lemma sub_in x l m : subsequence (x :: l) m -> In x m.
Proof.
  intros H. remember (x :: l) as xl eqn:E. revert x l E. induction H; intros; try discriminate.
  - injection E; intros; subst. left. reflexivity.
  - right. eapply IHsubsequence. exact E.
Qed.
Lemma sub_first x l b m : subsequence (x :: l) (b ++ x :: m) -> ~ In x b -> subsequence l m.
Proof.
  induction b as [|y b IH]; cbn [List.app]; intros H N.
  - inversion H as [|? ? ? S|? ? ? S]; subst; [exact S|]. clear -S.
    remember (x :: l) as xl eqn:E. revert x l E. induction S; intros; try discriminate.
    + injection E; intros; subst. apply sub_skip. exact S.
    + apply sub_skip. eapply IHS. exact E.
  - apply IH; [|intros K; apply N; right; exact K]. inversion H; subst; [exfalso; apply N; left; reflexivity|assumption].
Qed.
Lemma is_subsequence_iff l : forall m, is_subsequence l m = true <-> subsequence l m.
Proof.
  induction l as [|x l IH]; intros m; cbn.
  - split; [constructor|reflexivity].
  - destruct (skip_to x m) as [rest|] eqn:E.
    + destruct (skip_to_spec _ _ _ E) as (b & -> & Hb). rewrite IH. split.
      * intros H. apply sub_app. constructor. exact H.
      * intros H. eapply sub_first; eassumption.
    + split; [discriminate|]. intros H. exfalso. apply (skip_to_none _ _ E). eapply sub_in. exact H.
Qed.
Lemma strip_generics_iff s b : strip_generics s = b <-> base_name s b.
Proof.
  unfold strip_generics, base_name. destruct (split_once "<" s) as [[p q]|] eqn:E.
  - apply split_once_spec in E as [-> H]. split.
    + intros <-. left. split; [exists q; reflexivity|exact H].
    + intros [[[g G] K]|[G K]].
      * assert (X : split_once "<" (p ++ String "<" q) = split_once "<" (b ++ String "<" g)) by (rewrite G; reflexivity).
        rewrite !split_once_app in X by assumption. congruence.
      * rewrite has_char_app in K. cbn in K. rewrite orb_true_r in K. discriminate.
  - apply split_once_none in E. split; [intros <-; right; split; [reflexivity|exact E]|].
    intros [[[g ->] _]|[-> _]]; [|reflexivity]. rewrite has_char_app in E. cbn in E. rewrite orb_true_r in E. discriminate.
Qed.
Lemma ends_iff l a m z : ends l = Some (a, m, z) <-> l = (a :: m ++ [z])%list.
Proof.
  unfold ends. destruct l as [|x [|y r]].
  - split; [discriminate|]. discriminate.
  - split; [discriminate|]. intros [= _ E]. destruct m; discriminate.
  - split.
    + destruct (rev (y :: r)) as [|w n] eqn:R; [discriminate|]. intros [= <- <- <-]. f_equal.
      rewrite <- (rev_involutive (y :: r)), R. reflexivity.
    + intros [= -> E]. rewrite E, rev_app_distr. cbn. rewrite rev_involutive. reflexivity.
Qed.
Lemma symbol_matches_iff bases symbol : symbol_matches bases symbol = true <->
  (exists f, bases = [f] /\ symbol = [f]) \/
  (exists first pm sm last, bases = (first :: pm ++ [last])%list /\ symbol = (first :: sm ++ [last])%list /\ subsequence pm sm).
Proof.
  assert (G : match ends symbol, ends bases with
      | Some (i1, im, i2), Some (a1, am, a2) => String.eqb i1 a1 && is_subsequence am im && String.eqb i2 a2
      | _, _ => false end = true <->
    (exists first pm sm last, bases = (first :: pm ++ [last])%list /\ symbol = (first :: sm ++ [last])%list /\ subsequence pm sm)).
  { destruct (ends symbol) as [[[i1 im] i2]|] eqn:E1.
    - destruct (ends bases) as [[[a1 am] a2]|] eqn:E2.
      + rewrite !andb_true_iff, !String.eqb_eq, is_subsequence_iff. apply ends_iff in E1, E2. split.
        * intros [[-> S] ->]. exists a1, am, im, a2. auto.
        * intros (f & pm & sm & z & B & S & Q).
          assert (X : ends bases = Some (f, pm, z)) by (apply ends_iff; exact B).
          assert (Y : ends symbol = Some (f, sm, z)) by (apply ends_iff; exact S).
          apply ends_iff in E1, E2. rewrite E1 in Y. rewrite E2 in X. injection X; injection Y; intros; subst. auto.
      + split; [discriminate|]. intros (f & pm & sm & z & B & _). assert (X : ends bases = Some (f, pm, z)) by (apply ends_iff; exact B). congruence.
    - split; [discriminate|]. intros (f & pm & sm & z & _ & S & _). assert (X : ends symbol = Some (f, sm, z)) by (apply ends_iff; exact S). congruence. }
  unfold symbol_matches. destruct symbol as [|i [|i2 ir]].
  - rewrite G. split; [intros H; right; exact H|]. intros [(f & _ & F)|H]; [discriminate|exact H].
  - destruct bases as [|a [|a2 ar]].
    + rewrite G. split; [intros H; right; exact H|]. intros [(f & F & _)|H]; [discriminate|exact H].
    + rewrite String.eqb_eq. split; [intros ->; left; exists a; auto|].
      intros [(f & F1 & F2)|(f & pm & sm & z & B & _)]; [congruence|]. injection B; intros B' _. destruct pm; discriminate.
    + rewrite G. split; [intros H; right; exact H|]. intros [(f & F & _)|H]; [discriminate|exact H].
  - rewrite G. split; [intros H; right; exact H|]. intros [(f & _ & F)|H]; [discriminate|exact H].
Qed.
Lemma bases_iff path bases : Forall2 base_name path bases <-> bases = map strip_generics path.
Proof.
  revert bases. induction path as [|s p IH]; intros bases; cbn; split.
  - intros H. inversion H. reflexivity.
  - intros ->. constructor.
  - intros H. inversion H as [|? b ? bs B1 B2]; subst. apply strip_generics_iff in B1. apply IH in B2. congruence.
  - intros ->. constructor; [apply strip_generics_iff; reflexivity|]. apply IH. reflexivity.
Qed.
(** *** C54: exactly the affected functions naming some symbol of the binary are listed, in the advisory's order. *)
Theorem C54_filter_exact symbols paths p :
  In p (symbol_filter symbols paths) <-> In p paths /\ exists s, In s symbols /\ names_symbol p s.
Proof.
  unfold symbol_filter. rewrite filter_In, existsb_exists. split.
  - intros [H (s & S1 & S2)]. split; [exact H|]. exists s. split; [exact S1|]. apply symbol_matches_iff in S2.
    exists (map strip_generics p). split; [apply bases_iff; reflexivity|exact S2].
  - intros [H (s & S1 & (bases & B & M))]. split; [exact H|]. exists s. split; [exact S1|].
    apply bases_iff in B. subst bases. apply symbol_matches_iff. exact M.
Qed.
Theorem C54_filter_order symbols paths : exists keep, symbol_filter symbols paths = filter keep paths.
Proof. eexists. reflexivity. Qed.
(** The identifiers of a demangled symbol: those of the qualified self type first. *)
Fixpoint all_segments (t : type_path) : list string :=
  match t with TPath None s => s | TPath (Some q) s => (all_segments q ++ s)%list end.
Theorem C54_flatten t : flatten_type_path t = all_segments t.
Proof.
  unfold flatten_type_path. assert (H : forall t st, List.concat (path_stack t st) = (all_segments t ++ List.concat st)%list).
  { fix IH 1. intros [[q|] s] st; cbn [path_stack all_segments].
    - rewrite IH. cbn. rewrite app_assoc. reflexivity.
    - reflexivity. }
  rewrite H. apply app_nil_r.
Qed.
Example C54_nonvacuous :
  symbol_filter [["xmp_toolkit"; "xmp_file"; "XmpFile"; "close"]; ["std"; "fmt"]]
    [["xmp_toolkit"; "XmpFile<T>"; "close"]; ["xmp_toolkit"; "XmpFile"; "open"]] = [["xmp_toolkit"; "XmpFile<T>"; "close"]].
Proof. reflexivity. Qed.

(** ** C62 *)
(** A usable record: indexes in range, at most one root. *)
Definition well_formed_info (ps : list aud_package) : Prop :=
  (forall p i, In p ps -> In i (au_deps p) -> i < List.length ps) /\
  (forall i j p q, nth_error ps i = Some p -> nth_error ps j = Some q -> au_root p = true -> au_root q = true -> i = j).
(** The recovered package for a record. *)
Definition recovered (ps : list aud_package) (p : aud_package) (q : package) : Prop :=
  p_name q = au_name p /\ p_version q = au_version p /\ p_checksum q = None /\ p_replace q = None /\
  (if au_crates_io p then exists s, p_source q = Some s /\ crates_io_source s = true else p_source q = None) /\
  Forall2 (fun i d => exists r, nth_error ps i = Some r /\ d_name d = au_name r /\ d_version d = au_version r /\
             if au_crates_io r then exists s, d_source d = Some s /\ crates_io_source s = true else d_source d = None)
    (au_deps p) (p_deps q).

Lemma aud_deps_ok all is : (forall i, In i is -> i < List.length all) -> exists ds, omap (aud_dep all) is = Ok ds /\
  Forall2 (fun i d => exists r, nth_error all i = Some r /\ d = mkDep (au_name r) (au_version r) (source_from_json (au_crates_io r))) is ds.
Proof.
  induction is as [|i is IH]; intros H; cbn; [exists []; split; [reflexivity|constructor]|].
  unfold aud_dep at 1. assert (L := H i (or_introl eq_refl)). apply nth_error_Some in L.
  destruct (nth_error all i) as [r|] eqn:E; [|congruence]. cbn [obind].
  destruct IH as (ds & -> & F); [intros j Hj; apply H; right; exact Hj|]. cbn [obind]. eexists. split; [reflexivity|].
  constructor; [exists r; auto|exact F].
Qed.
Lemma aud_deps_bad all is i : In i is -> List.length all <= i -> omap (aud_dep all) is = Err.
Proof.
  induction is as [|j is IH]; intros H L; [destruct H|]. cbn. unfold aud_dep at 1.
  destruct H as [->|H].
  - apply nth_error_None in L. rewrite L. reflexivity.
  - destruct (nth_error all j); [|reflexivity]. cbn [obind]. rewrite IH by assumption. reflexivity.
Qed.
Definition build (all : list aud_package) (p : aud_package) (q : package) : Prop :=
  exists ds, omap (aud_dep all) (au_deps p) = Ok ds /\ q = mkPkg (au_name p) (au_version p) (source_from_json (au_crates_io p)) None ds None.
Lemma aud_deps_no_panic all is : omap (aud_dep all) is <> Panic.
Proof.
  induction is as [|i is IH]; cbn; [discriminate|]. unfold aud_dep at 1. destruct (nth_error all i); cbn [obind]; [|discriminate].
  destruct (omap (aud_dep all) is); cbn [obind]; congruence.
Qed.
Lemma info_loop_ok all ps : forall root qs root', info_loop all ps root = Ok (qs, root') ->
  Forall2 (build all) ps qs /\
  (root <> None -> root' = root /\ forall p, In p ps -> au_root p = false) /\
  (root = None -> match root' with
     | None => forall p, In p ps -> au_root p = false
     | Some q => exists i p, nth_error ps i = Some p /\ nth_error qs i = Some q /\ au_root p = true /\
                   forall j p', nth_error ps j = Some p' -> au_root p' = true -> j = i
     end).
Proof.
  induction ps as [|p ps IH]; intros root qs root'; cbn [info_loop].
  - intros [= <- <-]. split; [constructor|]. split; [intros _; split; [reflexivity|intros ? []]|intros ->; intros ? []].
  - destruct (omap (aud_dep all) (au_deps p)) as [ds| |] eqn:D; cbn [obind]; try discriminate.
    set (lp := mkPkg (au_name p) (au_version p) (source_from_json (au_crates_io p)) None ds None).
    destruct (au_root p) eqn:R.
    + destruct root as [rt|]; cbn [obind]; [discriminate|].
      destruct (info_loop all ps (Some lp)) as [[qs1 r1]| |] eqn:L; cbn [obind]; try discriminate. cbn [fst snd].
      intros [= <- <-]. destruct (IH _ _ _ L) as (F & H1 & _). destruct (H1 ltac:(discriminate)) as [-> H2].
      split; [constructor; [exists ds; auto|exact F]|]. split; [intros K; congruence|]. intros _.
      exists 0, p. cbn. split; [reflexivity|]. split; [reflexivity|]. split; [exact R|].
      intros [|j] p' E1 E2; [reflexivity|]. cbn in E1. apply nth_error_In in E1. rewrite (H2 _ E1) in E2. discriminate.
    + cbn [obind]. destruct (info_loop all ps root) as [[qs1 r1]| |] eqn:L; cbn [obind]; try discriminate. cbn [fst snd].
      intros [= <- <-]. destruct (IH _ _ _ L) as (F & H1 & H2).
      split; [constructor; [exists ds; auto|exact F]|]. split.
      * intros N. destruct (H1 N) as [-> H3]. split; [reflexivity|]. intros x [<-|X]; [exact R|apply H3; exact X].
      * intros N. specialize (H2 N). destruct r1 as [q|].
        -- destruct H2 as (i & p' & E1 & E2 & E3 & E4). exists (S i), p'. cbn. split; [exact E1|]. split; [exact E2|]. split; [exact E3|].
           intros [|j] p'' X Y; [cbn in X; congruence|]. f_equal. eapply E4; eassumption.
        -- intros x [<-|X]; [exact R|apply H2; exact X].
Qed.
Lemma info_loop_total all ps : forall root,
  (forall p i, In p ps -> In i (au_deps p) -> i < List.length all) ->
  (forall i j p q, nth_error ps i = Some p -> nth_error ps j = Some q -> au_root p = true -> au_root q = true -> i = j) ->
  (root <> None -> forall p, In p ps -> au_root p = false) ->
  exists x, info_loop all ps root = Ok x.
Proof.
  induction ps as [|p ps IH]; intros root H1 H2 H3; cbn [info_loop]; [eexists; reflexivity|].
  destruct (aud_deps_ok all (au_deps p)) as (ds & -> & _); [intros i Hi; eapply H1; [left; reflexivity|exact Hi]|]. cbn [obind].
  assert (G : forall rt, (rt <> None -> forall q, In q ps -> au_root q = false) -> exists x, info_loop all ps rt = Ok x).
  { intros rt H. apply IH; [intros q i Hq Hi; eapply H1; [right; exact Hq|exact Hi]| |exact H].
    intros i j q q' E1 E2 R1 R2. assert (S i = S j) by (eapply H2; [exact E1|exact E2|exact R1|exact R2]). lia. }
  destruct (au_root p) eqn:R.
  - destruct root as [rt|].
    + exfalso. specialize (H3 ltac:(discriminate) p (or_introl eq_refl)). congruence.
    + cbn [obind]. match goal with |- context [info_loop all ps ?r] => destruct (G r) as [x ->] end; [|eexists; reflexivity].
      intros _ q Hq. destruct (au_root q) eqn:RQ; [|reflexivity]. exfalso. apply In_nth_error in Hq as [j Hj].
      assert (0 = S j) by (eapply H2; [reflexivity|exact Hj|exact R|exact RQ]). lia.
  - cbn [obind]. destruct (G root) as [x ->]; [intros N q Hq; apply H3; [exact N|right; exact Hq]|eexists; reflexivity].
Qed.
Lemma info_loop_no_panic all ps : forall root, info_loop all ps root <> Panic.
Proof.
  induction ps as [|p ps IH]; intros root; cbn [info_loop]; [discriminate|].
  destruct (omap (aud_dep all) (au_deps p)) eqn:E; cbn [obind]; [|discriminate|intros _; exact (aud_deps_no_panic _ _ E)].
  destruct (au_root p); [destruct root; cbn [obind]; [discriminate|]|cbn [obind]];
    match goal with |- context [info_loop all ps ?r] => specialize (IH r); destruct (info_loop all ps r); cbn [obind]; congruence end.
Qed.
Lemma build_recovered all p q : build all p q -> recovered all p q.
Proof.
  intros (ds & D & ->). unfold recovered; cbn [p_name p_version p_checksum p_replace p_source p_deps].
  do 4 (split; [reflexivity|]). split.
  - destruct (au_crates_io p); cbn; [|reflexivity]. eexists. split; reflexivity.
  - revert ds D. induction (au_deps p) as [|i is IH]; intros ds D; cbn in D; [injection D as <-; constructor|].
    unfold aud_dep at 1 in D. destruct (nth_error all i) as [r|] eqn:E; cbn [obind] in D; [|discriminate].
    destruct (omap (aud_dep all) is) as [ds'| |]; cbn [obind] in D; try discriminate. injection D as <-.
    constructor; [|apply IH; reflexivity]. exists r. cbn. do 3 (split; [auto|]). destruct (au_crates_io r); cbn; [eexists; split; reflexivity|reflexivity].
Qed.
Lemma forall2_in {A B} (P : A -> B -> Prop) l m x : Forall2 P l m -> In x l -> exists y, In y m /\ P x y.
Proof. intros F. induction F; [intros []|]. intros [<-|H1]; [eexists; split; [left; reflexivity|assumption]|]. destruct (IHF H1) as (z & Z1 & Z2). exists z. split; [right; exact Z1|exact Z2]. Qed.
(** *** C62: well-formed data gives a lockfile, anything else an error, *)
Theorem C62_accepts_iff_well_formed ps :
  (exists l, lockfile_of_info ps = Ok l) <-> well_formed_info ps.
Proof.
  unfold lockfile_of_info. split.
  - intros [l H]. destruct (info_loop ps ps None) as [[qs root]| |] eqn:L; cbn [obind] in H; try discriminate.
    destruct (info_loop_ok _ _ _ _ _ L) as (F & _ & R). specialize (R eq_refl). split.
    + intros p i Hp Hi. destruct (Nat.lt_ge_cases i (List.length ps)) as [K|K]; [exact K|]. exfalso.
      assert (X : exists q, build ps p q).
      { destruct (forall2_in _ _ _ _ F Hp) as (q & _ & Q). exists q. exact Q. }
      destruct X as (q & ds & D & _). rewrite (aud_deps_bad ps _ i Hi K) in D. discriminate.
    + intros i j p q E1 E2 R1 R2. destruct root as [q0|].
      * destruct R as (k & p0 & _ & _ & _ & U). rewrite (U _ _ E1 R1), (U _ _ E2 R2). reflexivity.
      * exfalso. rewrite (R p (nth_error_In _ _ E1)) in R1. discriminate.
  - intros [H1 H2]. destruct (info_loop_total ps ps None H1 H2) as [x ->]; [congruence|]. eexists. reflexivity.
Qed.
Theorem C62_rejects ps : ~ well_formed_info ps -> lockfile_of_info ps = Err.
Proof.
  intros H. destruct (lockfile_of_info ps) as [l| |] eqn:E; [|reflexivity|].
  - exfalso. apply H. apply C62_accepts_iff_well_formed. exists l. exact E.
  - exfalso. unfold lockfile_of_info in E. destruct (info_loop ps ps None) eqn:L; cbn [obind] in E; try discriminate.
    exact (info_loop_no_panic _ _ _ L).
Qed.
(** with exactly the recorded packages, sources and dependencies, *)
Theorem C62_packages ps l : lockfile_of_info ps = Ok l ->
  Forall2 (recovered ps) ps (lk_packages l) /\
  match lk_root l with
  | None => forall p, In p ps -> au_root p = false
  | Some q => exists i p, nth_error ps i = Some p /\ nth_error (lk_packages l) i = Some q /\ au_root p = true
  end.
Proof.
  unfold lockfile_of_info. destruct (info_loop ps ps None) as [[qs root]| |] eqn:L; cbn [obind]; try discriminate.
  intros [= <-]. cbn [lk_packages lk_root fst snd]. destruct (info_loop_ok _ _ _ _ _ L) as (F & _ & R). split.
  - clear -F. revert F. generalize ps at 2 4. intros l F. induction F; constructor; [apply build_recovered|]; assumption.
  - specialize (R eq_refl). destruct root as [rt|]; [|exact R]. destruct R as (i & p & E1 & E2 & E3 & _). exists i, p. auto.
Qed.

(** ** The tree of the recovered lockfile *)
(** No record is listed twice. *)
Definition distinct_info (ps : list aud_package) : Prop :=
  forall i j p q, nth_error ps i = Some p -> nth_error ps j = Some q ->
    au_name p = au_name q -> au_version p = au_version q -> au_crates_io p = au_crates_io q -> i = j.
Lemma lockfile_of_info_build ps l : lockfile_of_info ps = Ok l -> Forall2 (build ps) ps (lk_packages l).
Proof.
  unfold lockfile_of_info. destruct (info_loop ps ps None) as [[qs root]| |] eqn:L; cbn [obind]; try discriminate.
  intros [= <-]. exact (proj1 (info_loop_ok _ _ _ _ _ L)).
Qed.
Lemma forall2_nth_l {A B} (P : A -> B -> Prop) l m : Forall2 P l m -> forall i x, nth_error l i = Some x -> exists y, nth_error m i = Some y /\ P x y.
Proof. intros F. induction F; intros [|i] z E; try discriminate; cbn in *; [injection E as <-; eauto|eauto]. Qed.
Lemma forall2_nth_r {A B} (P : A -> B -> Prop) l m : Forall2 P l m -> forall i y, nth_error m i = Some y -> exists x, nth_error l i = Some x /\ P x y.
Proof. intros F. induction F; intros [|i] z E; try discriminate; cbn in *; [injection E as <-; eauto|eauto]. Qed.
Lemma aud_deps_spec all is : forall ds, omap (aud_dep all) is = Ok ds ->
  forall d, In d ds <-> exists i r, In i is /\ nth_error all i = Some r /\ d = mkDep (au_name r) (au_version r) (source_from_json (au_crates_io r)).
Proof.
  induction is as [|i is IH]; intros ds; cbn.
  - intros [= <-] d. split; [intros []|intros (i & r & [] & _)].
  - unfold aud_dep at 1. destruct (nth_error all i) as [r|] eqn:E; cbn [obind]; [|discriminate].
    destruct (omap (aud_dep all) is) as [ds'| |]; cbn [obind]; try discriminate. intros [= <-] d. cbn. rewrite (IH ds' eq_refl d). split.
    + intros [<-|(k & r' & K1 & K2)]; [exists i, r; auto|exists k, r'; auto].
    + intros (k & r' & [<-|K1] & K2 & ->); [left; congruence|right; exists k, r'; auto].
Qed.
Lemma source_from_json_same a b : same_source (source_from_json a) (source_from_json b) <-> a = b.
Proof. destruct a, b; cbn; split; try discriminate; try tauto; reflexivity. Qed.
Lemma source_from_json_locked a : locked_source (source_from_json a).
Proof. destruct a; cbn; [|exact Logic.I]. intros [r R]. discriminate. Qed.
Lemma recovered_locked ps l : lockfile_of_info ps = Ok l -> locked l.
Proof.
  intros H p Hp. apply lockfile_of_info_build in H. apply In_nth_error in Hp as [i Hi].
  destruct (forall2_nth_r _ _ _ H _ _ Hi) as (a & _ & ds & D & ->). cbn [p_source p_deps]. split; [apply source_from_json_locked|].
  intros d Hd. apply (aud_deps_spec _ _ _ D) in Hd as (k & r & _ & _ & ->). apply source_from_json_locked.
Qed.
Lemma recovered_distinct ps l : lockfile_of_info ps = Ok l -> distinct_info ps -> distinct_packages l.
Proof.
  intros H U i j p q Hp Hq. apply lockfile_of_info_build in H.
  destruct (forall2_nth_r _ _ _ H _ _ Hp) as (a & Ha & ds & D & ->). destruct (forall2_nth_r _ _ _ H _ _ Hq) as (b & Hb & es & E & ->).
  intros (N & V & S). cbn in N, V, S. apply source_from_json_same in S. eapply U; eassumption.
Qed.
Lemma recovered_lists ps l i j : lockfile_of_info ps = Ok l -> distinct_info ps ->
  (lists l i j <-> exists p, nth_error ps i = Some p /\ In j (au_deps p)).
Proof.
  intros H U. apply lockfile_of_info_build in H. split.
  - intros (p & q & d & Hp & Hq & Hd & N).
    destruct (forall2_nth_r _ _ _ H _ _ Hp) as (a & Ha & ds & D & ->). destruct (forall2_nth_r _ _ _ H _ _ Hq) as (b & Hb & es & E & ->).
    cbn [p_deps] in Hd. apply (aud_deps_spec _ _ _ D) in Hd as (k & r & K1 & K2 & ->). destruct N as (N & V & S). cbn in N, V, S.
    apply source_from_json_same in S. exists a. split; [exact Ha|]. rewrite <- (U k j r b); assumption.
  - intros (a & Ha & Hj). destruct (forall2_nth_l _ _ _ H _ _ Ha) as (p & Hp & ds & D & ->).
    assert (L : exists r, nth_error ps j = Some r).
    { destruct (nth_error ps j) as [r|] eqn:E; [exists r; reflexivity|]. apply nth_error_None in E. rewrite (aud_deps_bad ps _ j Hj E) in D. discriminate. }
    destruct L as [r Hr]. destruct (forall2_nth_l _ _ _ H _ _ Hr) as (q & Hq & es & E & ->).
    exists (mkPkg (au_name a) (au_version a) (source_from_json (au_crates_io a)) None ds None),
           (mkPkg (au_name r) (au_version r) (source_from_json (au_crates_io r)) None es None),
           (mkDep (au_name r) (au_version r) (source_from_json (au_crates_io r))).
    split; [exact Hp|]. split; [exact Hq|]. split; [cbn; apply (aud_deps_spec _ _ _ D); exists j, r; auto|].
    split; [reflexivity|]. split; [reflexivity|]. cbn. apply source_from_json_same. reflexivity.
Qed.
(** and its dependency tree is built and has exactly the recorded edges. *)
Theorem C62_tree_has_the_recorded_edges ps l : lockfile_of_info ps = Ok l -> distinct_info ps ->
  exists t, tree_new l = Ok t /\ t_packages t = lk_packages l /\
    forall i j, In (i, j) (t_edges t) <-> exists p, nth_error ps i = Some p /\ In j (au_deps p).
Proof.
  intros H U. pose proof (recovered_locked _ _ H) as L. pose proof (recovered_distinct _ _ H U) as D.
  destruct (C36_built_iff_resolvable l L D) as [B _]. destruct B as [t T].
  - intros p d Hp Hd. apply In_nth_error in Hp as [i Hi]. pose proof (lockfile_of_info_build _ _ H) as F.
    destruct (forall2_nth_r _ _ _ F _ _ Hi) as (a & Ha & ds & DD & ->). cbn [p_deps] in Hd.
    apply (aud_deps_spec _ _ _ DD) in Hd as (k & r & _ & K & ->). destruct (forall2_nth_l _ _ _ F _ _ K) as (q & Hq & es & _ & ->).
    eexists. split; [eapply nth_error_In; exact Hq|]. split; [reflexivity|]. split; [reflexivity|]. cbn. apply source_from_json_same. reflexivity.
  - exists t. split; [exact T|]. split; [exact (proj1 (C36_edges_are_the_listed_dependencies l t 0 0 L D T))|].
    intros i j. rewrite (proj2 (C36_edges_are_the_listed_dependencies l t i j L D T)). apply recovered_lists; assumption.
Qed.
(** Reading a binary: embedded data is preferred and decides alone; only a binary without it falls back to panic
    messages; damaged data is an error; nothing panics. *)
Theorem C62_load detect info data limit :
  let n := match limit with Some n => n | None => 8388608%N end in
  match info data n with
  | Info ps => (forall l, lockfile_of_info ps = Ok l -> exists f, load_deps_from_binary detect info data limit = Ok (f, Some l)) /\
               (~ well_formed_info ps -> load_deps_from_binary detect info data limit = Err)
  | NoAuditData => exists f, load_deps_from_binary detect info data limit = Ok (f, deps_from_panic_messages data)
  | InfoError => load_deps_from_binary detect info data limit = Err
  end.
Proof.
  cbv zeta. unfold load_deps_from_binary. change (8 * 1024 * 1024)%N with 8388608%N.
  destruct (info data (match limit with Some n => n | None => 8388608%N end)) as [ps| |]; [|eexists; reflexivity|reflexivity].
  split; [intros l ->; eexists; reflexivity|]. intros N. rewrite (C62_rejects _ N). reflexivity.
Qed.
(** Only crates.io packages carry a source, so only they are compared with crates.io advisories; the recovered lockfile
    has no checksums, patches or metadata. *)
Theorem C62_nothing_else ps l : lockfile_of_info ps = Ok l -> lk_patch l = [] /\ lk_metadata l = [] /\ List.length (lk_packages l) = List.length ps.
Proof.
  intros H. pose proof (lockfile_of_info_build _ _ H) as F. unfold lockfile_of_info in H.
  destruct (info_loop ps ps None) as [x| |]; cbn [obind] in H; try discriminate. injection H as <-.
  split; [reflexivity|]. split; [reflexivity|]. cbn [lk_packages] in *. clear -F. revert F. generalize ps at 2 3. intros l F.
  induction F; cbn; congruence.
Qed.

Definition ex_aud : list aud_package :=
  [mkAud "app" v100 false [1; 2] true; mkAud "foo" v200 true [2] false; mkAud "bar" v100 true [] false].
Example C62_nonvacuous : well_formed_info ex_aud /\ distinct_info ex_aud /\
  (exists l t, lockfile_of_info ex_aud = Ok l /\ tree_new l = Ok t /\ t_edges t = [(0, 1); (0, 2); (1, 2)]) /\
  lockfile_of_info [mkAud "app" v100 false [1] true] = Err /\
  lockfile_of_info [mkAud "app" v100 false [] true; mkAud "b" v100 false [] true] = Err.
Proof.
  assert (exists l t, lockfile_of_info ex_aud = Ok l /\ tree_new l = Ok t /\ t_edges t = [(0, 1); (0, 2); (1, 2)]) as X.
  { eexists. eexists. split; [vm_compute; reflexivity|]. split; [vm_compute; reflexivity|]. reflexivity. }
  split; [apply C62_accepts_iff_well_formed; destruct X as (l & _ & H & _); exists l; exact H|].
  split; [|split; [exact X|split; reflexivity]].
  intros i j p q Hi Hj N _ _.
  destruct i as [|[|[|[|i]]]]; cbn in Hi; try discriminate; destruct j as [|[|[|[|j]]]]; cbn in Hj; try discriminate; try reflexivity;
    injection Hi as <-; injection Hj as <-; discriminate.
Qed.
Print Assumptions C53_parse_iff.
Print Assumptions C53_affected_functions.
Print Assumptions C54_filter_exact.
Print Assumptions C62_accepts_iff_well_formed.
Print Assumptions C62_packages.
Print Assumptions C62_tree_has_the_recorded_edges.
Print Assumptions C62_load.
