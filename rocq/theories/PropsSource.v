(** Property theorems C33 (checksums), C34 and C35 (package sources). *)
From Coq Require Import List NArith Ascii String Bool Lia Arith.
From Verif Require Import Base SemverModel StrLib VerText PkgModel UrlModel UrlSpec UrlProofs SumModel.
Import ListNotations.
Local Open Scope string_scope.
Local Open Scope N_scope.
Local Infix "++" := String.append (right associativity, at level 60).

(** ** C33 *)
Lemma hex_lower_facts d : d < 16 ->
  hex_val (hex_lower d) = Some d /\ boundary_before (hex_lower d) = true /\ hex_lower d <> "+"%char.
Proof.
  intros H. assert (K : forallb (fun n => let d := N.of_nat n in match hex_val (hex_lower d) with Some x => x =? d | None => false end
     && boundary_before (hex_lower d) && negb (Ascii.eqb (hex_lower d) "+"))%bool (seq 0 16) = true) by reflexivity.
  rewrite forallb_forall in K. specialize (K (N.to_nat d)). cbv zeta in K. rewrite N2Nat.id in K.
  assert (In (N.to_nat d) (seq 0 16)) as Hin by (apply in_seq; lia). specialize (K Hin).
  apply andb_prop in K as [K K3]. apply andb_prop in K as [K1 K2].
  destruct (hex_val (hex_lower d)) as [x|]; [|discriminate]. apply N.eqb_eq in K1 as ->.
  split; [reflexivity|]. split; [exact K2|]. destruct (Ascii.eqb_spec (hex_lower d) "+"); [discriminate|assumption].
Qed.
Lemma digest_print d : Forall (fun x => x < 256) d -> digest_loop (checksum_string d) = Ok d.
Proof.
  induction d as [|x d IH]; intros F; [reflexivity|]. inversion F as [|? ? Hx Fd]; subst.
  assert (H1 : x / 16 < 16) by (apply N.div_lt_upper_bound; lia). assert (H2 : x mod 16 < 16) by (apply N.mod_lt; lia).
  destruct (hex_lower_facts _ H1) as (A1 & A2 & _), (hex_lower_facts _ H2) as (B1 & _ & _).
  cbn [checksum_string digest_loop]. rewrite A2.
  assert (match checksum_string d with String c _ => boundary_before c | EmptyString => true end = true) as ->.
  { destruct d as [|y d']; [reflexivity|]. cbn [checksum_string]. inversion Fd; subst.
    apply (hex_lower_facts (y / 16)). apply N.div_lt_upper_bound; lia. }
  cbn [andb negb]. unfold hex_byte. rewrite A1, B1, (IH Fd). cbn [obind]. pose proof (N.div_mod' x 16). do 2 f_equal. lia.
Qed.
Lemma checksum_string_length d : String.length (checksum_string d) = (2 * List.length d)%nat.
Proof. induction d as [|x d IH]; [reflexivity|]. cbn [checksum_string String.length List.length]. rewrite IH. lia. Qed.

Theorem C33_checksum_roundtrip : forall d, is_digest d ->
  checksum_from_str (checksum_string d) = Ok d /\ String.length (checksum_string d) = 64%nat /\
  str_forall (fun a => match hex_val a with Some _ => negb ((65 <=? N_of_ascii a) && (N_of_ascii a <=? 70)) | None => false end)
    (checksum_string d) = true.
Proof.
  intros d [L F]. pose proof (checksum_string_length d) as E. rewrite L in E. split; [|split; [exact E|]].
  - unfold checksum_from_str. rewrite E. cbn [Nat.eqb negb]. apply digest_print. exact F.
  - clear L E. induction F as [|x d Hx F IH]; [reflexivity|]. cbn [checksum_string str_forall].
    assert (K : forall n, n < 16 -> match hex_val (hex_lower n) with Some _ => negb ((65 <=? N_of_ascii (hex_lower n)) && (N_of_ascii (hex_lower n) <=? 70)) | None => false end = true).
    { intros n Hn. assert (T : forallb (fun k => match hex_val (hex_lower (N.of_nat k)) with Some _ => negb ((65 <=? N_of_ascii (hex_lower (N.of_nat k))) && (N_of_ascii (hex_lower (N.of_nat k)) <=? 70)) | None => false end) (seq 0 16) = true) by reflexivity.
      rewrite forallb_forall in T. specialize (T (N.to_nat n)). rewrite N2Nat.id in T. apply T. apply in_seq. lia. }
    rewrite (K (x / 16)), (K (x mod 16)), IH; [reflexivity| |]; [apply N.mod_lt; lia|apply N.div_lt_upper_bound; lia].
Qed.
Print Assumptions C33_checksum_roundtrip.

(** A string of 64 hexadecimal digits (either case) is accepted with the digest it spells. *)
Fixpoint spells (s : string) (d : list N) : Prop :=
  match s, d with
  | EmptyString, [] => True
  | String a (String b r), x :: d' => (exists h l, hex_val a = Some h /\ hex_val b = Some l /\ x = 16 * h + l) /\ spells r d'
  | _, _ => False
  end.
Lemma hex_boundary a h : hex_val a = Some h -> boundary_before a = true /\ h < 16.
Proof.
  intros H. assert (T : forallb (fun a => match hex_val a with Some h => boundary_before a && (h <? 16) | None => true end) all_ascii = true) by reflexivity.
  pose proof (ascii_forall _ T a) as K. cbv beta in K. rewrite H in K. apply andb_prop in K as [K1 K2]. apply N.ltb_lt in K2. auto.
Qed.
Lemma spells_head s d : spells s d -> match s with String c _ => boundary_before c | EmptyString => true end = true.
Proof. destruct s as [|a [|b r]]; intros H; [reflexivity|destruct d; destruct H|]. destruct d; [destruct H|]. destruct H as [(h & l & Ha & _) _]. apply (hex_boundary a h Ha). Qed.
Theorem C33_hex_strings_are_accepted : forall s d, String.length s = 64%nat -> spells s d ->
  checksum_from_str s = Ok d /\ is_digest d.
Proof.
  assert (L2 : forall n s d, (String.length s <= n)%nat -> spells s d ->
     digest_loop s = Ok d /\ (String.length s = 2 * List.length d)%nat /\ Forall (fun x => x < 256) d).
  { induction n as [|n IH]; intros s d Hn H.
    - destruct s; [|cbn in Hn; lia]. destruct d; [|destruct H]. cbn. auto.
    - destruct s as [|a [|b r]]; [destruct d; [cbn; auto|destruct H]|destruct d; destruct H|].
      destruct d as [|x d]; [destruct H|]. destruct H as [(h & l & Ha & Hb & ->) H].
      destruct (hex_boundary a h Ha) as [B1 L1], (hex_boundary b l Hb) as [_ L2].
      destruct (IH r d) as (E1 & E2 & E3); [cbn in Hn; lia|exact H|].
      cbn [digest_loop]. rewrite B1, (spells_head r d H). cbn [andb negb]. unfold hex_byte. rewrite Ha, Hb, E1. cbn [obind].
      split; [reflexivity|]. split; [cbn [String.length List.length]; lia|]. constructor; [lia|exact E3]. }
  intros s d L H. destruct (L2 64%nat s d) as (E1 & E2 & E3); [lia|exact H|].
  unfold checksum_from_str. rewrite L. cbn [Nat.eqb negb]. split; [exact E1|]. split; [lia|exact E3].
Qed.
Print Assumptions C33_hex_strings_are_accepted.

(** What else is accepted: the high digit of a byte may be a plus sign. *)
Fixpoint spells_loosely (s : string) (d : list N) : Prop :=
  match s, d with
  | EmptyString, [] => True
  | String a (String b r), x :: d' =>
      (exists l, hex_val b = Some l /\ ((exists h, hex_val a = Some h /\ x = 16 * h + l) \/ (a = "+"%char /\ x = l))) /\ spells_loosely r d'
  | _, _ => False
  end.
Theorem C33_accepted_strings : forall s d, checksum_from_str s = Ok d -> String.length s = 64%nat /\ spells_loosely s d.
Proof.
  assert (K : forall n s d, (String.length s = 2 * n)%nat -> digest_loop s = Ok d -> spells_loosely s d).
  { induction n as [|n IH]; intros s d L H.
    - destruct s; [|discriminate]. injection H as <-. exact I.
    - destruct s as [|a [|b r]]; try (cbn in L; lia). cbn [digest_loop] in H.
      destruct (negb _); [discriminate|]. destruct (hex_byte a b) as [x|] eqn:Eb; [|discriminate].
      destruct (digest_loop r) as [l| |] eqn:Er; cbn [obind] in H; try discriminate. injection H as <-.
      split; [|apply IH; [cbn in L; lia|exact Er]].
      unfold hex_byte in Eb. destruct (hex_val a) as [h|] eqn:Ea, (hex_val b) as [y|] eqn:Eb'; try discriminate.
      + injection Eb as <-. exists y. split; [reflexivity|]. left. eauto.
      + destruct (Ascii.eqb_spec a "+") as [->|]; [|discriminate]. injection Eb as <-. exists y. auto. }
  intros s d. unfold checksum_from_str. destruct (Nat.eqb_spec (String.length s) 64) as [L|]; [|discriminate]. cbn [negb].
  intros H. split; [exact L|]. apply (K 32%nat); [lia|exact H].
Qed.
Print Assumptions C33_accepted_strings.
Fixpoint repeat_str (n : nat) (s : string) : string := match n with O => "" | S m => s ++ repeat_str m s end.
Theorem C33_only_hex_strings_are_accepted_refuted :
  (exists s d, checksum_from_str s = Ok d /\ has_char "+" s = true) /\
  (exists s, checksum_from_str s = Panic /\ String.length s = 64%nat).
Proof.
  split; [exists (repeat_str 32 "+f"), (repeat 15 32)|exists ("0" ++ repeat_str 31 (String (ascii_of_N 195) (String (ascii_of_N 169) "")) ++ "0")];
    vm_compute; auto.
Qed.
Print Assumptions C33_only_hex_strings_are_accepted_refuted.
Theorem C33_ascii_never_panics : forall s, str_forall (fun a => N_of_ascii a <? 128) s = true -> checksum_from_str s <> Panic.
Proof.
  assert (K : forall n s, (String.length s <= n)%nat -> str_forall (fun a => N_of_ascii a <? 128) s = true -> digest_loop s <> Panic).
  { assert (B : forall a, (N_of_ascii a <? 128) = true -> boundary_before a = true).
    { apply (ascii_imp (fun a => N_of_ascii a <? 128) boundary_before). reflexivity. }
    induction n as [|n IH]; intros s L H; [destruct s; [discriminate|cbn in L; lia]|].
    destruct s as [|a [|b r]]; try discriminate. cbn [str_forall] in H. apply andb_prop in H as [Ha H]. apply andb_prop in H as [Hb H].
    cbn [digest_loop]. rewrite (B a Ha).
    assert (match r with String c _ => boundary_before c | EmptyString => true end = true) as ->.
    { destruct r as [|c r']; [reflexivity|]. apply B. cbn in H. apply andb_prop in H as [H _]. exact H. }
    cbn [andb negb]. destruct (hex_byte a b); [|discriminate].
    specialize (IH r). destruct (digest_loop r); cbn [obind]; try discriminate. exfalso. apply IH; auto. cbn in L. lia. }
  intros s H. unfold checksum_from_str. destruct (negb _); [discriminate|]. apply (K (String.length s)); auto.
Qed.
Print Assumptions C33_ascii_never_panics.
Example C33_nonvacuous :
  is_digest (repeat 175 32) /\ checksum_string (repeat 175 32) = repeat_str 32 "af" /\
  spells (repeat_str 32 "aF") (repeat 175 32) /\ checksum_from_str (repeat_str 31 "af" ++ "a") = Err.
Proof.
  split; [split; [reflexivity|apply Forall_forall; intros x Hx; apply repeat_spec in Hx; subst; reflexivity]|].
  split; [reflexivity|]. split; [|reflexivity].
  cbn [repeat_str repeat String.append spells]. repeat (split; [exists 10, 15; repeat split; reflexivity|]). exact I.
Qed.

(** ** C34 *)
Theorem C34_source_roundtrip : forall norm encoded s, norm_laws norm -> writable norm s -> (encoded = false -> plain_ref s) ->
  exists s', from_url norm (as_url encoded s) = Ok s' /\ source_eqb s' s = true /\
    s_url s' = s_url s /\ s_kind s' = s_kind s /\
    s_precise s' = match s_kind s with SGit _ => s_precise s | SPath => None | _ => Some "locked" end.
Proof.
  intros norm encoded s L W P. exists (reread s). split; [apply source_roundtrip; assumption|]. split; [|repeat split].
  destruct W as [Hn _]. unfold source_eqb, source_cmp, reread. cbn [s_url s_kind s_precise s_name]. rewrite Hn.
  rewrite (cmp_refl _ str_cmp_laws). cbn [then_cmp option_cmp].
  destruct (s_kind s); try reflexivity. destruct (s_precise s); [rewrite (cmp_refl _ str_cmp_laws)|]; reflexivity.
Qed.
Print Assumptions C34_source_roundtrip.
(** Whatever text was accepted, writing it in the escaped form (lockfile format 4) and reading it again gives
    the very same source; in the unescaped form if the git reference is plain. *)
Theorem C34_read_write_read : forall norm t s encoded, norm_laws norm -> from_url norm t = Ok s -> (encoded = false -> plain_ref s) ->
  from_url norm (as_url encoded s) = Ok s.
Proof.
  intros norm t s encoded L H P. destruct (from_url_writable norm t s L H) as [W E].
  rewrite (source_roundtrip norm encoded s L W P), E. reflexivity.
Qed.
Print Assumptions C34_read_write_read.
Theorem C34_accepted_protocols : forall norm t s, from_url norm t = Ok s ->
  exists r, t = "git+" ++ r \/ t = "registry+" ++ r \/ t = "sparse+" ++ r \/ t = "path+" ++ r.
Proof.
  intros norm t s. unfold from_url. destruct (split_once "+" t) as [[k r]|] eqn:E; [|discriminate].
  apply split_once_spec in E as [-> _]. intros H. exists r.
  destruct (String.eqb_spec k "git") as [->|]; [left; reflexivity|].
  destruct (String.eqb_spec k "registry") as [->|]; [right; left; reflexivity|].
  destruct (String.eqb_spec k "sparse") as [->|]; [right; right; left; reflexivity|].
  destruct (String.eqb_spec k "path") as [->|]; [right; right; right; reflexivity|]. discriminate.
Qed.
Print Assumptions C34_accepted_protocols.

Definition ex_norm (s : string) : option string :=
  if str_forall (fun a => visible a && negb (is_one_of "?#" a)) s && starts_with "https://" s then Some s else None.
Lemma ex_norm_laws : norm_laws ex_norm.
Proof.
  intros s b. unfold ex_norm. destruct (str_forall _ s) eqn:E; [|discriminate]. destruct (starts_with "https://" s) eqn:F; [|discriminate].
  cbn [andb]. intros H; injection H as <-. rewrite E, F. split; [reflexivity|].
  split; [eapply str_forall_imp; [|exact E]; intros a Ha; apply andb_prop in Ha; apply Ha|].
  split; (eapply str_forall_has; [exact E|reflexivity]).
Qed.
Definition git_repo (r : git_reference) (p : option string) : source_id := mkSource "https://example.org/r.git" (SGit r) p None.
Example C34_nonvacuous :
  writable ex_norm (git_repo (GBranch "feature/a+b & c%") (Some "80e71a30")) /\
  as_url true (git_repo (GBranch "feature/a+b & c%") (Some "80e71a30")) = "git+https://example.org/r.git?branch=feature%2Fa%2Bb+%26+c%25#80e71a30" /\
  from_url ex_norm (as_url true (git_repo (GBranch "feature/a+b & c%") (Some "80e71a30"))) = Ok (git_repo (GBranch "feature/a+b & c%") (Some "80e71a30")) /\
  plain_ref (git_repo (GTag "v1.0") None) /\ writable ex_norm default_source /\
  from_url ex_norm "registry+https://github.com/rust-lang/crates.io-index" = Ok (reread default_source).
Proof.
  split; [split; [reflexivity|split; reflexivity]|]. split; [reflexivity|]. split; [reflexivity|]. split; [reflexivity|].
  split; [|reflexivity]. split; [reflexivity|].
  exists CRATES_IO_INDEX, (mkUrl CRATES_IO_INDEX None None). split; reflexivity.
Qed.
(** The unescaped form loses references containing ['+'], and local registries and directories are written
    in a form that is not read. *)
Theorem C34_unescaped_roundtrip_refuted :
  writable ex_norm (git_repo (GBranch "c++") None) /\
  from_url ex_norm (as_url false (git_repo (GBranch "c++") None)) = Ok (git_repo (GBranch "c  ") None) /\
  (forall norm u, from_url norm (as_url false (mkSource u SLocalRegistry None None)) = Err /\
                  from_url norm (as_url false (mkSource u SDirectory None None)) = Err).
Proof. split; [split; [reflexivity|split; reflexivity]|]. split; [reflexivity|]. intros. split; reflexivity. Qed.
Print Assumptions C34_unescaped_roundtrip_refuted.

(** ** C35 *)
Definition both_git (a b : source_id) : Prop := (exists x, s_kind a = SGit x) /\ (exists y, s_kind b = SGit y).
Theorem C35_equality_means : forall a b, source_eqb a b = true <->
  s_url a = s_url b /\ s_name a = s_name b /\
  ((both_git a b /\ (forall p q, s_precise a = Some p -> s_precise b = Some q -> p = q)) \/
   (s_kind a = s_kind b /\ ~ both_git a b)).
Proof.
  intros a b. unfold source_eqb, source_cmp, both_git.
  assert (U : forall x, match then_cmp (str_cmp (s_url a) (s_url b)) x with Eq => true | _ => false end = true <->
              s_url a = s_url b /\ match x with Eq => true | _ => false end = true).
  { intros x. destruct (str_cmp (s_url a) (s_url b)) eqn:E; cbn [then_cmp].
    - apply (cmp_eq _ str_cmp_laws) in E. tauto.
    - split; [discriminate|]. intros [E' _]. rewrite E', (cmp_refl _ str_cmp_laws) in E. discriminate.
    - split; [discriminate|]. intros [E' _]. rewrite E', (cmp_refl _ str_cmp_laws) in E. discriminate. }
  assert (N : forall x, match then_cmp (option_cmp str_cmp (s_name a) (s_name b)) x with Eq => true | _ => false end = true <->
              s_name a = s_name b /\ match x with Eq => true | _ => false end = true).
  { intros x. pose proof (option_cmp_laws _ str_cmp_laws) as OL. destruct (option_cmp str_cmp (s_name a) (s_name b)) eqn:E; cbn [then_cmp].
    - apply (cmp_eq _ OL) in E. tauto.
    - split; [discriminate|]. intros [E' _]. rewrite E', (cmp_refl _ OL) in E. discriminate.
    - split; [discriminate|]. intros [E' _]. rewrite E', (cmp_refl _ OL) in E. discriminate. }
  rewrite U, N.
  assert (K : match (match s_kind a, s_kind b with
        | SGit _, SGit _ => match s_precise a, s_precise b with Some x, Some y => str_cmp x y | _, _ => Eq end
        | x, y => source_kind_cmp x y end) with Eq => true | _ => false end = true <->
      ((((exists x, s_kind a = SGit x) /\ (exists y, s_kind b = SGit y)) /\ (forall p q, s_precise a = Some p -> s_precise b = Some q -> p = q)) \/
   (s_kind a = s_kind b /\ ~ ((exists x, s_kind a = SGit x) /\ (exists y, s_kind b = SGit y))))); [|tauto].
  destruct (s_kind a) as [ra| | | | |], (s_kind b) as [rb| | | | |]; cbn [source_kind_cmp source_kind_rank Nat.compare];
    try (split; [intros _; right; split; [reflexivity|intros [[? X] _]; discriminate X]|intros _; reflexivity]);
    try (split; [discriminate|intros [[[[? X] [? Y]] _]|[X _]]; discriminate]).
  split.
  - intros H. left. split; [split; eexists; reflexivity|]. intros p q Hp Hq. rewrite Hp, Hq in H.
    destruct (str_cmp p q) eqn:E; try discriminate. apply (cmp_eq _ str_cmp_laws). exact E.
  - intros [[_ H]|[_ H]]; [|exfalso; apply H; split; eexists; reflexivity].
    destruct (s_precise a) as [p|], (s_precise b) as [q|]; try reflexivity.
    rewrite (H p q eq_refl eq_refl), (cmp_refl _ str_cmp_laws). reflexivity.
Qed.
Print Assumptions C35_equality_means.
Theorem C35_reflexive_symmetric : forall a b, source_eqb a a = true /\ source_eqb a b = source_eqb b a /\
  source_cmp b a = CompOpp (source_cmp a b).
Proof.
  intros a b. split; [unfold source_eqb; rewrite source_cmp_refl; reflexivity|]. split; [|apply source_cmp_antisym].
  unfold source_eqb. rewrite (source_cmp_antisym a b). destruct (source_cmp a b); reflexivity.
Qed.
Print Assumptions C35_reflexive_symmetric.
(** Transitivity holds when the middle source is not a git source or records a commit. *)
Theorem C35_transitive_partial : forall a b c, (forall r, s_kind b = SGit r -> s_precise b <> None) ->
  source_eqb a b = true -> source_eqb b c = true -> source_eqb a c = true.
Proof.
  intros a b c Hb. rewrite !C35_equality_means. intros (U1 & N1 & H1) (U2 & N2 & H2).
  split; [congruence|]. split; [congruence|].
  destruct H1 as [[[[x Ga] [y Gb]] P1]|[K1 G1]].
  - destruct H2 as [[[_ [z Gc]] P2]|[K2 G2]].
    + left. split; [split; eauto|]. intros p q Hp Hq. destruct (s_precise b) as [m|] eqn:Em; [|exfalso; exact (Hb y Gb eq_refl)].
      transitivity m; [apply P1|apply P2]; auto.
    + exfalso. apply G2. split; exists y; congruence.
  - destruct H2 as [[[[y Gb] _] _]|[K2 _]].
    + exfalso. apply G1. split; exists y; congruence.
    + right. split; [congruence|]. intros [[x Ga] _]. apply G1. split; exists x; congruence.
Qed.
Print Assumptions C35_transitive_partial.
Theorem C35_transitive_refuted : exists a b c, source_eqb a b = true /\ source_eqb b c = true /\ source_eqb a c = false.
Proof.
  exists (git_repo GDefaultBranch (Some "1")), (git_repo GDefaultBranch None), (git_repo GDefaultBranch (Some "2")).
  repeat split; reflexivity.
Qed.
Print Assumptions C35_transitive_refuted.
Theorem C35_hash_consistent_refuted : exists a b, source_eqb a b = true /\ source_hash_input a <> source_hash_input b.
Proof. exists default_source, (reread default_source). split; [reflexivity|discriminate]. Qed.
Print Assumptions C35_hash_consistent_refuted.

(** *** C34: how a git URL is read: the last pair naming a reference wins; "ref" is another spelling of "branch"; the
    fragment is the commit. *)
Definition names_reference (k v : string) (r : git_reference) : Prop :=
  ((k = "branch" \/ k = "ref") /\ r = GBranch v) \/ (k = "rev" /\ r = GRev v) \/ (k = "tag" /\ r = GTag v).
Definition reference_key (k : string) : Prop := k = "branch" \/ k = "ref" \/ k = "rev" \/ k = "tag".
Definition last_reference (pairs : list (string * string)) (r : git_reference) : Prop :=
  (exists l1 k v l2, pairs = (l1 ++ (k, v) :: l2)%list /\ names_reference k v r /\ forall k' v', In (k', v') l2 -> ~ reference_key k') \/
  ((forall k v, In (k, v) pairs -> ~ reference_key k) /\ r = GDefaultBranch).
Lemma apply_pair_other r k v : ~ reference_key k -> apply_pair r (k, v) = r.
Proof.
  intros H. unfold apply_pair, reference_key in *. destruct (String.eqb_spec k "branch"); [tauto|]. destruct (String.eqb_spec k "ref"); [tauto|].
  destruct (String.eqb_spec k "rev"); [tauto|]. destruct (String.eqb_spec k "tag"); [tauto|]. reflexivity.
Qed.
Lemma apply_pair_key r k v : reference_key k -> names_reference k v (apply_pair r (k, v)).
Proof. intros [->|[->|[->| ->]]]; unfold names_reference; cbn; tauto. Qed.
Lemma last_reference_fold pairs : last_reference pairs (fold_left apply_pair pairs GDefaultBranch).
Proof.
  induction pairs as [|[k v] pairs IH] using rev_ind.
  - right. split; [intros ? ? []|reflexivity].
  - rewrite fold_left_app. cbn [fold_left]. set (r := fold_left apply_pair pairs GDefaultBranch) in *.
    assert (D : reference_key k \/ ~ reference_key k).
    { unfold reference_key. destruct (String.eqb_spec k "branch"); [tauto|]. destruct (String.eqb_spec k "ref"); [tauto|].
      destruct (String.eqb_spec k "rev"); [tauto|]. destruct (String.eqb_spec k "tag"); tauto. }
    destruct D as [D|D].
    + left. exists pairs, k, v, []. split; [reflexivity|]. split; [apply apply_pair_key; exact D|intros ? ? []].
    + rewrite apply_pair_other by exact D. destruct IH as [(l1 & k1 & v1 & l2 & -> & N & O)|[O E]].
      * left. exists l1, k1, v1, (l2 ++ [(k, v)])%list. split; [rewrite <- app_assoc; reflexivity|]. split; [exact N|].
        intros k' v' H. apply in_app_iff in H as [H|[H|[]]]; [exact (O _ _ H)|congruence].
      * right. split; [|exact E]. intros k' v' H. apply in_app_iff in H as [H|[H|[]]]; [exact (O _ _ H)|congruence].
Qed.
Theorem C34_git_urls : forall norm t s, from_url norm ("git+" ++ t) = Ok s ->
  exists u r, url_parse norm t = Some u /\ s = mkSource (u_base u) (SGit r) (u_fragment u) None /\ last_reference (query_pairs (u_query u)) r.
Proof.
  intros norm t s. unfold from_url. change (split_once "+" ("git+" ++ t)) with (Some ("git", t)). cbn [String.eqb Ascii.eqb Bool.eqb].
  destruct (url_parse norm t) as [u|] eqn:E; [|discriminate]. intros [= <-]. exists u, (fold_left apply_pair (query_pairs (u_query u)) GDefaultBranch).
  split; [reflexivity|]. split; [reflexivity|]. apply last_reference_fold.
Qed.
Print Assumptions C34_git_urls.
Example C34_git_urls_nonvacuous :
  from_url ex_norm "git+https://a.b/c?branch=x&ref=y&z=1#abc" = Ok (mkSource "https://a.b/c" (SGit (GBranch "y")) (Some "abc") None).
Proof. reflexivity. Qed.

(** ** C34: the texts.  Form encoding: letters, digits and [*-._] stand for themselves, [+] for a space, and [%] with two
    upper-case hexadecimal digits for every other byte. *)
Definition form_letter (a : ascii) : Prop := exists i c, String.get i "abcdefghijklmnopqrstuvwxyzABCDEFGHIJKLMNOPQRSTUVWXYZ0123456789*-._" = Some c /\ a = c.
Definition hex_digit (n : N) (c : ascii) : Prop := String.get (N.to_nat n) "0123456789ABCDEF" = Some c.
Inductive form_coded : string -> string -> Prop :=
  | coded_end : form_coded "" ""
  | coded_self : forall a b c, form_letter a -> form_coded b c -> form_coded (String a b) (String a c)
  | coded_space : forall b c, form_coded b c -> form_coded (" " ++ b) ("+" ++ c)
  | coded_byte : forall a b c hi lo, ~ form_letter a -> a <> " "%char -> hex_digit (N_of_ascii a / 16) hi -> hex_digit (N_of_ascii a mod 16) lo ->
      form_coded b c -> form_coded (String a b) ("%" ++ String hi (String lo c)).
Definition coded (encoded : bool) (b c : string) : Prop := if encoded then form_coded b c else c = b.
(** What stands after the URL of a git source: nothing for the default branch, otherwise the reference; then the revision,
    if one is pinned. *)
Inductive ref_text (encoded : bool) : git_reference -> string -> Prop :=
  | default_text : ref_text encoded GDefaultBranch ""
  | branch_text : forall b c, coded encoded b c -> ref_text encoded (GBranch b) ("?branch=" ++ c)
  | tag_text : forall b c, coded encoded b c -> ref_text encoded (GTag b) ("?tag=" ++ c)
  | rev_text : forall b c, coded encoded b c -> ref_text encoded (GRev b) ("?rev=" ++ c).
Inductive source_text (encoded : bool) (s : source_id) : string -> Prop :=
  | path_text : s_kind s = SPath -> source_text encoded s ("path+" ++ s_url s)
  | registry_text : s_kind s = SRegistry -> source_text encoded s ("registry+" ++ s_url s)
  | sparse_text : s_kind s = SSparseRegistry -> source_text encoded s ("sparse+" ++ s_url s)
  | local_text : s_kind s = SLocalRegistry -> source_text encoded s ("local-registry+" ++ s_url s)
  | directory_text : s_kind s = SDirectory -> source_text encoded s ("directory+" ++ s_url s)
  | git_text : forall r q, s_kind s = SGit r -> s_precise s = None -> ref_text encoded r q -> source_text encoded s ("git+" ++ s_url s ++ q)
  | pinned_text : forall r q p, s_kind s = SGit r -> s_precise s = Some p -> ref_text encoded r q ->
      source_text encoded s ("git+" ++ s_url s ++ q ++ "#" ++ p).

Lemma form_letter_iff a : form_letter a <-> form_plain a = true.
Proof.
  split.
  - intros (i & c & H & ->). do 66 (destruct i as [|i]; [cbn in H; injection H as <-; reflexivity|]). cbn in H. discriminate H.
  - intros H. revert H. destruct a as [[] [] [] [] [] [] [] []]; intros H; try discriminate H;
      match goal with |- form_letter ?x => 
        let n := eval vm_compute in (match String.index 0 (String x "") "abcdefghijklmnopqrstuvwxyzABCDEFGHIJKLMNOPQRSTUVWXYZ0123456789*-._" with Some n => n | None => 0%nat end) in
        exists n; eexists; split; reflexivity end.
Qed.
Lemma pct_hex a : exists hi lo, pct a = "%" ++ String hi (String lo "") /\ hex_digit (N_of_ascii a / 16) hi /\ hex_digit (N_of_ascii a mod 16) lo.
Proof. destruct a as [[] [] [] [] [] [] [] []]; eexists _, _; (split; [reflexivity|split; reflexivity]). Qed.
Lemma serialize_coded b : form_coded b (byte_serialize b).
Proof.
  induction b as [|a b IH]; [constructor|]. cbn [byte_serialize]. destruct (form_plain a) eqn:P.
  { constructor; [apply form_letter_iff; exact P|exact IH]. }
  destruct (Ascii.eqb_spec a " ") as [->|Ns]; [exact (coded_space _ _ IH)|].
  destruct (pct_hex a) as (h & l & -> & H & L). cbn [String.append]. apply (coded_byte a b (byte_serialize b) h l); auto.
  rewrite form_letter_iff, P. discriminate.
Qed.
Lemma form_coded_unique b : forall c c', form_coded b c -> form_coded b c' -> c = c'.
Proof.
  induction b as [|a b IH]; intros c c' H H'; [inversion H; inversion H'; reflexivity|].
  assert (Sp : ~ form_letter " ") by (rewrite form_letter_iff; discriminate).
  inversion H as [|a1 b1 c1 P1 K1|b1 c1 K1|a1 b1 c1 h1 l1 P1 S1 H1 L1 K1]; subst;
    inversion H' as [|a2 b2 c2 P2 K2|b2 c2 K2|a2 b2 c2 h2 l2 P2 S2 H2 L2 K2]; subst; try contradiction;
    try (exfalso; congruence); rewrite (IH _ _ K1 K2); try reflexivity.
  unfold hex_digit in *. assert (h1 = h2) as -> by congruence. assert (l1 = l2) as -> by congruence. reflexivity.
Qed.
(** The text of a source is this one and no other. *)
Theorem C34_text : forall encoded s t, as_url encoded s = t <-> source_text encoded s t.
Proof.
  assert (A : forall e s, source_text e s (as_url e s)).
  { intros e s. unfold as_url. destruct (s_kind s) as [r| | | | |] eqn:K; try (constructor; exact K).
    assert (R : ref_text e r (match pretty_ref e r with Some p => "?" ++ p | None => "" end)).
    { unfold pretty_ref. assert (C : forall b, coded e b (if e then byte_serialize b else b)) by (intros b; destruct e; [apply serialize_coded|reflexivity]).
      destruct r as [|b|b|b]; [constructor|..]; cbn [String.append]; constructor; apply C. }
    destruct (s_precise s) as [p|] eqn:P; [exact (pinned_text e s r _ p K P R)|]. 
    rewrite sapp_nil_r. exact (git_text e s r _ K P R). }
  intros e s t. split; [intros <-; apply A|]. intros H. specialize (A e s). revert A. generalize (as_url e s). intros t' A.
  assert (Ru : forall r q q', ref_text e r q -> ref_text e r q' -> q = q').
  { intros r q q' X Y. inversion X; subst; inversion Y; subst; try reflexivity; do 2 f_equal; unfold coded in *;
      (destruct e; [eapply form_coded_unique; eassumption|congruence]). }
  inversion A; subst; inversion H; subst; try reflexivity; try congruence.
  - assert (r0 = r) as -> by congruence. match goal with X : ref_text e r _, Y : ref_text e r _ |- _ => rewrite (Ru _ _ _ X Y) end. reflexivity.
  - assert (r0 = r) as -> by congruence. assert (p0 = p) as -> by congruence.
    match goal with X : ref_text e r _, Y : ref_text e r _ |- _ => rewrite (Ru _ _ _ X Y) end. reflexivity.
Qed.
Print Assumptions C34_text.
Example C34_text_nonvacuous : source_text true (git_repo (GBranch "c++ x") (Some "abc")) ("git+" ++ s_url (git_repo (GBranch "") None) ++ "?branch=c%2B%2B+x#abc").
Proof. apply C34_text. reflexivity. Qed.
