(** Property theorems C99: what a package source answers agrees with the text it is written as. *)
From Coq Require Import List NArith Ascii String Bool Lia Arith.
From Verif Require Import Base SemverModel StrLib PkgModel UrlModel UrlSpec UrlProofs PropsSource SourceIdModel.
Import ListNotations.
Local Open Scope string_scope.
Local Infix "++" := String.append (right associativity, at level 60).

(** The word before the first '+' of the text. *)
Definition protocol_is (w : string) (e : bool) (s : source_id) : Prop := exists r, as_url e s = w ++ r.

Ltac kinds s := destruct s as [u k p n]; destruct k as [r| | | | |];
  cbn [s_kind s_url s_precise s_name is_path is_registry is_remote_registry is_git source_kind_eqb get_git_reference].
Ltac texts := unfold protocol_is, as_url; cbn [s_kind s_url s_precise s_name].

Theorem C99_path e s : is_path s = true <-> protocol_is "path+" e s.
Proof. kinds s; texts; split; try discriminate; try (intros [? H]; discriminate H); try (intros _; eauto); reflexivity. Qed.
Theorem C99_git e s : is_git s = true <-> protocol_is "git+" e s.
Proof. kinds s; texts; split; try discriminate; try (intros [? H]; discriminate H); try (intros _; eauto); reflexivity. Qed.
Theorem C99_remote_registry e s : is_remote_registry s = true <-> protocol_is "registry+" e s \/ protocol_is "sparse+" e s.
Proof. kinds s; texts; split; try discriminate; try (intros [[? H]|[? H]]; discriminate H); try (intros _; eauto); reflexivity. Qed.
Theorem C99_registry e s : is_registry s = true <->
  protocol_is "registry+" e s \/ protocol_is "sparse+" e s \/ protocol_is "local-registry+" e s.
Proof. kinds s; texts; split; try discriminate; try (intros [[? H]|[[? H]|[? H]]]; discriminate H); try (intros _; eauto); reflexivity. Qed.
(** What a git source follows is told exactly for git sources, and it is what its text names. *)
Theorem C99_reference s : (forall r, get_git_reference s = Some r <-> s_kind s = SGit r) /\
  (get_git_reference s <> None <-> is_git s = true).
Proof.
  kinds s; (split; [intros q; split; intros H; congruence|split; [intros H; try reflexivity; congruence|intros H; congruence]]).
Qed.

(** A source is crates.io exactly if it is written as one of two texts. *)
Theorem C99_crates_io e s : is_default_registry s = true <->
  as_url e s = "registry+https://github.com/rust-lang/crates.io-index" \/ as_url e s = "sparse+https://index.crates.io/".
Proof.
  unfold is_default_registry, as_url. change (substring 7 (String.length CRATES_IO_SPARSE_INDEX - 7) CRATES_IO_SPARSE_INDEX) with "https://index.crates.io/".
  kinds s; cbn [andb orb]; split; intros H; try discriminate H; try (destruct H as [H|H]; discriminate H).
  - rewrite orb_false_r in H. apply String.eqb_eq in H as ->. left. reflexivity.
  - rewrite orb_false_r. apply String.eqb_eq. destruct H as [H|H]; [|discriminate H]. injection H as H. exact H.
  - apply String.eqb_eq in H as ->. right. reflexivity.
  - apply String.eqb_eq. destruct H as [H|H]; [discriminate H|]. injection H as H. exact H.
Qed.
(** crates.io is a remote registry, a remote registry a registry; a registry is neither a path nor a git repository. *)
Theorem C99_kinds s : (is_default_registry s = true -> is_remote_registry s = true) /\ (is_remote_registry s = true -> is_registry s = true) /\
  (is_registry s = true -> is_path s = false /\ is_git s = false) /\ (is_path s = true -> is_git s = false).
Proof.
  unfold is_default_registry. kinds s; cbn [andb orb]; repeat apply conj; intros H; try discriminate H; try reflexivity; repeat apply conj; reflexivity.
Qed.

(** The words shown to people. *)
Definition default_text (s : source_id) : Prop :=
  as_url true s = "registry+https://github.com/rust-lang/crates.io-index" \/ as_url true s = "sparse+https://index.crates.io/".
Theorem C99_index_words s t : display_index s = t <->
  (default_text s /\ t = "crates.io index") \/ (~ default_text s /\ t = "`" ++ s_url s ++ "` index").
Proof.
  unfold display_index, default_text. rewrite <- C99_crates_io. destruct (is_default_registry s).
  - split; [intros <-; left; split; reflexivity|]. intros [[_ ->]|[H _]]; [reflexivity|]. exfalso. apply H. reflexivity.
  - split; [intros <-; right; split; [discriminate|reflexivity]|]. intros [[H _]|[_ ->]]; [discriminate H|reflexivity].
Qed.
Lemma backtick_index u : "`" ++ u ++ "` index" <> "crates.io index".
Proof. discriminate. Qed.
(** Only crates.io is called the crates.io index; and, of sources without a name (all that reading a text or the
    constructors below give), only crates.io is called crates.io, as no url is just "crates.io". *)
Theorem C99_index_crates_io e s : display_index s = "crates.io index" <->
  as_url e s = "registry+https://github.com/rust-lang/crates.io-index" \/ as_url e s = "sparse+https://index.crates.io/".
Proof.
  rewrite <- C99_crates_io. unfold display_index. destruct (is_default_registry s); split; intros H; try reflexivity; discriminate H.
Qed.
Theorem C99_name_words s : s_name s = None -> s_url s <> "crates.io" -> forall e,
  (display_registry_name s = "crates.io" <->
   as_url e s = "registry+https://github.com/rust-lang/crates.io-index" \/ as_url e s = "sparse+https://index.crates.io/") /\
  (display_registry_name s = "crates.io" \/ display_registry_name s = s_url s).
Proof.
  intros Nn U e. rewrite <- C99_crates_io. unfold display_registry_name. rewrite Nn. destruct (is_default_registry s).
  - split; [split; reflexivity|left; reflexivity].
  - split; [split; intros H; [contradiction|discriminate H]|right; reflexivity].
Qed.
Theorem C99_named s n : is_default_registry s = false -> s_name s = Some n -> display_registry_name s = n.
Proof. unfold display_registry_name. intros -> ->. reflexivity. Qed.

(** Reading a text: what the source read says is what the text said. *)
Theorem C99_read norm t s : from_url norm t = Ok s ->
  s_name s = None /\
  (is_path s = true <-> exists r, t = "path+" ++ r) /\ (is_git s = true <-> exists r, t = "git+" ++ r) /\
  (is_remote_registry s = true <-> exists r, t = "registry+" ++ r \/ t = "sparse+" ++ r) /\
  (is_registry s = true <-> is_remote_registry s = true) /\
  (is_remote_registry s = true -> s_precise s = Some "locked") /\ (is_path s = true -> s_precise s = None).
Proof.
  intros H. destruct (C34_accepted_protocols norm t s H) as [r [E|[E|[E|E]]]]; subst t; revert H; unfold from_url;
    match goal with |- match split_once "+" ?x with _ => _ end = _ -> _ =>
      let k := match x with ?k ++ _ => k end in
      let p := eval cbn in (match split_once "+" k with Some (a, _) => a | None => "" end) in
      assert (C : split_once "+" x = Some (p, r)) by reflexivity; rewrite C; clear C end; cbn [String.eqb Ascii.eqb Bool.eqb];
    destruct (url_parse norm r) as [v|]; try discriminate; intros [= <-];
    cbn [s_kind s_url s_precise s_name is_path is_registry is_remote_registry is_git source_kind_eqb];
    (split; [reflexivity|]); repeat apply conj; try (intros X; discriminate X); try reflexivity; try (intros [q X]; discriminate X);
    try (intros [q [X|X]]; discriminate X); try (intros _; reflexivity); intros _; eauto.
Qed.
(** crates.io, read from a text the url library leaves alone, is crates.io; no other protocol with these urls is. *)
Theorem C99_read_crates_io norm e t s : norm_laws norm -> from_url norm t = Ok s -> (e = false -> plain_ref s) ->
  (is_default_registry s = true <->
   as_url e s = "registry+https://github.com/rust-lang/crates.io-index" \/ as_url e s = "sparse+https://index.crates.io/") /\
  (is_default_registry s = true -> from_url norm (as_url e s) = Ok s).
Proof.
  intros L H P. split; [apply C99_crates_io|]. intros _. apply (C34_read_write_read norm t s e L H P).
Qed.

(** Making a source: the kind and url asked for, no commit, no name; a relative path is an error. *)
Theorem C99_made file_url :
  (forall p, match file_url p with None => for_path file_url p = Err | Some u => for_path file_url p = Ok (mkSource u SPath None None) end) /\
  (forall p, match file_url p with None => for_local_registry file_url p = Err
             | Some u => for_local_registry file_url p = Ok (mkSource u SLocalRegistry None None) end) /\
  (forall p, match file_url p with None => for_directory file_url p = Err
             | Some u => for_directory file_url p = Ok (mkSource u SDirectory None None) end) /\
  (forall u r, for_git u r = Ok (mkSource u (SGit r) None None)) /\
  (forall u, for_registry u = Ok (mkSource u SRegistry None None)).
Proof.
  unfold for_path, for_local_registry, for_directory. repeat apply conj; intros p; try reflexivity; destruct (file_url p); reflexivity.
Qed.
Theorem C99_made_default : for_registry "https://github.com/rust-lang/crates.io-index" = Ok default_source /\ is_default_registry default_source = true.
Proof. split; reflexivity. Qed.
(** Pinning to a commit changes the commit and nothing else; of a git source, the text gets the commit at its end, of any other
    neither text nor answers change. *)
Theorem C99_pinned s c e :
  s_precise (with_precise s c) = c /\ s_url (with_precise s c) = s_url s /\ s_kind (with_precise s c) = s_kind s /\ s_name (with_precise s c) = s_name s /\
  (is_git s = false -> as_url e (with_precise s c) = as_url e s /\ source_eqb (with_precise s c) s = true) /\
  (is_git s = true -> as_url e (with_precise s c) = as_url e (with_precise s None) ++ match c with Some p => "#" ++ p | None => "" end).
Proof.
  repeat apply conj; try reflexivity.
  - intros G. split.
    + revert G. kinds s; unfold as_url; cbn [with_precise s_kind s_url]; intros G; try reflexivity; discriminate G.
    + apply C35_equality_means. cbn [with_precise s_kind s_url s_name]. split; [reflexivity|]. split; [reflexivity|]. right. split; [reflexivity|].
      intros [[x X] _]. cbn [with_precise s_kind] in X. unfold is_git in G. rewrite X in G. discriminate G.
  - revert s. intros s. kinds s; intros G; try discriminate G. unfold as_url. cbn [with_precise s_kind s_url s_precise].
    assert (A : forall x y z : string, x ++ y ++ z = (x ++ y) ++ z).
    { intros x y z. induction x as [|a x IH]; [reflexivity|]. cbn. rewrite IH. reflexivity. }
    assert (B : forall x : string, x ++ "" = x) by (intros x; induction x as [|a x IH]; [reflexivity|]; cbn; rewrite IH; reflexivity).
    rewrite B. rewrite <- A, <- A. reflexivity.
Qed.

(** Sources that count as equal answer every question alike, except what a git source follows. *)
Theorem C99_equal_answers a b : source_eqb a b = true ->
  s_url a = s_url b /\ is_path a = is_path b /\ is_git a = is_git b /\ is_registry a = is_registry b /\ is_remote_registry a = is_remote_registry b /\
  is_default_registry a = is_default_registry b /\ display_index a = display_index b /\ display_registry_name a = display_registry_name b /\
  (is_git a = false -> get_git_reference a = get_git_reference b /\ forall e, as_url e a = as_url e b).
Proof.
  intros H. apply C35_equality_means in H as (U & Nn & [[[[x Ka] [y Kb]] _]|[K G]]).
  - unfold display_index, display_registry_name, is_default_registry, is_path, is_git, is_registry, is_remote_registry, get_git_reference.
    rewrite Ka, Kb, U, Nn. cbn [source_kind_eqb andb orb]. repeat apply conj; try reflexivity. discriminate.
  - unfold display_index, display_registry_name, is_default_registry, is_path, is_git, is_registry, is_remote_registry, get_git_reference.
    rewrite K, U, Nn. repeat apply conj; try reflexivity. intros Q. split; [reflexivity|]. intros e. unfold as_url. rewrite K, U.
    destruct (s_kind b); try reflexivity. discriminate Q.
Qed.
Theorem C99_equal_references_refuted : exists a b, source_eqb a b = true /\ get_git_reference a <> get_git_reference b /\ as_url true a <> as_url true b.
Proof. exists (git_repo (GBranch "main") None), (git_repo (GTag "v1") None). split; [reflexivity|]. split; discriminate. Qed.

(** In a JSON report a path source is null, so a package read back from a report has no source; any other readable source comes
    back (registries locked). *)
Theorem C99_json norm s : norm_laws norm ->
  (package_source_json s = None <-> s = None \/ exists x, s = Some x /\ is_path x = true) /\
  (forall x, s = Some x -> writable norm x -> plain_ref x -> is_path x = false ->
     exists y, package_source_read norm (package_source_json s) = Ok (Some y) /\ source_eqb y x = true /\ s_kind y = s_kind x /\ s_url y = s_url x) /\
  (forall x, s = Some x -> is_path x = true -> package_source_read norm (package_source_json s) = Ok None).
Proof.
  intros L. split; [|split].
  - unfold package_source_json, source_json. destruct s as [x|]; [|split; intros; auto]. destruct (is_path x) eqn:E.
    + split; [intros _; right; eauto|reflexivity].
    + split; [discriminate|]. intros [H|(y & H & P)]; [discriminate H|]. injection H as ->. congruence.
  - intros x -> W P E. unfold package_source_json, source_json. rewrite E. cbn [package_source_read].
    destruct (C34_source_roundtrip norm false x L W (fun _ => P)) as (y & H & Q & U & K & _). rewrite H. cbn [obind]. eauto 6.
  - intros x -> E. unfold package_source_json, source_json. rewrite E. reflexivity.
Qed.
(** What is not null must be a readable source: otherwise reading fails, it does not crash. *)
Theorem C99_json_read norm j o : package_source_read norm j = Ok o <->
  (j = None /\ o = None) \/ (exists t s, j = Some t /\ o = Some s /\ from_url norm t = Ok s).
Proof.
  destruct j as [t|]; cbn [package_source_read].
  - destruct (from_url norm t) as [s| |] eqn:E; cbn [obind]; split; intros H; try discriminate H.
    + injection H as <-. right. eauto.
    + destruct H as [[H _]|(t' & s' & H & -> & F)]; [discriminate H|]. injection H as <-. congruence.
    + destruct H as [[H _]|(t' & s' & H & -> & F)]; [discriminate H|]. injection H as <-. congruence.
    + destruct H as [[H _]|(t' & s' & H & -> & F)]; [discriminate H|]. injection H as <-. congruence.
  - split; [intros [= <-]; left; split; reflexivity|]. intros [[_ ->]|(t & s & H & _)]; [reflexivity|discriminate H].
Qed.
Theorem C99_no_crash norm file_url t : from_url norm t <> Panic /\ package_source_read norm (Some t) <> Panic /\ for_path file_url t <> Panic /\ for_local_registry file_url t <> Panic /\ for_directory file_url t <> Panic.
Proof.
  assert (F : from_url norm t <> Panic).
  { unfold from_url. destruct (split_once "+" t) as [[k r]|]; [|discriminate].
    repeat match goal with |- context [if ?b then _ else _] => destruct b end; try discriminate; destruct (url_parse norm r); discriminate. }
  split; [exact F|]. split; [cbn [package_source_read]; destruct (from_url norm t); try discriminate; contradiction|].
  unfold for_path, for_local_registry, for_directory. destruct (file_url t); repeat apply conj; discriminate.
Qed.
Print Assumptions C99_crates_io. Print Assumptions C99_read. Print Assumptions C99_json. Print Assumptions C99_equal_answers.

Example C99_example :
  as_url true default_source = "registry+https://github.com/rust-lang/crates.io-index" /\ is_default_registry default_source = true /\
  display_index default_source = "crates.io index" /\ display_registry_name default_source = "crates.io" /\
  display_index (mkSource "https://my.index/" SSparseRegistry None None) = "`https://my.index/` index" /\
  display_registry_name (mkSource "https://my.index/" SSparseRegistry None (Some "mine")) = "mine" /\
  as_url true (with_precise (git_repo (GBranch "main") None) (Some "abc")) = "git+https://example.org/r.git?branch=main#abc" /\
  package_source_read ex_norm (package_source_json (Some default_source)) = Ok (Some (reread default_source)) /\
  for_path (fun p => if starts_with "/" p then Some ("file://" ++ p)%string else None) "x" = Err.
Proof. repeat apply conj; vm_compute; reflexivity. Qed.
