(** Property C88: the list of targets, and the program as a whole. *)
From Coq Require Import List NArith Ascii String Bool Arith Lia Sorted.
From Verif Require Import Base StrLib IdModel OsvAdvModel SortProofs PartsModel ConfigModel AssignModel PlatGenModel PlatGenSpec PropsPlatGen PropsPlatGen2 CvssTextProofs.
Import ListNotations.
Local Open Scope string_scope.

Ltac flat := repeat (progress (cbn [lines append String.concat]; rewrite ?sapp_assoc)).
Lemma tier_iff d t : tier_variant d = Ok t <-> tier_text d t.
Proof.
  unfold tier_text. cbn [In]. split.
  - intros H. destruct d as [|[[p|p|]|[p|p|]|]]; try discriminate H; injection H as <-; tauto.
  - intros [H|[H|[H|[]]]]; injection H as <- <-; reflexivity.
Qed.
Lemma fields_iff info s :
  each (fun key => computing (or_panic (lookup_key info key)) (fun value => computing (enum_name key) (fun name =>
       emit ("    " ++ key ++ ": " ++ name ++ "::" ++ variant_name value ++ "," ++ String nl "")))) FIELDS_WITH_ENUMS = (s, Ok tt)
  <-> exists arch os env endian width,
      lookup_key info "target_arch" = Some arch /\ lookup_key info "target_os" = Some os /\ lookup_key info "target_env" = Some env
      /\ lookup_key info "target_endian" = Some endian /\ lookup_key info "target_pointer_width" = Some width
      /\ s = lines ["    target_arch: Arch::" ++ variant_name arch ++ ","; "    target_os: Os::" ++ variant_name os ++ ",";
           "    target_env: Env::" ++ variant_name env ++ ","; "    target_endian: Endian::" ++ variant_name endian ++ ",";
           "    target_pointer_width: PointerWidth::" ++ variant_name width ++ ","].
Proof.
  assert (One : forall key name p, enum_name key = Ok name ->
    computing (or_panic (lookup_key info key)) (fun value => computing (enum_name key) (fun name =>
       emit ("    " ++ key ++ ": " ++ name ++ "::" ++ variant_name value ++ "," ++ String nl ""))) = (p, Ok tt)
    <-> exists v, lookup_key info key = Some v /\ p = "    " ++ key ++ ": " ++ name ++ "::" ++ variant_name v ++ "," ++ String nl "").
  { intros key name p E. rewrite computing_ok. split.
    - intros (v & Hv & H). apply or_panic_ok in Hv. exists v. split; [exact Hv|]. rewrite E in H. apply emit_ok in H. exact H.
    - intros (v & Hv & ->). exists v. split; [apply or_panic_ok; exact Hv|]. rewrite E. reflexivity. }
  rewrite each_ok. unfold FIELDS_WITH_ENUMS. split.
  - intros (parts & F & ->).
    inversion F as [|? p1 ? r1 H1 F1]; subst. inversion F1 as [|? p2 ? r2 H2 F2]; subst. inversion F2 as [|? p3 ? r3 H3 F3]; subst.
    inversion F3 as [|? p4 ? r4 H4 F4]; subst. inversion F4 as [|? p5 ? r5 H5 F5]; subst. inversion F5; subst.
    apply (One _ "Arch") in H1 as (v1 & L1 & ->); [|reflexivity]. apply (One _ "Os") in H2 as (v2 & L2 & ->); [|reflexivity].
    apply (One _ "Env") in H3 as (v3 & L3 & ->); [|reflexivity]. apply (One _ "Endian") in H4 as (v4 & L4 & ->); [|reflexivity].
    apply (One _ "PointerWidth") in H5 as (v5 & L5 & ->); [|reflexivity].
    exists v1, v2, v3, v4, v5. split; [exact L1|]. split; [exact L2|]. split; [exact L3|]. split; [exact L4|]. split; [exact L5|].
    rewrite !concat_cons. cbn [String.concat lines append]. rewrite ?sapp_assoc. cbn [append]. rewrite ?sapp_assoc. reflexivity.
  - intros (v1 & v2 & v3 & v4 & v5 & L1 & L2 & L3 & L4 & L5 & ->).
    exists ["    target_arch: Arch::" ++ variant_name v1 ++ "," ++ String nl ""; "    target_os: Os::" ++ variant_name v2 ++ "," ++ String nl "";
            "    target_env: Env::" ++ variant_name v3 ++ "," ++ String nl ""; "    target_endian: Endian::" ++ variant_name v4 ++ "," ++ String nl "";
            "    target_pointer_width: PointerWidth::" ++ variant_name v5 ++ "," ++ String nl ""].
    split.
    + constructor; [apply (One _ "Arch"); [reflexivity|]; now exists v1|]. constructor; [apply (One _ "Os"); [reflexivity|]; now exists v2|].
      constructor; [apply (One _ "Env"); [reflexivity|]; now exists v3|]. constructor; [apply (One _ "Endian"); [reflexivity|]; now exists v4|].
      constructor; [apply (One _ "PointerWidth"); [reflexivity|]; now exists v5|]. constructor.
    + rewrite !concat_cons. cbn [String.concat lines append]. rewrite ?sapp_assoc. cbn [append]. rewrite ?sapp_assoc. reflexivity.
Qed.
Lemma target_iff triple info d s :
  write_target triple info d = (s, Ok tt) <-> target_says variant_name const_name triple info d s.
Proof.
  unfold write_target, target_says. split.
  - intros H. apply andthen_ok in H as (a & b & Ha & H & ->). apply andthen_ok in H as (a2 & b2 & Ha2 & H & ->).
    apply emit_ok in Ha2 as ->. apply andthen_ok in H as (a3 & b3 & Ha3 & H & ->). apply andthen_ok in H as (a4 & b4 & Ha4 & H & ->).
    apply emit_ok in H as ->. apply computing_ok in Ha4 as (t & Ht & Ha4). apply emit_ok in Ha4 as ->.
    apply fields_iff in Ha3 as (v1 & v2 & v3 & v4 & v5 & L1 & L2 & L3 & L4 & L5 & ->).
    exists v1, v2, v3, v4, v5, t. split; [exact L1|]. split; [exact L2|]. split; [exact L3|]. split; [exact L4|]. split; [exact L5|].
    split; [apply tier_iff; exact Ht|]. unfold target_text, quoted. rewrite !lines_app.
    destruct (String.eqb (doc_notes d) ""); apply emit_ok in Ha as ->; flat; reflexivity.
  - intros (v1 & v2 & v3 & v4 & v5 & t & L1 & L2 & L3 & L4 & L5 & Ht & ->).
    set (fields := lines ["    target_arch: Arch::" ++ variant_name v1 ++ ","; "    target_os: Os::" ++ variant_name v2 ++ ",";
           "    target_env: Env::" ++ variant_name v3 ++ ","; "    target_endian: Endian::" ++ variant_name v4 ++ ",";
           "    target_pointer_width: PointerWidth::" ++ variant_name v5 ++ ","]).
    assert (F := proj2 (fields_iff info fields)). rewrite F by (exists v1, v2, v3, v4, v5; repeat split; assumption).
    rewrite (proj2 (tier_iff _ _) Ht). cbn [computing]. unfold andthen, emit.
    unfold target_text, quoted. rewrite !lines_app. unfold fields.
    destruct (String.eqb (doc_notes d) ""); cbn [fst snd]; f_equal; flat; reflexivity.
Qed.

(** The text of each target of the list. *)
Definition targets_say (triples : list string) (infos : list (list (string * string))) (docs : list (string * doc_info)) (texts : list string) : Prop :=
  Forall2 (fun ti text => exists d, lookup_key docs (fst ti) = Some d /\ target_says variant_name const_name (fst ti) (snd ti) d text)
    (combine triples infos) texts.
Theorem C88_targets_file : forall triples infos docs text,
  write_targets triples infos docs = (text, Ok tt)
  <-> exists texts, targets_say triples infos docs texts
      /\ text = imports_text ++ list_text const_name triples ++ String.concat "" texts.
Proof.
  intros triples infos docs text. unfold write_targets.
  assert (I : each (fun key => computing (enum_name key) (fun name => emit (" " ++ name ++ ","))) FIELDS_WITH_ENUMS
     = (" Arch, Os, Env, Endian, PointerWidth,", Ok tt)) by reflexivity.
  rewrite I.
  assert (L : write_list triples = (list_text const_name triples, Ok tt)).
  { unfold write_list. rewrite (proj2 (each_emit (fun t => "    " ++ const_name t ++ "," ++ String nl "") triples _) eq_refl).
    unfold andthen, emit. cbn [fst snd]. f_equal. unfold list_text. rewrite !lines_app, lines_map.
    assert (E : concat_map (fun x => ("    " ++ const_name x ++ ",") ++ String nl "") triples = concat_map (fun t => "    " ++ const_name t ++ "," ++ String nl "") triples).
    { unfold concat_map. f_equal. apply map_ext. intros t. rewrite !sapp_assoc. reflexivity. }
    rewrite E. cbn [lines append]. rewrite ?sapp_assoc. reflexivity. }
  rewrite L.
  assert (E : forall parts, Forall2 (fun (x : string * list (string * string)) p =>
       computing (or_panic (lookup_key docs (fst x))) (fun d => write_target (fst x) (snd x) d) = (p, Ok tt)) (combine triples infos) parts
     <-> targets_say triples infos docs parts).
  { intros parts. unfold targets_say. assert (P : forall (x : string * list (string * string)) p,
       computing (or_panic (lookup_key docs (fst x))) (fun d => write_target (fst x) (snd x) d) = (p, Ok tt)
       <-> exists d, lookup_key docs (fst x) = Some d /\ target_says variant_name const_name (fst x) (snd x) d p).
    { intros x p. rewrite computing_ok. split; intros (d & A & B); exists d; (split; [apply or_panic_ok; exact A|apply target_iff; exact B]). }
    split; intros F; induction F as [|x p l ps H F IH]; constructor; try exact IH; apply P; exact H. }
  split.
  - intros H. apply andthen_ok in H as (a & b & Ha & H & ->). apply emit_ok in Ha as ->.
    apply andthen_ok in H as (a & c & Ha & H & ->). assert (a = " Arch, Os, Env, Endian, PointerWidth,") by congruence. subst a.
    apply andthen_ok in H as (a & d & Ha' & H & ->). apply emit_ok in Ha' as ->.
    apply andthen_ok in H as (a & e & Ha' & H & ->). assert (a = list_text const_name triples) by congruence. subst a.
    apply each_ok in H as (parts & F & ->). exists parts. split; [apply E; exact F|].
    generalize (list_text const_name triples ++ String.concat "" parts). intros r. unfold targets_header, imports_text.
    cbn [lines append]. reflexivity.
  - intros (parts & F & ->).
    rewrite (proj2 (each_ok _ (combine triples infos) (String.concat "" parts))) by (exists parts; split; [apply E; exact F|reflexivity]).
    unfold andthen, emit. cbn [fst snd]. f_equal.
Qed.

(** ** The program *)
Section Program.
  Context (header footer : string -> option string) (comment : string -> option string) (wide_lowercase : string -> bool).
  Context (format_node : md -> option string) (run : string -> option N * string).
  Local Notation program := (main header footer comment wide_lowercase format_node run).
  Local Notation file := (write_enum_file header footer comment wide_lowercase).

  Definition enums : list (string * string) :=
    [("target_arch", "src/target/arch.rs"); ("target_os", "src/target/os.rs"); ("target_env", "src/target/env.rs");
     ("target_endian", "src/target/endian.rs"); ("target_pointer_width", "src/target/pointer_width.rs")].
  Lemma paths_enums : map (fun key => (key, enum_path key)) FIELDS_WITH_ENUMS = enums.
  Proof. reflexivity. Qed.

  Lemma write_files_ok l files : write_files l = (files, Ok tt)
    <-> Forall2 (fun pw f => fst f = fst pw /\ snd pw = (snd f, Ok tt)) l files.
  Proof.
    revert files. induction l as [|[p [t o]] l IH]; intros files; cbn [write_files fst snd].
    - split; [intros [= <-]; constructor|]. intros F. inversion F. reflexivity.
    - destruct o as [[]| |].
      + destruct (write_files l) as [fs o] eqn:E. split.
        * intros [= <- ->]. constructor; [now split|]. apply IH. reflexivity.
        * intros F. inversion F as [|? [p' t'] ? fs' [A B] F']; subst. cbn in A, B. injection B as <-. subst p'.
          apply IH in F'. injection F' as -> ->. reflexivity.
      + split; [discriminate|]. intros F. inversion F as [|? [p' t'] ? fs' [A B] F']; subst. discriminate B.
      + split; [discriminate|]. intros F. inversion F as [|? [p' t'] ? fs' [A B] F']; subst. discriminate B.
  Qed.
  (** What rustc answers for each listed target. *)
  Definition answers (triples : list string) (infos : list (list (string * string))) : Prop :=
    Forall2 (fun t info => exists out, run t = (Some 0%N, out) /\ parse_cfg out = Ok info) triples infos.
  Lemma infos_iff triples infos : targets_info run triples = Ok infos <-> answers triples infos.
  Proof.
    unfold targets_info, answers. rewrite omap_iff.
    assert (P : forall t info, (match run t with (Some 0%N, out) => parse_cfg out | _ => Panic end) = Ok info
                <-> exists out, run t = (Some 0%N, out) /\ parse_cfg out = Ok info).
    { intros t info. destruct (run t) as [[[|c]|] out]; split; try discriminate.
      - intros H. now exists out.
      - intros (o & [= <-] & H). exact H.
      - intros (o & H & _). discriminate H.
      - intros (o & H & _). discriminate H. }
    split; intros F; induction F as [|x p l ps H F IH]; constructor; try exact IH; apply P; exact H.
  Qed.

  (** The program ends well exactly when the page is read, agrees with rustc's list, rustc answers for each target, and each
      of the six files is completed; it has then written these six files. *)
  Theorem C88_program : forall page listed files,
    program page listed = (files, Ok tt)
    <-> exists doc docs infos,
          page = Ok doc /\ parse_doc format_node doc = Ok docs
          /\ (forall t, In t (file_lines listed) <-> exists v, lookup_key docs t = Some v)
          /\ answers (file_lines listed) infos
          /\ exists texts platforms,
               Forall2 (fun ke text => file (fst ke) infos = (text, Ok tt)) enums texts
               /\ write_targets (file_lines listed) infos docs = (platforms, Ok tt)
               /\ files = (combine (map snd enums) texts ++ [("src/platform/platforms.rs", platforms)])%list.
  Proof.
    intros page listed files. unfold main.
    assert (W : forall infos docs, write_files (map (fun key => (enum_path key, file key infos)) FIELDS_WITH_ENUMS
         ++ [("src/platform/platforms.rs", write_targets (file_lines listed) infos docs)])%list = (files, Ok tt)
       <-> exists texts platforms, Forall2 (fun ke text => file (fst ke) infos = (text, Ok tt)) enums texts
               /\ write_targets (file_lines listed) infos docs = (platforms, Ok tt)
               /\ files = (combine (map snd enums) texts ++ [("src/platform/platforms.rs", platforms)])%list).
    { intros infos docs. rewrite write_files_ok. split.
      - intros F. apply Forall2_app_inv_l in F as (fs & ps & F & G & ->).
        inversion G as [|? [p t] ? l [A B] G']; subst. inversion G'; subst. cbn in A, B. subst p.
        exists (map snd fs), t. split; [|split; [exact B|f_equal]].
        + rewrite <- paths_enums. clear - F. revert fs F. induction FIELDS_WITH_ENUMS as [|k ks IH]; intros fs F; inversion F as [|? f ? r [A B] F']; subst; cbn [map]; constructor; [exact B|exact (IH _ F')].
        + rewrite <- paths_enums. clear - F. revert fs F. induction FIELDS_WITH_ENUMS as [|k ks IH]; intros fs F; inversion F as [|? f ? r [A B] F']; subst; cbn [map combine]; [reflexivity|].
          f_equal; [|exact (IH _ F')]. destruct f as [p t]. cbn in A. subst p. reflexivity.
      - intros (texts & platforms & F & P & ->). apply Forall2_app.
        + rewrite <- paths_enums in *. clear P. revert texts F. induction FIELDS_WITH_ENUMS as [|k ks IH]; intros texts F;
            inversion F as [|? f ? r A F']; subst; cbn [map combine]; constructor; [split; [reflexivity|exact A]|exact (IH _ F')].
        + constructor; [split; [reflexivity|exact P]|constructor]. }
    unfold target_triples. split.
    - destruct page as [doc| |]; cbn [obind]; intros H; try discriminate H.
      destruct (parse_doc format_node doc) as [docs| |] eqn:Ed; cbn [obind] in H; try discriminate H.
      destruct (agree (file_lines listed) docs) eqn:Ea; [|discriminate H].
      destruct (targets_info run (file_lines listed)) as [infos| |] eqn:Ei; cbn [obind] in H; try discriminate H.
      exists doc, docs, infos. split; [reflexivity|]. split; [exact Ed|]. split; [apply C87_agreement; exact Ea|].
      split; [apply infos_iff; exact Ei|]. apply W. exact H.
    - intros (doc & docs & infos & -> & Ed & Ea & Ei & H). cbn [obind]. rewrite Ed. cbn [obind].
      apply C87_agreement in Ea. rewrite Ea. apply infos_iff in Ei. rewrite Ei. cbn [obind]. apply W. exact H.
  Qed.

  (** Exit code 1 -- the page cannot be read, or it disagrees with rustc's list -- leaves every file alone. *)
  Theorem C88_error_writes_nothing : forall page listed files, program page listed = (files, Err) ->
    files = [] /\ (page = Err \/ exists doc docs, page = Ok doc /\ parse_doc format_node doc = Ok docs
                     /\ ~ (forall t, In t (file_lines listed) <-> exists v, lookup_key docs t = Some v)).
  Proof.
    intros page listed files. unfold main, target_triples.
    assert (NE : forall {A B} (f : A -> outcome B) l, (forall x, f x <> Err) -> omap f l <> Err).
    { intros A B f l H. induction l as [|x l IH]; cbn [omap]; [discriminate|]. specialize (H x).
      destruct (f x); cbn [obind]; try congruence. destruct (omap f l); cbn [obind]; congruence. }
    assert (NC : forall t, parse_cfg t <> Err).
    { intros t. unfold parse_cfg. intros H. destruct (omap read_line (file_lines t)) as [x| |] eqn:E; cbn [obind] in H; try discriminate H.
      revert E. apply NE. intros l. destruct (read_line_cases l) as [[o ->]| ->]; discriminate. }
    assert (NI : forall l, targets_info run l <> Err).
    { intros l. unfold targets_info. apply NE. intros t. destruct (run t) as [[[|c]|] out]; try discriminate. apply NC. }
    assert (NP : forall d, parse_doc format_node d <> Err).
    { intros d. unfold parse_doc. destruct (found_table _); discriminate. }
    destruct page as [doc| |]; cbn [obind failing]; [|intros [= <-]; split; [reflexivity|now left]|discriminate].
    destruct (parse_doc format_node doc) as [docs| |] eqn:Ed; cbn [obind failing]; [|destruct (NP doc Ed)|discriminate].
    destruct (agree (file_lines listed) docs) eqn:Ea; cbn [obind failing].
    - destruct (targets_info run (file_lines listed)) as [infos| |] eqn:Ei; cbn [obind failing]; [|destruct (NI _ Ei)|discriminate].
      intros H. exfalso.
      assert (EE : forall {A} (f : A -> writing) l, (forall x, snd (f x) <> Err) -> snd (each f l) <> Err).
      { intros A f l K. induction l as [|x l IH]; cbn [each]; [discriminate|]. specialize (K x). unfold andthen.
        destruct (f x) as [a [[]| |]]; cbn [fst snd] in *; congruence. }
      assert (AE : forall a b, snd a <> Err -> snd b <> Err -> snd (andthen a b) <> Err).
      { intros [a [[]| |]] [b o] A B; cbn in *; congruence. }
      assert (CE : forall {A} (o : option A) k, (forall v, snd (k v) <> Err) -> snd (computing (or_panic o) k) <> Err).
      { intros A [v|] k K; cbn; [apply K|discriminate]. }
      assert (XE : forall {A} (o : outcome A) k, o <> Err -> (forall v, snd (k v) <> Err) -> snd (computing o k) <> Err).
      { intros A [v| |] k O K; cbn; [apply K|congruence|discriminate]. }
      assert (DE : forall key infos, distinct_values key infos <> Err).
      { intros key is X. unfold distinct_values in X. destruct (omap _ is) as [x| |] eqn:E; cbn [obind] in X; try discriminate X.
        revert E. apply NE. intros i. destruct (lookup_key i key); discriminate. }
      assert (NmE : forall key, enum_name key <> Err) by (intros key; unfold enum_name; destruct (lookup_key _ key); discriminate).
      assert (FE : forall key, snd (file key infos) <> Err).
      { intros key. unfold write_enum_file. apply AE; [apply CE; discriminate|]. apply AE.
        { unfold write_definition. apply XE; [apply NmE|]. intros name. apply AE; [discriminate|]. apply XE; [apply DE|].
          intros vs. apply AE; [|discriminate]. apply EE. intros v. apply AE; [discriminate|].
          apply XE; [unfold starts_lowercase; destruct (variant_name v); discriminate|]. intros lw. apply AE; [destruct lw; discriminate|discriminate]. }
        apply AE; [|apply CE; discriminate].
        unfold write_conversions. apply XE; [apply DE|]. intros vs. apply XE; [apply NmE|]. intros name.
        apply AE; [discriminate|]. apply AE; [apply EE; discriminate|]. apply AE; [discriminate|]. apply AE; [discriminate|].
        apply AE; [apply EE; discriminate|discriminate]. }
      assert (TE : snd (write_targets (file_lines listed) infos docs) <> Err).
      { unfold write_targets. apply AE; [discriminate|]. apply AE; [apply EE; intros key; apply XE; [apply NmE|discriminate]|].
        apply AE; [discriminate|]. apply AE.
        { unfold write_list. apply AE; [discriminate|]. apply AE; [apply EE; discriminate|discriminate]. }
        apply EE. intros [t i]. apply CE. intros d. unfold write_target.
        apply AE; [destruct (String.eqb (doc_notes d) ""); discriminate|]. apply AE; [discriminate|]. apply AE.
        { apply EE. intros key. apply CE. intros v. apply XE; [apply NmE|discriminate]. }
        apply AE; [|discriminate]. apply XE; [|discriminate]. intros X. clear - X.
        destruct (doc_tier d) as [|[[p|p|]|[p|p|]|]]; discriminate X. }
      assert (G : forall l, (forall pw, In pw l -> snd (snd pw) <> Err) -> snd (write_files l) <> Err).
      { clear. induction l as [|[p [t o]] l IH]; intros H; cbn [write_files fst snd]; [discriminate|].
        assert (Ho := H _ (or_introl eq_refl)). cbn in Ho. destruct o as [[]| |]; [|congruence|discriminate].
        assert (Hl := IH (fun pw I => H pw (or_intror I))). destruct (write_files l) as [fs o]. exact Hl. }
      apply (f_equal snd) in H. cbn [snd] in H. revert H. apply G. intros pw I. apply in_app_or in I as [I|[<-|[]]]; [|exact TE].
      apply in_map_iff in I as (key & <- & _). apply FE.
    - intros [= <-]. split; [reflexivity|]. right. exists doc, docs. split; [reflexivity|]. split; [exact Ed|].
      rewrite <- C87_agreement. congruence.
  Qed.

  (** If the program crashes while writing, the files before the one it was writing are complete; the files after it are not
      touched. *)
  Theorem C88_crash_point : forall page listed files, program page listed = (files, Panic) ->
    files = []
    \/ exists doc docs infos done path part,
         page = Ok doc /\ parse_doc format_node doc = Ok docs /\ answers (file_lines listed) infos
         /\ files = (done ++ [(path, part)])%list
         /\ (exists before after, (map snd enums ++ ["src/platform/platforms.rs"] = before ++ path :: after)%list /\ map fst done = before)
         /\ forall p text, In (p, text) done -> exists key, In (key, p) enums /\ file key infos = (text, Ok tt).
  Proof.
    intros page listed files. unfold main, target_triples.
    destruct page as [doc| |]; cbn [obind failing]; [|discriminate|intros [= <-]; now left].
    destruct (parse_doc format_node doc) as [docs| |] eqn:Ed; cbn [obind failing]; [|discriminate|intros [= <-]; now left].
    destruct (agree (file_lines listed) docs) eqn:Ea; cbn [obind failing]; [|discriminate].
    destruct (targets_info run (file_lines listed)) as [infos| |] eqn:Ei; cbn [obind failing]; [|discriminate|intros [= <-]; now left].
    intros H. right. exists doc, docs, infos.
    assert (G : forall l files, write_files l = (files, Panic) -> exists done path part,
      files = (done ++ [(path, part)])%list
      /\ (exists before after, map fst l = (before ++ path :: after)%list /\ map fst done = before)
      /\ (forall p text, In (p, text) done -> In (p, (text, Ok tt)) l)
      /\ exists k o, nth_error l k = Some (path, (part, o)) /\ k = List.length done /\ o <> Ok tt).
    { clear. induction l as [|[p [t o]] l IH]; intros files; cbn [write_files fst snd]; [discriminate|].
      destruct o as [[]| |].
      - destruct (write_files l) as [fs o]. intros [= <- ->]. destruct (IH fs eq_refl) as (done & path & part & -> & (b & a & E1 & E2) & K & (k & o & N & Ek & Eo)).
        exists ((p, t) :: done), path, part. split; [reflexivity|]. split; [|split].
        + exists (p :: b), a. cbn. rewrite E1, E2. split; reflexivity.
        + intros p' t' [[= <- <-]|I]; [now left|right; exact (K _ _ I)].
        + exists (S k), o. cbn. split; [exact N|]. split; [congruence|exact Eo].
      - discriminate.
      - intros [= <-]. exists [], p, t. split; [reflexivity|]. split; [|split].
        + exists [], (map fst l). split; reflexivity.
        + intros p' t' [].
        + exists 0%nat, Panic. split; [reflexivity|]. split; [reflexivity|discriminate]. }
    destruct (G _ _ H) as (done & path & part & -> & (b & a & E1 & E2) & K & (k & o & N & Ek & Eo)).
    exists done, path, part. split; [reflexivity|]. split; [exact Ed|]. split; [apply infos_iff; exact Ei|].
    split; [reflexivity|]. split; [exists b, a; split; [|exact E2]; rewrite <- E1; reflexivity|].
    intros p text I. assert (Ip := K _ _ I). apply in_app_or in Ip as [Ip|[Ip|[]]].
    - apply in_map_iff in Ip as (key & E & Ik). injection E as Ep Ew. exists key. split; [|exact Ew].
      rewrite <- paths_enums. apply in_map_iff. exists key. split; [congruence|exact Ik].
    - exfalso. injection Ip as <- Ew.
      apply (in_map fst) in I. rewrite E2 in I. cbn [fst] in I.
      apply In_nth_error in I as [n Hn]. assert (Ln := nth_in _ _ _ Hn).
      assert (Hm : nth_error (map fst (map (fun key => (enum_path key, file key infos)) FIELDS_WITH_ENUMS
           ++ [("src/platform/platforms.rs", write_targets (file_lines listed) infos docs)])) n = Some "src/platform/platforms.rs").
      { rewrite E1, nth_error_app1 by exact Ln. exact Hn. }
      assert (Len : (List.length b < 6)%nat).
      { apply (f_equal (@List.length string)) in E1. rewrite app_length in E1. cbn in E1. lia. }
      do 5 (destruct n as [|n]; [cbn in Hm; congruence|]). lia.
  Qed.
End Program.
