(** Property theorems C73, continued: the text that is written, the documents that are read, examples. *)
From Coq Require Import List NArith ZArith Ascii String Bool Lia Sorting.Sorted.
From Verif Require Import Base StrLib SemverModel OsvModel IdModel IdSpec IdProofs VerText PkgModel DbModel DbProofs UrlModel CvssText CvssTextProofs
  ScanModel PartsModel PartsSpec PropsParts AdvModel LintModel LintProofs2 MtimeModel OsvAdvModel SortProofs PropsOsvAdv PropsOsvAdv2 PropsOsvImport SyncModel PropsSync PropsSync2.
Import ListNotations.
Local Open Scope string_scope.

(** ** The text *)
(** The file that is written has the front matter of the printed document and the title and description of before, if the
    document ends with a line break and no line of it starts with a fence. *)
Theorem C73_written_text : forall data p body front,
  parts_parse data = Ok p -> ~ occurs (newline ++ "```") (newline ++ body) -> trimmed (newline ++ body) front ->
  parts_parse (assemble (body ++ newline) (pt_markdown p)) = Ok (mkParts front (pt_markdown p) (pt_title p) (pt_description p)).
Proof.
  intros data p body front H N T. destruct (C16_split_sound _ _ H) as (rf & gap & rt & rd & _ & (_ & _ & NT) & _ & TT & TD & ->).
  rewrite <- (C16_split_complete (newline ++ body) (newline ++ newline) rt rd front (pt_title p) (pt_description p)); [|split; [exact N|split; [|exact NT]]|exact T|exact TT|exact TD].
  - f_equal. unfold assemble, advisory_file. change (String nl ?s) with (newline ++ s). rewrite !sapp_assoc. reflexivity.
  - apply (blank_cons newline); [cbn; tauto|]. change newline with (newline ++ "") at 1. apply (blank_cons newline); [cbn; tauto|constructor].
Qed.
(** Without a line break at its end, as after a comment in the last line, the file can no longer be read. *)
Theorem C73_written_text_refuted : exists data p, parts_parse data = Ok p /\ pt_front p = "[advisory]" ++ NL ++ "# end" /\
  parts_parse (assemble (pt_front p) (pt_markdown p)) = Err.
Proof. exists (data_of ("[advisory]" ++ NL ++ "# end")). eexists. split; [vm_compute; reflexivity|]. split; vm_compute; reflexivity. Qed.

(** ** The documents *)
Definition osv_name (name : string) : Prop := exists stem, name = stem ++ ".json" /\ stem <> "".
Lemma json_extension name : has_json_extension name = true <-> osv_name name.
Proof.
  unfold has_json_extension, osv_name. destruct (strip_suffix ".json" name) as [s|] eqn:E.
  - apply strip_suffix_spec in E. rewrite negb_true_iff, String.eqb_neq. split; [intros N; exists s; auto|]. intros (s' & E' & N) ->. subst name.
    apply (f_equal srev) in E'. rewrite !srev_sapp in E'. apply sapp_inj_l in E'. apply (f_equal srev) in E'. rewrite !srev_involutive in E'. congruence.
  - split; [discriminate|]. intros (s & -> & _). rewrite (proj2 (strip_suffix_spec ".json" (s ++ ".json") s) eq_refl) in E. discriminate.
Qed.
(** The directory is read if all files with the extension json and without RUSTSEC- in their path can be; these are the
    documents. *)
Theorem C73_documents : forall norm dir fs os, load_osv_export norm dir fs = Ok os <->
  exists sel, (forall f, In f sel <-> In f fs /\ osv_name (fst f) /\ ~ occurs "RUSTSEC-" (dir ++ "/" ++ fst f)) /\
    sel = filter (fun f => has_json_extension (fst f) && negb (contains "RUSTSEC-" (dir ++ "/" ++ fst f))) fs /\
    Forall2 (fun f o => exists j, snd f = Some j /\ osv_of_json norm j = Ok o) sel os.
Proof.
  intros norm dir fs os.
  assert (SEL : forall f : string * option json, has_json_extension (fst f) && negb (contains "RUSTSEC-" (dir ++ "/" ++ fst f)) = true <-> osv_name (fst f) /\ ~ occurs "RUSTSEC-" (dir ++ "/" ++ fst f)).
  { intros f. rewrite andb_true_iff, negb_true_iff, json_extension. apply and_iff_compat_l. unfold occurs. rewrite <- contains_spec. symmetry. apply not_true_iff_false. }
  transitivity (Forall2 (fun f o => exists j, snd f = Some j /\ osv_of_json norm j = Ok o) (filter (fun f => has_json_extension (fst f) && negb (contains "RUSTSEC-" (dir ++ "/" ++ fst f))) fs) os).
  - revert os. induction fs as [|[name c] fs IH]; intros os; cbn [load_osv_export filter fst].
    + split; [intros [= <-]; constructor|]. intros F. inversion F. reflexivity.
    + replace (negb (has_json_extension name) || contains "RUSTSEC-" (dir ++ "/" ++ name)) with (negb (has_json_extension name && negb (contains "RUSTSEC-" (dir ++ "/" ++ name))))
        by (destruct (has_json_extension name), (contains "RUSTSEC-" (dir ++ "/" ++ name)); reflexivity).
      destruct (has_json_extension name && negb (contains "RUSTSEC-" (dir ++ "/" ++ name))); cbn [negb]; [|apply IH]. split.
      * intros H. destruct c as [j|]; [|discriminate]. destruct (osv_of_json norm j) as [o| |] eqn:E; cbn [obind] in H; try discriminate.
        destruct (load_osv_export norm dir fs) as [rest| |]; cbn [obind] in H; try discriminate. injection H as <-. constructor; [exists j; auto|apply IH; reflexivity].
      * intros F. inversion F as [|? ? ? ? (j & C & E) F']; subst. cbn [snd] in C. subst c. rewrite E. cbn [obind]. apply IH in F'. rewrite F'. reflexivity.
  - split.
    + intros F. eexists. split; [|split; [reflexivity|exact F]]. intros f. rewrite filter_In, SEL. reflexivity.
    + intros (sel & _ & -> & F). exact F.
Qed.
(** Below a directory with RUSTSEC- in its name nothing is read, and one document it cannot read stops everything. *)
Theorem C73_documents_refuted :
  let d := readable_doc [] [] in let n := fun s => Some s in
  (exists o, load_osv_export n "/data/osv" [("GHSA-1.json", Some d); ("notes.txt", None)] = Ok [o]) /\
  load_osv_export n "/data/RUSTSEC-mirror/osv" [("GHSA-1.json", Some d)] = Ok [] /\
  load_osv_export n "/data/osv" [("GHSA-1.json", Some d); ("x.json", Some (JObj minimal_doc))] = Err.
Proof. cbv zeta. split; [eexists; vm_compute; reflexivity|]. split; vm_compute; reflexivity. Qed.

(** ** Examples *)
Definition sync_doc (id package : string) (aliases : list string) : ttable :=
  [("advisory", TTab [("id", TStr id); ("package", TStr package); ("date", TStr "2024-03-09"); ("aliases", TArr (map TStr aliases)); ("x-note", TStr "kept")]);
   ("versions", TTab [("patched", TArr [TStr "> 2.1.0"])])].
Definition sync_repo (l : list (string * string * list string)) : repo :=
  map (fun f => ((snd (fst f), fst (fst f) ++ ".md"), Doc (sync_doc (fst (fst f)) (snd (fst f)) (snd f)) ("# Title" ++ NL))) l.
(** Reading the repository. *)
Definition sync_db (r : repo) : outcome (list full_advisory) :=
  omap (fun f => match snd f with Doc t _ => let? a := decode_advisory extn t in Ok (with_title a "Title" "") | _ => Err end) r.
Definition the_id (s : string) : adv_id := match id_from_str s with Ok i => i | _ => id_default end.
Definition sync_osv (id : string) (aliases refs crates : list string) : osv_advisory :=
  mkOsvAdv None (the_id id) "" "" None (map the_id aliases) [] "" "" []
    (map (fun c => mkOAff (mkOPkg "crates.io" c None) None (mkDbs [] None None) None None) crates)
    (map (fun s => mkORef RWeb (match url_parse (fun s => Some s) s with Some u => u | None => mkUrl "" None None end)) refs) None.
Definition run (os : list osv_advisory) (r : repo) : outcome (repo * nat * list osv_advisory) :=
  let? db := sync_db r in sync db (fun _ => true) (fun c => negb (String.eqb c "gone")) os r.
Definition page (id : string) : string := "https://rustsec.org/advisories/" ++ id ++ ".html".
Definition files (o : outcome (repo * nat * list osv_advisory)) : list (string * string) :=
  match o with
  | Ok (r, _, _) => List.concat (map (fun f => match snd f with
      | Doc t _ => match tget "advisory" t with Some (TTab m) => match string_array "aliases" m with Ok l => map (fun s => (snd (fst f), s)) l | _ => [] end | _ => [] end
      | _ => [] end) r)
  | _ => []
  end.
Definition updates (o : outcome (repo * nat * list osv_advisory)) : nat := match o with Ok (_, n, _) => n | _ => 99 end.
Definition reported (o : outcome (repo * nat * list osv_advisory)) : list string := match o with Ok (_, _, l) => map (fun d => id_string (o_id d)) l | _ => [] end.
Definition after (o : outcome (repo * nat * list osv_advisory)) : repo := match o with Ok (r, _, _) => r | _ => [] end.

Definition ex_repo : repo := sync_repo [("RUSTSEC-2024-0001", "a", []); ("RUSTSEC-2024-0002", "b", ["CVE-2024-9"])].
Definition ex_docs : list osv_advisory :=
  [sync_osv "GHSA-1111-1111-1111" ["CVE-2024-1"] [page "RUSTSEC-2024-0001"] ["a"]; sync_osv "CVE-2024-1" ["GHSA-2222-2222-2222"] [] ["a"; "c"];
   sync_osv "CVE-2024-9" ["GHSA-3333-3333-3333"; "OSV-7"] [] ["b"]; sync_osv "GHSA-4444-4444-4444" [] [] ["gone"]].
(** Running it once more can add more: an alias gained in the first run links a document that was reported as missing. *)
Theorem C73_idempotent_refuted :
  files (run ex_docs ex_repo) = [("RUSTSEC-2024-0001.md", "CVE-2024-1"); ("RUSTSEC-2024-0001.md", "GHSA-1111-1111-1111");
     ("RUSTSEC-2024-0002.md", "CVE-2024-9"); ("RUSTSEC-2024-0002.md", "GHSA-3333-3333-3333")] /\
  reported (run ex_docs ex_repo) = ["CVE-2024-1"; "CVE-2024-1"] /\
  files (run ex_docs (after (run ex_docs ex_repo))) = [("RUSTSEC-2024-0001.md", "CVE-2024-1"); ("RUSTSEC-2024-0001.md", "GHSA-1111-1111-1111");
     ("RUSTSEC-2024-0001.md", "GHSA-2222-2222-2222"); ("RUSTSEC-2024-0002.md", "CVE-2024-9"); ("RUSTSEC-2024-0002.md", "GHSA-3333-3333-3333")].
Proof. repeat split; vm_compute; reflexivity. Qed.
(** The number reported counts writes, not advisories; a document is reported once for each of its crates (above), and a
    reference to a page which is not an advisory's stops the run. *)
Theorem C73_count_refuted :
  let os := [sync_osv "GHSA-1111-1111-1111" [] [page "RUSTSEC-2024-0001"] ["a"]; sync_osv "GHSA-2222-2222-2222" [] [page "RUSTSEC-2024-0001"] ["a"]] in
  updates (run os ex_repo) = 2 /\
  run [sync_osv "GHSA-1111-1111-1111" [] [page "RUSTSEC-2019-0001"] ["a"]] ex_repo = Panic /\
  run [sync_osv "GHSA-1111-1111-1111" [] ["https://rustsec.org/advisories/"] ["z"]] ex_repo = Panic.
Proof. repeat split; vm_compute; reflexivity. Qed.

Lemma holds_read r db : sync_db r = Ok db -> (forall f, In f r -> rget (fst f) r = Some (snd f)) ->
  (forall f t md a, In f r -> snd f = Doc t md -> decode_advisory extn t = Ok a -> fst f = file_place a) -> forall a, In a db -> holds extn r a.
Proof.
  intros H U P a I. unfold sync_db in H. apply omap_iff in H. assert (E : exists f, In f r /\ (match snd f with Doc t _ => let? a := decode_advisory extn t in Ok (with_title a "Title" "") | _ => Err end) = Ok a).
  { clear U P. induction H as [|f b fs l E F IH]; [destruct I|]. destruct I as [<-|I]; [exists f; split; [left; reflexivity|exact E]|].
    destruct (IH I) as (g & J & E'). exists g. split; [right; exact J|exact E']. }
  destruct E as (f & J & E). destruct (snd f) as [| |t md] eqn:S; try discriminate. destruct (decode_advisory extn t) as [a0| |] eqn:D; try discriminate. cbn [obind] in E. injection E as <-.
  exists t, md, a0. split; [|split; [exact D|reflexivity]]. change (file_place (with_title a0 "Title" "")) with (file_place a0). rewrite <- (P f t md a0 J S D), <- S. apply U, J.
Qed.
Definition ex_db : list full_advisory := match sync_db ex_repo with Ok l => l | _ => [] end.
Definition ex_run : outcome (repo * nat * list osv_advisory) := sync ex_db (fun _ => true) (fun _ => true) ex_docs ex_repo.
Lemma ex_read : sync_db ex_repo = Ok ex_db.
Proof. vm_compute. reflexivity. Qed.
Lemma ex_holds : forall a, In a ex_db -> holds extn ex_repo a.
Proof.
  apply (holds_read ex_repo ex_db ex_read).
  - intros f J. vm_compute in J. destruct J as [<-|[<-|[]]]; vm_compute; reflexivity.
  - intros f t md a J S D. vm_compute in J. destruct J as [<-|[<-|[]]]; injection S as <- <-; vm_compute in D; injection D as <-; reflexivity.
Qed.
Lemma ex_nodup : NoDup (map aid ex_db).
Proof. vm_compute. constructor; [intros [E|[]]; discriminate E|]. constructor; [intros []|constructor]. Qed.
Example C73_nonvacuous : exists a j, (forall o, In o ex_docs -> good_doc o) /\ (forall o, In o ex_docs -> o_withdrawn o = None -> refs_known ex_db o) /\
  In a ex_db /\ id_string (aid a) = "RUSTSEC-2024-0001" /\ gains ex_docs a j /\ id_string j = "CVE-2024-1" /\
  (exists r m, ex_run = Ok (r, 2, m)).
Proof.
  destruct ex_db as [|a db0] eqn:E; [vm_compute in E; discriminate E|]. exists a, (the_id "CVE-2024-1").
  assert (OK : exists r m, ex_run = Ok (r, 2, m)) by (do 2 eexists; vm_compute; reflexivity).
  split; [|split; [|split; [left; reflexivity|split; [|split; [|split; [vm_compute; reflexivity|exact OK]]]]]].
  - intros o J. vm_compute in J. destruct J as [<-|[<-|[<-|[<-|[]]]]]; (split; [vm_compute; reflexivity|]); apply Forall_forall; intros i I; vm_compute in I;
      repeat (destruct I as [<-|I]; [vm_compute; reflexivity|]); destruct I.
  - rewrite <- E. apply (C73_outcome extn ex_db (fun _ => true) (fun _ => true) ex_docs ex_repo ex_nodup ex_holds).
    destruct OK as (r & m & OK). unfold ex_run in OK. rewrite OK. discriminate.
  - vm_compute in E. injection E as <- _. vm_compute. reflexivity.
  - vm_compute in E. injection E as <- _. exists (sync_osv "GHSA-1111-1111-1111" ["CVE-2024-1"] [page "RUSTSEC-2024-0001"] ["a"]).
    split; [left; reflexivity|]. split; [reflexivity|]. split.
    + left. eexists. split; [left; reflexivity|]. exists "RUSTSEC-2024-0001", ".html". split; [vm_compute; reflexivity|]. split; vm_compute; reflexivity.
    + split; [eexists; split; [left; reflexivity|split; reflexivity]|]. split; [split; [right; left; reflexivity|left; vm_compute; reflexivity]|].
      split; [vm_compute; discriminate|intros []].
Qed.
