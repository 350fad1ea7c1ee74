(** Synchronising with other databases: /repo/admin/src/commands/sync.rs. *)
From Coq Require Import List NArith ZArith Ascii String Bool Arith.
From Verif Require Import Base StrLib SemverModel OsvModel IdModel PkgModel DbModel PartsModel AdvModel MtimeModel OsvAdvModel.
Import ListNotations.
Local Open Scope string_scope.

(** A file of the crates collection as the command reads it: its text is not split into front matter and markdown, its front
    matter is not TOML, or the table and the markdown.  (toml_edit keeps the layout of a document; the model keeps the
    values only.  The text that is written is [assemble].) *)
Inductive sdoc := NoParts | NoToml | Doc (t : ttable) (markdown : string).
(** The directory and the name of a file in the crates collection; absent files cannot be read. *)
Definition repo : Type := list ((string * string) * sdoc).
Definition place_eqb (a b : string * string) : bool := String.eqb (fst a) (fst b) && String.eqb (snd a) (snd b).
Fixpoint rget (p : string * string) (r : repo) : option sdoc :=
  match r with [] => None | (k, d) :: r => if place_eqb k p then Some d else rget p r end.
(** [fs::write]. *)
Fixpoint rput (p : string * string) (d : sdoc) (r : repo) : repo :=
  match r with
  | [] => [(p, d)]
  | (k, e) :: r => if place_eqb k p then (k, d) :: r else (k, e) :: rput p d r
  end.

(** [table[k] = v]. *)
Fixpoint tset (k : string) (v : tval) (t : ttable) : ttable :=
  match t with
  | [] => [(k, v)]
  | (k', v') :: r => if String.eqb k' k then (k', v) :: r else (k', v') :: tset k v r
  end.
(** sync.rs:386-397: the strings of an optional array; the unwraps are the [Panic]. *)
Definition string_array (k : string) (m : ttable) : outcome (list string) :=
  match tget k m with
  | None => Ok []
  | Some (TArr l) => omap (fun v => match v with TStr s => Ok s | _ => Panic end) l
  | Some _ => Panic
  end.
Definition sorted_strings (l : list string) : list string := dedup str_cmp (sort_list str_cmp l).
Definition set_strings (k : string) (l : list string) (m : ttable) : ttable :=
  match l with [] => m | _ => tset k (TArr (map TStr l)) m end.

(** 380-424: the new document. *)
Definition edit_document (missing : list string) (t : ttable) : outcome ttable :=
  match tget "advisory" t with
  | Some (TTab m) =>
      let? aliases := string_array "aliases" m in
      let m1 := set_strings "aliases" (sorted_strings (aliases ++ missing)%list) m in
      let? related := string_array "related" m1 in
      let m2 := set_strings "related" (sorted_strings related) m1 in
      Ok (tset "advisory" (TTab m2) t)
  | _ => Panic
  end.

(** 342-363: the ids missing from the advisory. *)
Definition is_cve_or_ghsa (i : adv_id) : bool := match id_kind_of i with KCve | KGhsa => true | _ => false end.
Definition missing_aliases (a : full_advisory) (o : osv_advisory) : list adv_id :=
  filter (fun i => is_cve_or_ghsa i && negb (id_eqb i (m_id (f_meta a))) && negb (existsb (id_eqb i) (m_aliases (f_meta a))))
    (o_aliases o ++ [o_id o])%list.
(** 336-430 [update_advisory_from_alias]: the repository afterwards and whether the file was written. *)
Definition file_place (a : full_advisory) : string * string := (m_package (f_meta a), id_string (m_id (f_meta a)) ++ ".md").
Definition update_advisory (a : full_advisory) (o : osv_advisory) (r : repo) : outcome (repo * nat) :=
  match missing_aliases a o with
  | [] => Ok (r, 0)
  | missing =>
      match rget (file_place a) r with
      | None | Some NoParts => Err
      | Some NoToml => Panic
      | Some (Doc t md) => let? t' := edit_document (map id_string missing) t in Ok (rput (file_place a) (Doc t' md) r, 1)
      end
  end.

(** 226-310, the body of the loop for one document.  [db] is [advisory_db.iter()]. *)
Definition find_advisory (i : adv_id) (db : list full_advisory) : option full_advisory := find (fun a => id_eqb (m_id (f_meta a)) i) db.
Definition rustsec_aliases (db : list full_advisory) (o : osv_advisory) : outcome (list adv_id) :=
  let? refs := rustsec_refs_imported o in
  Ok (dedup id_cmp (sort_list id_cmp
    (refs ++ map (fun a => m_id (f_meta a)) (filter (fun a => existsb (id_eqb (o_id o)) (m_aliases (f_meta a))) db))%list)).
Record sync_state := mkSync { y_repo : repo; y_updated : nat; y_check : list (string * osv_advisory) }.
Section Sync.
  Context (db : list full_advisory).
  Context (krate_name : string -> bool). (* [KrateName::try_from] (tame_index) *)
  Fixpoint update_all (o : osv_advisory) (ids : list adv_id) (s : sync_state) : outcome sync_state :=
    match ids with
    | [] => Ok s
    | i :: r =>
        match find_advisory i db with
        | None => Panic
        | Some a =>
            if existsb (fun c => String.eqb c (m_package (f_meta a))) (osv_crates o) then
              let? u := update_advisory a o (y_repo s) in
              update_all o r (mkSync (fst u) (y_updated s + snd u) (y_check s))
            else update_all o r s
        end
    end.
  Definition sync_one (o : osv_advisory) (s : sync_state) : outcome sync_state :=
    match o_withdrawn o with
    | Some _ => Ok s
    | None =>
        let? ids := rustsec_aliases db o in
        match ids with
        | [] => Ok (mkSync (y_repo s) (y_updated s) (y_check s ++ map (fun c => (c, o)) (filter krate_name (osv_crates o)))%list)
        | _ => update_all o ids s
        end
    end.
  Fixpoint sync_all (os : list osv_advisory) (s : sync_state) : outcome sync_state :=
    match os with [] => Ok s | o :: r => let? s' := sync_one o s in sync_all r s' end.
  (** 213-333 [sync]: the repository, the number of updates and the documents reported as missing.  [known]: whether the index
      has the crate. *)
  Definition sync (known : string -> bool) (os : list osv_advisory) (r : repo) : outcome (repo * nat * list osv_advisory) :=
    let? s := sync_all os (mkSync r 0 []) in
    Ok (y_repo s, y_updated s, map snd (filter (fun c => known (fst c)) (y_check s))).
End Sync.

(** 433-452 [load_osv_export]: names of the files of the directory with their documents. *)
Definition has_json_extension (name : string) : bool :=
  match strip_suffix ".json" name with Some stem => negb (String.eqb stem "") | None => false end.
Fixpoint load_osv_export (norm : string -> option string) (dir : string) (fs : list (string * option json)) : outcome (list osv_advisory) :=
  match fs with
  | [] => Ok []
  | (name, content) :: r =>
      if negb (has_json_extension name) || contains "RUSTSEC-" (dir ++ "/" ++ name) then load_osv_export norm dir r
      else
        let? o := match content with None => Err | Some j => osv_of_json norm j end in
        let? rest := load_osv_export norm dir r in
        Ok (o :: rest)
  end.

(** 426: the text of the new file, from the printed document. *)
Definition assemble (document markdown : string) : string := "```toml" ++ String nl document ++ "```" ++ String nl (String nl markdown).
