(** The commands of rustsec-admin which walk the advisory repository: /repo/admin/src/{osv_export,linter,list_versions}.rs. *)
From Coq Require Import List NArith ZArith Ascii String Bool Arith.
From Verif Require Import Base StrLib SemverModel OsvModel IdModel PkgModel DbModel VerText UrlModel CvssText ScanModel PartsModel
  AdvModel LintModel MtimeModel OsvAdvModel.
Import ListNotations.
Local Open Scope string_scope.

(** The advisory repository: an entry of a crate's directory ([None]: reading it as text fails, as for a directory), the
    directories ([None]: not a directory), in the order [read_dir] lists them; [None] at the top: [read_dir] fails. *)
Record dfile := mkDFile { df_name : string; df_text : option string }.
Record dentry := mkDEntry { de_name : string; de_files : option (list dfile) }.
Record dtree := mkDTree { dt_crates : option (list dentry); dt_rust : option (list dentry) }.

(** advisory.rs:53-71 [Advisory::load_file]. *)
Definition load_advisory (x : externals) (toml : string -> option ttable) (f : dfile) : outcome full_advisory :=
  match df_text f with None => Err | Some s => full_from_str x toml s end.
(** What [Database::open] sees of it (DbModel). *)
Definition fs_file_of (x : externals) (toml : string -> option ttable) (todb : full_advisory -> advisory) (f : dfile) : fs_file :=
  mkFile (df_name f) (let? a := load_advisory x toml f in Ok (todb a)).
Definition fs_entry_of x toml todb (e : dentry) : fs_entry :=
  mkEntry (de_name e) (option_map (map (fs_file_of x toml todb)) (de_files e)).
Definition fs_tree_of x toml todb (t : dtree) : fs_tree :=
  mkTree (option_map (map (fs_entry_of x toml todb)) (dt_crates t)) (option_map (map (fs_entry_of x toml todb)) (dt_rust t)).

(** ** osv_export.rs *)
(** The text after the last ['/'], and the text up to it. *)
Definition last_component (s : string) : string * string :=
  match split_once "/" (srev s) with
  | Some (r, d) => (srev d ++ "/", srev r)
  | None => ("", s)
  end.
(** [PathBuf::set_extension("json")] on a file name: the text from the last dot on is replaced, unless that is the first
    character. *)
Definition json_name (c : string) : string :=
  match split_once "." (srev c) with
  | Some (_, stem) => if String.eqb stem "" then c ++ ".json" else srev stem ++ ".json"
  | None => c ++ ".json"
  end.
(** osv_export.rs:83-84: [destination_folder.join(id)] with the extension json; an absolute path replaces the folder.
    (Simplified: an id that is empty, or ends with ['/'], ["."] or [".."] as a component, is not treated exactly.) *)
Definition output_path (dest id : string) : string :=
  let p := if starts_with "/" id then id else dest ++ "/" ++ id in
  let (d, c) := last_component p in d ++ json_name c.
(** 61-71: [true]: exported. *)
Definition publishable (a : full_advisory) : bool :=
  match m_informational (f_meta a) with
  | None | Some IUnmaintained | Some IUnsound | Some INotice => true
  | Some (IOther _) => false
  end.

Section Export.
  Context (x : externals) (toml : string -> option ttable) (civil_of_day : Z -> Z * N * N) (mt : mod_times) (head : option tree) (dest : string).
  (** 54-89: one turn of the inner loop.  [File::create] truncates; the writer is flushed when dropped. *)
  Definition export_file (dir : string) (f : dfile) : outcome (list (string * json)) :=
    let? a := load_advisory x toml f in
    if publishable a then
      let? p := git_path head ("crates/" ++ dir ++ "/" ++ df_name f) in
      let? o := from_rustsec x civil_of_day mt p a in
      Ok [(output_path dest (id_string (m_id (f_meta a))), osv_to_json o)]
    else Ok [].
  (** A loop that stops at the first failure; what was written before stays. *)
  Fixpoint export_files (dir : string) (fs : list dfile) : list (string * json) * outcome unit :=
    match fs with
    | [] => ([], Ok tt)
    | f :: r =>
        match export_file dir f with
        | Ok w => let (ws, e) := export_files dir r in ((w ++ ws)%list, e)
        | Err => ([], Err)
        | Panic => ([], Panic)
        end
    end.
  Fixpoint export_dirs (es : list dentry) : list (string * json) * outcome unit :=
    match es with
    | [] => ([], Ok tt)
    | e :: r =>
        match de_files e with
        | None => ([], Err)
        | Some fs =>
            match export_files (de_name e) fs with
            | (w, Ok tt) => let (ws, o) := export_dirs r in ((w ++ ws)%list, o)
            | (w, o) => (w, o)
            end
        end
    end.
  (** 42-101 [export_all]: the files written, in order, and how it ended. *)
  Definition export_all (t : dtree) : list (string * json) * outcome unit :=
    match dt_crates t with
    | None => ([], Err)
    | Some es =>
        match export_dirs es with
        | (w, Ok tt) =>
            if existsb (fun e => match de_files e with Some (_ :: _) => true | _ => false end) es then (w, Ok tt) else (w, Err)
        | (w, o) => (w, o)
        end
    end.
End Export.
(** The destination afterwards: a later file replaces an earlier one of the same path. *)
Definition written (p : string) (ws : list (string * json)) : option json := lookup p (rev ws).

(** ** linter.rs (admin) *)
(** What the crates.io index says about a crate: the outer [None] if there is no answer for this name, [Some Err] if the request
    failed, [Some (Ok None)] if there is no such crate, otherwise its name. *)
Definition index_answers : Type := string -> option (outcome (option string)).
Section Lint.
  Context (x : externals) (toml : string -> option ttable).
  (** 87-121 [lint_advisory]: the advisory and the number of invalid ones (0 or 1).  An entry that is not a file fails, as
      reading it would. *)
  Definition admin_lint_advisory (f : dfile) : outcome (full_advisory * nat) :=
    match df_text f with
    | None => Err
    | Some s =>
        let? a := full_from_str x toml s in
        let? l := lint_file x toml (df_name f) (Some s) in
        Ok (a, match l_errors l with [] => O | _ => 1 end)
    end.
  (** 195-200 [read_dir_sorted]: entries of one directory are sorted by name. *)
  Definition sort_names {A} (name : A -> string) (l : list A) : list A := sort_list (fun a b => str_cmp (name a) (name b)) l.
  Definition lint_dir (e : dentry) : outcome (list (full_advisory * nat)) :=
    match de_files e with None => Err | Some fs => omap admin_lint_advisory (sort_names df_name fs) end.
  (** 124-192 [crates_io_lints]; [lock]: whether the package lock can be taken.  The index is asked for the names of the
      advisories that are not expected to be deleted. *)
  Definition crates_io_ok (index : index_answers) (a : full_advisory) : bool :=
    if m_expect_deleted (f_meta a) then true
    else match index (m_package (f_meta a)) with
         | Some (Ok (Some n)) => String.eqb n (m_package (f_meta a))
         | _ => false
         end.
  Definition crates_io_lints (lock : bool) (index : index_answers) (advs : list full_advisory) : outcome unit :=
    if lock then if forallb (crates_io_ok index) advs then Ok tt else Err else Ok tt.
  (** 57-84 [lint]: the number of invalid advisories. *)
  Definition lint_collection (es : option (list dentry)) : outcome (list (full_advisory * nat)) :=
    match es with
    | None => Err
    | Some es => let? ls := omap lint_dir (sort_names de_name es) in Ok (List.concat ls)
    end.
  Definition count (l : list (full_advisory * nat)) : nat := fold_right (fun p n => snd p + n) 0 l.
  Definition admin_lint (lock : bool) (index : index_answers) (t : dtree) : outcome nat :=
    let? cs := lint_collection (dt_crates t) in
    let? u := crates_io_lints lock index (map fst cs) in
    let? rs := lint_collection (dt_rust t) in
    Ok (count cs + count rs).
  (** commands/lint.rs:31-65: the exit status; [Linter::new] opens the database. *)
  Definition lint_status (todb : full_advisory -> advisory) (index_ok lock : bool) (index : index_answers) (t : dtree) : outcome nat :=
    match db_open (fs_tree_of x toml todb t) with
    | Panic => Panic
    | Err => Ok 1
    | Ok db =>
        if negb index_ok then Ok 1
        else match db_iter db with
             | [] => Ok 1
             | _ => match admin_lint lock index t with
                    | Panic => Panic
                    | Err => Ok 1
                    | Ok O => Ok O
                    | Ok (S _) => Ok 1
                    end
             end
    end.
End Lint.

(** ** list_versions.rs *)
(** 36-57 [process_one_advisory]: the lines printed for the versions of the crate in the index, [None]: it has no such crate or
    cannot be asked (the unwraps).  A version the semver parser rejects panics. *)
Definition version_lines (checks : bool) (vs : versions) (texts : list string) : outcome (list (string * bool)) :=
  omap (fun s => match parse_version s with
                 | None => Panic
                 | Some v => let? b := is_vulnerable checks vs v in Ok (s, b)
                 end) texts.
Definition process_one (checks : bool) (index : string -> option (list string)) (a : advisory) : outcome (list (string * bool)) :=
  match index (a_package a) with None => Panic | Some texts => version_lines checks (a_versions a) texts end.
(** 60-71 [process_all_advisories]: the advisories listed, with their lines. *)
Fixpoint process_all (checks : bool) (index : string -> option (list string)) (advs : list advisory)
  : outcome (list (adv_id * list (string * bool))) :=
  match advs with
  | [] => Ok []
  | a :: r =>
      match a_collection a with
      | None => Panic
      | Some RustColl => process_all checks index r
      | Some Crates =>
          let? ls := process_one checks index a in
          let? rest := process_all checks index r in
          Ok ((a_id a, ls) :: rest)
      end
  end.
