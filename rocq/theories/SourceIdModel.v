(** What can be asked of a package source and how one is made without a text:
    /repo/cargo-lock/src/package/source.rs (the rest of that file is in PkgModel and UrlModel). *)
From Coq Require Import List NArith Ascii String Bool.
From Verif Require Import Base SemverModel StrLib PkgModel UrlModel.
Import ListNotations.
Local Open Scope string_scope.

(** source.rs:44-52 [new]: never fails; no name, no commit. *)
Definition source_new (k : source_kind) (u : string) : outcome source_id := Ok (mkSource u k None None).
(** source.rs:108-114 [for_path]; the parameter [file_url] stands for [Url::from_file_path] ([into_url], 481-487), which
    fails on a path that is not absolute. *)
Definition for_path (file_url : string -> option string) (p : string) : outcome source_id :=
  let? u := of_option (file_url p) in source_new SPath u.
(** source.rs:116-119 [for_git]. *)
Definition for_git (u : string) (r : git_reference) : outcome source_id := source_new (SGit r) u.
(** source.rs:121-124 [for_registry]. *)
Definition for_registry (u : string) : outcome source_id := source_new SRegistry u.
(** source.rs:126-130 [for_local_registry]. *)
Definition for_local_registry (file_url : string -> option string) (p : string) : outcome source_id :=
  let? u := of_option (file_url p) in source_new SLocalRegistry u.
(** source.rs:132-136 [for_directory]. *)
Definition for_directory (file_url : string -> option string) (p : string) : outcome source_id :=
  let? u := of_option (file_url p) in source_new SDirectory u.

(** source.rs:148-155 [display_index]. *)
Definition display_index (s : source_id) : string :=
  if is_default_registry s then "crates.io index" else "`" ++ s_url s ++ "` index".
(** source.rs:157-166 [display_registry_name]. *)
Definition display_registry_name (s : source_id) : string :=
  if is_default_registry s then "crates.io"
  else match s_name s with Some n => n | None => s_url s end.
(** source.rs:168-171 [is_path]. *)
Definition is_path (s : source_id) : bool := source_kind_eqb (s_kind s) SPath.
(** source.rs:173-179 [is_registry]. *)
Definition is_registry (s : source_id) : bool :=
  match s_kind s with SRegistry | SSparseRegistry | SLocalRegistry => true | _ => false end.
(** source.rs:181-187 [is_remote_registry]. *)
Definition is_remote_registry (s : source_id) : bool :=
  match s_kind s with SRegistry | SSparseRegistry => true | _ => false end.
(** source.rs:189-192 [is_git]. *)
Definition is_git (s : source_id) : bool := match s_kind s with SGit _ => true | _ => false end.
(** source.rs:199-206 [git_reference]. *)
Definition get_git_reference (s : source_id) : option git_reference := match s_kind s with SGit r => Some r | _ => None end.
(** source.rs:208-214 [with_precise]. *)
Definition with_precise (s : source_id) (p : option string) : source_id := mkSource (s_url s) (s_kind s) p (s_name s).

(** source.rs:289-297 [Serialize]: [None] is JSON null. *)
Definition source_json (s : source_id) : option string := if is_path s then None else Some (as_url false s).
(** The [source] field of a package in a report, [Option<SourceId>] (package.rs:25): an absent or path source is null, and null is
    no source (299-304 [Deserialize] is [from_url]). *)
Definition package_source_json (s : option source_id) : option string := match s with Some s => source_json s | None => None end.
Definition package_source_read (norm : string -> option string) (j : option string) : outcome (option source_id) :=
  match j with None => Ok None | Some t => let? s := from_url norm t in Ok (Some s) end.
