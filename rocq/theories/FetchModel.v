(** Fetching the advisory database: /repo/rustsec/src/repository/git/{repository,commit}.rs, database.rs:100-113, and the part of
    /repo/cargo-audit/src/auditor.rs that obtains the database. *)
From Coq Require Import List NArith ZArith Ascii String Bool Arith.
From Verif Require Import Base StrLib IdModel DbModel MtimeModel AuditModel.
Import ListNotations.
Local Open Scope string_scope.

(** ** Files and commits *)
(** A path relative to the root of a working tree, as its components; the files of a tree with their content.  (Symbolic links
    and submodules are left out; directories have no existence of their own.) *)
Definition gpath := list string.
Definition work := list (gpath * string).
Fixpoint gpath_eqb (a b : gpath) : bool :=
  match a, b with [], [] => true | x :: a, y :: b => String.eqb x y && gpath_eqb a b | _, _ => false end.
Fixpoint is_prefix (a b : gpath) : bool :=
  match a, b with [], _ => true | x :: a, y :: b => String.eqb x y && is_prefix a b | _, [] => false end.
Fixpoint content (p : gpath) (w : work) : option string :=
  match w with [] => None | (q, c) :: r => if gpath_eqb q p then Some c else content p r end.
(** What is read from a commit object: its id, time, the first line of its message, and its tree. *)
Record gcommit := mkGC { gc_id : string; gc_time : gtime; gc_summary : string; gc_tree : work }.
(** A repository: the URL of the remote "origin" if it is configured, the commit HEAD leads to if any, the working tree. *)
Record clone := mkClone { k_origin : option string; k_head : option gcommit; k_work : work }.
(** What is at a path: nothing (or an empty directory), a repository, a directory with other files. *)
Inductive place := Nothing | Repo (r : clone) | Files (w : work).
Definition disk := string -> place.
Definition put (d : disk) (p : string) (x : place) : disk := fun q => if String.eqb q p then x else d q.
Definition work_at (d : disk) (p : string) : work := match d p with Nothing => [] | Repo r => k_work r | Files w => w end.

(** ** [Commit] *)
(** commit.rs:12-14. *)
Definition STALE_AFTER : Z := 90 * 86400.
(** commit.rs:128-130 [is_fresh]; [now] in nanoseconds since the epoch. *)
Definition is_fresh (now : Z) (c : gcommit) : bool := Z.ltb (now - STALE_AFTER * 1000000000) (t_seconds (gc_time c) * 1000000000).
(** commit.rs:43-124 [from_repo_head]: [Panic] is [gix_time_to_time] (git.rs:20-24) on a time out of range. *)
Definition from_repo_head (r : clone) : outcome gcommit :=
  match k_head r with
  | None => Err
  | Some c => if negb (valid_time (gc_time c)) then Panic
              else if String.eqb (gc_summary c) "" then Err else Ok c
  end.
(** commit.rs:138-189 [reset]: [gix::worktree::state::checkout] of the tree with [overwrite_existing]: each file of the tree is
    written, removing what is in its way (a directory of that name, a file where a directory is needed); nothing else is
    removed.  The states of the working tree, one for each file. *)
Definition write_file (w : work) (e : gpath * string) : work :=
  e :: filter (fun f => negb (is_prefix (fst e) (fst f) || is_prefix (fst f) (fst e))) w.
Fixpoint checkout (w : work) (t : work) : list work :=
  match t with [] => [] | e :: r => let w' := write_file w e in w' :: checkout w' r end.
Definition checked_out (w : work) (t : work) : work := fold_left write_file t w.

(** ** [Repository::fetch] *)
Section Fetch.
  (** What a server gives as its HEAD when asked; [None]: no answer, or one that is not usable (for example, HEAD is detached). *)
  Context (server : string -> option gcommit).
  (** The nearest directory above a path that holds a repository, as [gix]'s upward discovery finds it. *)
  Context (above : string -> option string).
  Context (now : Z).

  Inductive fetched := Fetched (dir : string) | Locked | Failed | Crashed.
  (** repository.rs:136-152: the repository to work with.  The one discovered at or above the path if its origin is the URL,
      otherwise the one at the path, whatever its origin. *)
  Definition discovered (d : disk) (path : string) : option string :=
    match d path with
    | Nothing => None
    | Repo _ => Some path
    | Files _ => match above path with Some q => match d q with Repo _ => Some q | _ => None end | None => None end
    end.
  Definition origin_is (url : string) (d : disk) (q : string) : bool :=
    match d q with Repo r => match k_origin r with Some u => String.eqb u url | None => false end | _ => false end.
  Definition opened (url path : string) (d : disk) : option string :=
    match discovered d path with
    | Some q => if origin_is url d q then Some q else match d path with Repo _ => Some path | _ => None end
    | None => match d path with Repo _ => Some path | _ => None end
    end.
  (** 204-219, after the repository has been opened or cloned into [q]: the latest commit, the reset, the freshness check. *)
  Definition finish (ensure_fresh : bool) (q : string) (d : disk) : list disk * fetched :=
    match d q with
    | Repo r =>
        match from_repo_head r with
        | Err => ([], Failed)
        | Panic => ([], Crashed)
        | Ok c =>
            (map (fun w => put d q (Repo (mkClone (k_origin r) (k_head r) w))) (checkout (k_work r) (gc_tree c)),
             if ensure_fresh && negb (is_fresh now c) then Failed else Fetched q)
        end
    | _ => ([], Failed)
    end.
  (** [finish] starts from the last of the states before it. *)
  Definition then_finish (ensure_fresh : bool) (q : string) (d : disk) (before : list disk) : list disk * fetched :=
    let (after, r) := finish ensure_fresh q (last before d) in ((before ++ after)%list, r).
  (** 157-188: a clone; the states: initialised, origin configured, then HEAD and the files.  (A failure removes what has been
      made.) *)
  Definition clone_states (url path : string) (d : disk) (c : gcommit) : list disk :=
    (put d path (Repo (mkClone None None [])) :: put d path (Repo (mkClone (Some url) None []))
     :: put d path (Repo (mkClone (Some url) (Some c) []))
     :: map (fun w => put d path (Repo (mkClone (Some url) (Some c) w))) (checkout [] (gc_tree c)))%list.
  (** [Path::parent] (91-97). *)
  Definition has_parent (path : string) : bool := negb (String.eqb path "" || String.eqb path "/").
  (** 69-222 [fetch]: the states of the disk it goes through after the one it starts from, and its result.  [free]: the lock
      could be obtained within the time given (104-118). *)
  Definition fetch (url path : string) (ensure_fresh free : bool) (d : disk) : list disk * fetched :=
    if negb (starts_with "https://" url) then ([], Failed)
    else if negb (has_parent path) then ([], Failed)
    else if negb free then ([], Locked)
    else match opened url path d with
         | Some q =>
             (* 267-352 [perform_fetch]: from the repository's own origin; HEAD is made to lead to the commit received. *)
             match d q with
             | Repo r =>
                 match k_origin r with
                 | None => ([], Failed)
                 | Some u => match server u with
                             | None => ([], Failed)
                             | Some c => then_finish ensure_fresh q d [put d q (Repo (mkClone (Some u) (Some c) (k_work r)))]
                             end
                 end
             | _ => ([], Failed)
             end
         | None =>
             match d path with
             | Nothing => match server url with
                          | None => ([], Failed)
                          | Some c => then_finish ensure_fresh path d (clone_states url path d c)
                          end
             | _ => ([], Failed) (* a clone into a directory with files in it is refused *)
             end
         end.
  (** The state it ends in, and those a crash can leave behind. *)
  Definition fetch_end (url path : string) (ensure_fresh free : bool) (d : disk) : disk := last (fst (fetch url path ensure_fresh free d)) d.
  Definition fetch_crash (url path : string) (ensure_fresh free : bool) (d d' : disk) : Prop :=
    d' = d \/ In d' (fst (fetch url path ensure_fresh free d)).

  (** ** Loading *)
  (** git.rs:17, repository.rs:35-43 ([default_path] of the home directory). *)
  Definition DEFAULT_URL : string := "https://github.com/RustSec/advisory-db.git".
  (** The files as [Database::open] finds them (DbModel); [parse] is [Advisory::load_file]. *)
  Definition dedup_names (l : list string) : list string := nodup String.string_dec l.
  Definition under (p : gpath) (w : work) : list gpath :=
    flat_map (fun e => if is_prefix p (fst e) then match skipn (List.length p) (fst e) with [] => [] | s => [s] end else []) w.
  Definition names_under (p : gpath) (w : work) : list string :=
    dedup_names (flat_map (fun s => match s with n :: _ => [n] | [] => [] end) (under p w)).
  Context (parse : string -> outcome advisory).
  Definition dir_file (p : gpath) (w : work) (n : string) : fs_file :=
    mkFile n (match content (p ++ [n])%list w with Some text => parse text | None => Err end).
  Definition dir_entry (p : gpath) (w : work) (n : string) : fs_entry :=
    let q := (p ++ [n])%list in
    mkEntry n (match content q w with Some _ => None | None => Some (map (dir_file q w) (names_under q w)) end).
  Definition dir_of (w : work) (coll : string) : option (list fs_entry) :=
    match names_under [coll] w with [] => None | ns => Some (map (dir_entry [coll] w) ns) end.
  Definition fs_of_work (w : work) : fs_tree := mkTree (dir_of w "crates") (dir_of w "rust").

  (** auditor.rs:51-114: the database's directory.  Without fetching, the directory is opened as it is.  With it, a lock that is
      held is waited for ([free] now, [free_later] within five minutes). *)
  Definition obtain (default_path : string) (free free_later : bool) (c : config) (d : disk) : list disk * fetched :=
    let url := match cf_db_url c with Some u => u | None => DEFAULT_URL end in
    let path := match cf_db_path c with Some p => p | None => default_path end in
    if cf_fetch c then
      match fetch url path (negb (cf_stale c)) free d with
      | (s, Locked) => let (s', r) := fetch url path (negb (cf_stale c)) free_later (last s d) in ((s ++ s')%list, r)
      | o => o
      end
    else ([], Fetched path).
  (** auditor.rs:96-114: what is loaded ([load_from_repo], database.rs:103-107, or [open]). *)
  Definition obtained (default_path : string) (free free_later : bool) (d : disk) (c : config) : option fs_tree :=
    match obtain default_path free free_later c d with
    | (s, Fetched q) => Some (fs_of_work (work_at (last s d) q))
    | _ => None
    end.
End Fetch.
