(** Starting an auditor: what is said, which lock errors are waited for, and what happens when a lock stays busy:
    /repo/cargo-audit/src/auditor.rs:49-200, with the error kinds of /repo/rustsec/src/error.rs:164-180 and the two ways to take a lock
    (/repo/rustsec/src/cached_index.rs:285-299, /repo/rustsec/src/repository/git/repository.rs:112-118). *)
From Coq Require Import List NArith ZArith Ascii String Bool Arith.
From Verif Require Import Base StrLib IdModel DbModel PkgModel IndexModel AuditModel MtimeModel FetchModel TermModel.
Import ListNotations.
Local Open Scope string_scope.
Local Open Scope N_scope.

(** Crate tame-index, [LockError], and what of its [Error] is told apart. *)
Inductive lock_error := TimedOut | Contested | LockOther.
Inductive tame_error := TLock (e : lock_error) | TOther.
(** error.rs:116-149 [enum ErrorKind]. *)
Inductive error_kind := KBadParam | KIo | KNotFound | KLockTimeout | KParse | KRegistry | KRepo | KVersion.
(** error.rs:164-180 [from_tame], the kind. *)
Definition from_tame (e : tame_error) : error_kind :=
  match e with
  | TLock (TimedOut | Contested) => KLockTimeout
  | TLock LockOther => KIo
  | TOther => KRegistry
  end.

(** A lock as a process finds it: free; held by another, which gives it up after so many seconds ([None]: not while we look); or
    it cannot be taken for another reason (no permission, a file system without locks). *)
Inductive lock_state := Free | HeldFor (s : option N) | Unlockable.
(** Crate tame-index, [try_lock] and [lock]. *)
Definition try_lock (l : lock_state) : option tame_error :=
  match l with Free => None | HeldFor _ => Some (TLock Contested) | Unlockable => Some (TLock LockOther) end.
Definition wait_lock (l : lock_state) (timeout : N) : option tame_error :=
  match l with
  | Free => None
  | HeldFor (Some s) => if N.leb s timeout then None else Some (TLock TimedOut)
  | HeldFor None => Some (TLock TimedOut)
  | Unlockable => Some (TLock LockOther)
  end.
(** cached_index.rs:290-299 [acquire_lock]; repository.rs:113-117. *)
Definition acquire_lock (l : lock_state) (timeout : N) : option tame_error :=
  if N.eqb timeout 0 then try_lock l else wait_lock l timeout.
(** [Repository::fetch], [CachedIndex::fetch_as] or [CachedIndex::open]: with the lock, [after] or an error of the kind [k].
    Simplified: errors before the lock is asked for are among those after it. *)
Definition attempt {A} (l : lock_state) (after : option A) (k : error_kind) (timeout : N) : A + error_kind :=
  match acquire_lock l timeout with
  | Some e => inr (from_tame e)
  | None => match after with Some a => inl a | None => inr k end
  end.

(** What is said on the way. *)
Inductive said :=
| FetchingDb (url : string) | WaitingFor (dir : string) (seconds : N) | NotFetched | NotLoaded | LoadedDb (n : nat) (dir : string)
| UpdatingIndex | IndexNotUpdated | IndexNotOpened.
Definition DEFAULT_LOCK_TIMEOUT : N := 5 * 60.
(** auditor.rs:70-91, 134-147, 161-173: the first attempt does not wait, the second does. *)
Definition retried {A} (dir : string) (try : N -> A + error_kind) : list said * (A + error_kind) :=
  match try 0 with
  | inr KLockTimeout => ([WaitingFor dir DEFAULT_LOCK_TIMEOUT], try DEFAULT_LOCK_TIMEOUT)
  | r => ([], r)
  end.

(** What an auditor finds: the lock of the database directory and the database fetched under it; the directory opened as it is;
    cargo's package lock and the index, opened or (true) fetched. *)
Record surroundings := mkSur {
  su_db_lock : lock_state; su_fetched : option fs_tree; su_opened : fs_tree;
  su_index_lock : lock_state; su_index : bool -> option index }.
Definition unless_quiet (c : config) (l : list said) : list said := if is_quiet c then [] else l.

(** 126-187. *)
Definition start_index (path : string) (c : config) (s : surroundings) : list said * option index :=
  if cf_yanked c then
    if (cf_update_index c && cf_fetch c)%bool then
      let (m, r) := retried path (attempt (su_index_lock s) (su_index s true) KRegistry) in
      (unless_quiet c [UpdatingIndex] ++ m ++ match r with inl _ => [] | inr _ => unless_quiet c [IndexNotUpdated] end,
       match r with inl i => Some i | inr _ => None end)%list
    else
      let (m, r) := retried path (attempt (su_index_lock s) (su_index s false) KRegistry) in
      (m ++ match r with inl _ => [] | inr _ => unless_quiet c [IndexNotOpened] end,
       match r with inl i => Some i | inr _ => None end)%list
  else ([], None).
(** 96-124 and 189-200: the database read from the directory, and the rest.  A database that makes the reader panic crashes. *)
Definition start_with (path : string) (c : config) (s : surroundings) (t : fs_tree) : list said * (auditor + exit_code) :=
  match db_open t with
  | Panic => ([], inr Crash)
  | Err => ([NotLoaded], inr (Exit 1))
  | Ok db =>
      let (m, ix) := start_index path c s in
      (unless_quiet c [LoadedDb (List.length (db_iter db)) path] ++ m,
       inl (mkAuditor c db (option_map (fun i => (i, [])) ix) [] (Some DEFAULT_MAX_BINARY_SIZE) None))%list
  end.
(** 49-200 [Auditor::new]. *)
Definition auditor_start (default_path : string) (c : config) (s : surroundings) : list said * (auditor + exit_code) :=
  let url := match cf_db_url c with Some u => u | None => DEFAULT_URL end in
  let path := match cf_db_path c with Some p => p | None => default_path end in
  if cf_fetch c then
    let (m, r) := retried path (attempt (su_db_lock s) (su_fetched s) KRepo) in
    match r with
    | inr _ => (unless_quiet c [FetchingDb url] ++ m ++ [NotFetched], inr (Exit 1))%list
    | inl t => let (m', o) := start_with path c s t in (unless_quiet c [FetchingDb url] ++ m ++ m', o)%list
    end
  else start_with path c s (su_opened s).
