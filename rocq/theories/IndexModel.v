(** The crates.io index with its in-memory cache: /repo/rustsec/src/cached_index.rs. *)
From Coq Require Import List NArith Ascii String Bool Arith.
From Verif Require Import Base SemverModel StrLib VerText PkgModel UrlModel LockModel TreeModel.
Import ListNotations.
Local Open Scope string_scope.

(** A crate in the index: its versions as written there, with the yanked flag, in index order. *)
Definition krate := list (string * bool).
(** [Result<Option<IndexKrate>, Error>]: [None] is an error, [Some None] an unknown crate. *)
Definition entry := option (option krate).
(** cached_index.rs:15-18 [enum Index], with the external crate [tame_index] and the network as oracles:
    - [ix_local n]: [cached_krate] of crate [n] in the local index cache ([None]: invalid name or unreadable);
    - [ix_batch ns]: [krates_blocking], the batch download; [None] if no runtime can be started, else one
      result per requested name.
    Downloading also writes the local cache; this is not modelled because names answered by a batch are never
    looked up locally afterwards. *)
Record index := mkIndex {
  ix_remote : bool;
  ix_local : string -> entry;
  ix_batch : list string -> option (list (string * entry)) }.

(** cached_index.rs:47-55 [struct CachedIndex]: the [HashMap] cache as an association list, newest first.
    The inner map from version text to flag is the list of versions searched from the end ([collect] keeps the
    last entry of equal keys). *)
Definition cache := list (string * entry).
Definition cache_get (n : string) (c : cache) : option (entry) :=
  option_map snd (find (fun e => String.eqb (fst e) n) c).
Definition krate_get (v : string) (k : krate) : option bool :=
  option_map snd (find (fun e => String.eqb (fst e) v) (rev k)).

(** [BTreeSet<&Name>]. *)
Fixpoint name_insert (n : string) (l : list string) : list string :=
  match l with
  | [] => [n]
  | x :: r => match str_cmp n x with Lt => n :: l | Eq => l | Gt => x :: name_insert n r end
  end.
(** package.rs:19: derived [Ord for Package]; checksums compare as byte arrays. *)
Definition package_cmp (a b : package) : comparison :=
  then_cmp (str_cmp (p_name a) (p_name b))
    (then_cmp (version_cmp (p_version a) (p_version b))
      (then_cmp (option_cmp source_cmp (p_source a) (p_source b))
        (then_cmp (option_cmp (list_cmp N.compare) (p_checksum a) (p_checksum b))
          (then_cmp (list_cmp dep_cmp (p_deps a) (p_deps b))
            (option_cmp dep_cmp (p_replace a) (p_replace b)))))).
(** [BTreeSet<&Package>]: insertion keeps the element already present (linear search stands for the B-tree
    search, which agrees with it whenever the order is a genuine one). *)
Fixpoint pkg_insert (p : package) (l : list package) : list package :=
  match l with
  | [] => [p]
  | x :: r => match package_cmp p x with Lt => p :: l | Eq => l | Gt => x :: pkg_insert p r end
  end.
Definition dedup_packages (ps : list package) : list package := fold_left (fun s p => pkg_insert p s) ps [].
Definition package_names (ps : list package) : list string := fold_left (fun s p => name_insert (p_name p) s) ps [].

(** cached_index.rs:146-199 [populate_cache]; the boolean is whether it succeeded. *)
Definition populate_cache (ix : index) (c : cache) (names : list string) : cache * bool :=
  let missing := filter (fun n => match cache_get n c with None => true | Some _ => false end) names in
  if ix_remote ix then
    match ix_batch ix missing with
    | None => (c, false)
    | Some results => (fold_left (fun c r => r :: c) results c, true)
    end
  else (fold_left (fun c n => (n, ix_local ix n) :: c) missing c, true).

(** cached_index.rs:220-245 [is_yanked]. *)
Definition is_yanked (ix : index) (c : cache) (p : package) : cache * outcome bool :=
  let c' := match cache_get (p_name p) c with Some _ => c | None => (p_name p, ix_local ix (p_name p)) :: c end in
  (c', match cache_get (p_name p) c' with
       | Some (Some (Some k)) => match krate_get (print_version (p_version p)) k with Some y => Ok y | None => Err end
       | Some (Some None) => Err
       | Some None => Err
       | None => Panic (* [self.cache[..]] of a missing key; impossible after the insertion above *)
       end).

(** One entry of the result: a yanked package, or an error. *)
Inductive yank_result := Yanked (p : package) | YankError.

(** cached_index.rs:273-279. *)
Fixpoint yanked_loop (ix : index) (c : cache) (ps : list package) : cache * outcome (list yank_result) :=
  match ps with
  | [] => (c, Ok [])
  | p :: r =>
      let (c1, y) := is_yanked ix c p in
      let (c2, rest) := yanked_loop ix c1 r in
      (c2, match y with
           | Panic => Panic
           | Ok false => rest
           | Ok true => let? l := rest in Ok (Yanked p :: l)
           | Err => let? l := rest in Ok (YankError :: l)
           end)
  end.
(** cached_index.rs:253-282 [find_yanked]. *)
Definition find_yanked (ix : index) (c : cache) (ps : list package) : cache * outcome (list yank_result) :=
  let ds := dedup_packages ps in
  let (c1, ok) := populate_cache ix c (package_names ds) in
  let (c2, r) := yanked_loop ix c1 ds in
  (c2, let? l := r in Ok (if ok then l else YankError :: l)).
