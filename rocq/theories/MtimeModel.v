(** Modification times from the git history: /repo/rustsec/src/repository/git/modification_time.rs, git.rs, gitpath.rs. *)
From Coq Require Import List NArith ZArith Ascii String Bool.
From Verif Require Import Base StrLib IdModel.
Import ListNotations.

(** [gix::date::Time]: seconds since the epoch, then the offset, with the derived order. *)
Record gtime := mkTime { t_seconds : Z; t_offset : Z }.
Definition time_cmp (a b : gtime) : comparison :=
  match Z.compare (t_seconds a) (t_seconds b) with Eq => Z.compare (t_offset a) (t_offset b) | c => c end.
(** [std::cmp::max] and [min]: the second and the first of equals. *)
Definition time_max (a b : gtime) : gtime := match time_cmp a b with Gt => a | _ => b end.
Definition time_min (a b : gtime) : gtime := match time_cmp a b with Gt => b | _ => a end.

(** A tree, as the files in it with their mode and content (an object id).  Simplified: directories have no entries of
    their own. *)
Definition path := string.
Definition tree : Type := list (path * N).
Fixpoint lookup {A} (p : path) (m : list (path * A)) : option A :=
  match m with [] => None | (q, v) :: r => if String.eqb q p then Some v else lookup p r end.
Definition opt_eqb (a b : option N) : bool :=
  match a, b with Some x, Some y => N.eqb x y | None, None => true | _, _ => false end.

(** A commit object, and what the walk reports for each commit: its id and its parents. *)
Record commit := mkCommit { c_tree : tree; c_time : gtime }.
Record info := mkInfo { i_id : N; i_parents : list N }.

(** [gix::diff::tree] with its [Recorder]: the paths of additions, modifications and deletions.  (The recorder lists them
    in another order and once each, or twice if a file replaces a directory.) *)
Definition changed (previous current : tree) : list path :=
  filter (fun p => negb (opt_eqb (lookup p previous) (lookup p current))) (map fst previous ++ map fst current)%list.

(** [HashMap]: an association list with distinct keys; [entry(p).and_modify(f).or_insert(t)]. *)
Definition times : Type := list (path * gtime).
Fixpoint upsert (f : gtime -> gtime) (t : gtime) (p : path) (m : times) : times :=
  match m with
  | [] => [(p, t)]
  | (q, v) :: r => if String.eqb q p then (q, f v) :: r else (q, v) :: upsert f t p r
  end.

(** modification_time.rs:16-19 [struct GitModificationTimes]. *)
Record mod_times := mkTimes { mt_mtimes : times; mt_ctimes : times }.
(** 148-167: one changed path. *)
Definition record (t : gtime) (m : mod_times) (p : path) : mod_times :=
  mkTimes (upsert (fun old => time_max old t) t p (mt_mtimes m)) (upsert (fun old => time_min old t) t p (mt_ctimes m)).

Section New.
  (** The object database: the commits in it.  (A commit's tree is taken to be present.) *)
  Context (db : N -> option commit).
  (** 56-167: one commit of the walk. *)
  Definition visit (i : info) (m : mod_times) : outcome mod_times :=
    match i_parents i with
    | [] | [_] =>
        match db (i_id i) with
        | None => Err
        | Some c =>
            let previous := match i_parents i with
                            | [p] => match db p with Some pc => c_tree pc | None => [] end
                            | _ => []
                            end in
            Ok (fold_left (record (c_time c)) (changed previous (c_tree c)) m)
        end
    | _ => Ok m
    end.
  Fixpoint visit_all (walk : list info) (m : mod_times) : outcome mod_times :=
    match walk with
    | [] => Ok m
    | i :: r => let? m' := visit i m in visit_all r m'
    end.
  (** 25-170 [GitModificationTimes::new]; [walk] is what the walk of the commits from HEAD yields. *)
  Definition mod_times_new (walk : list info) : outcome mod_times := visit_all walk (mkTimes [] []).
End New.

(** git.rs:20-24: a time outside the years -9999 to 9999 or an offset of a day or more panics. *)
Definition MIN_SECONDS : Z := -377705116800.
Definition MAX_SECONDS : Z := 253402300799.
Definition valid_time (t : gtime) : bool :=
  (Z.leb MIN_SECONDS (t_seconds t) && Z.leb (t_seconds t) MAX_SECONDS && Z.leb (-93599) (t_offset t) && Z.leb (t_offset t) 93599)%bool.

(** 174-177 [for_path], as the instant (seconds since the epoch). *)
Definition for_path (m : mod_times) (p : path) : outcome Z :=
  match lookup p (mt_mtimes m) with
  | None => Panic
  | Some t => if valid_time t then Ok (t_seconds t) else Panic
  end.

(** 190-202 [gix_time_to_date].  [civil_of_day] is the calendar of the crate [time] (days since the epoch to year, month,
    day); [civil] the date parser of [advisory::Date].  Simplified: a local date outside the years -9999 to 9999 panics
    earlier. *)
Section Dates.
  Context (civil_of_day : Z -> Z * N * N) (civil : civil_parser).
  (** [{:0>n}]: padding with zeros on the left (before the sign, too). *)
  Fixpoint zeros (n : nat) : string := match n with O => ""%string | S k => String "0" (zeros k) end.
  Definition pad_left (n : nat) (s : string) : string := (zeros (n - String.length s) ++ s)%string.
  Definition print_int (z : Z) : string :=
    if Z.ltb z 0 then String "-" (print_dec (Z.to_N (- z))) else print_dec (Z.to_N z).
  Definition time_date_text (t : gtime) : string :=
    let '(y, m, d) := civil_of_day (Z.div (t_seconds t + t_offset t) 86400) in
    (pad_left 4 (print_int y) ++ "-" ++ pad_left 2 (print_dec m) ++ "-" ++ pad_left 2 (print_dec d))%string.
  Definition time_to_date (t : gtime) : outcome string :=
    if negb (valid_time t) then Panic
    else match date_from_str civil (time_date_text t) with Ok d => Ok d | _ => Panic end.
  (** 181-183 [mdate_for_path], 187-189 [cdate_for_path]. *)
  Definition mdate_for_path (m : mod_times) (p : path) : outcome string :=
    match lookup p (mt_mtimes m) with None => Panic | Some t => time_to_date t end.
  Definition cdate_for_path (m : mod_times) (p : path) : outcome string :=
    match lookup p (mt_ctimes m) with None => Panic | Some t => time_to_date t end.
End Dates.

(** gitpath.rs:19-36 [GitPath::new] with repository.rs:252-265 [has_relative_path].  [gix]'s [lookup_entry_by_path] returns
    [Ok(None)] for a path that is not in the tree; [.ok().map(|_e| true)] makes this [true].  [head] is the tree of the
    HEAD commit, [None] if it cannot be read. *)
Definition lookup_entry_by_path (head : tree) (p : path) : outcome (option N) := Ok (lookup p head).
Definition has_relative_path (head : option tree) (p : path) : bool :=
  match head with
  | None => false
  | Some t => match lookup_entry_by_path t p with Ok _ => true | _ => false end
  end.
Definition git_path (head : option tree) (p : path) : outcome path :=
  if starts_with "/" p then Err else if has_relative_path head p then Ok p else Err.

(** commit.rs:125-128 [is_fresh]; times in nanoseconds. *)
Definition STALE_AFTER : Z := 90 * 86400 * 1000000000.
Definition is_fresh (timestamp now : Z) : bool := Z.ltb (now - STALE_AFTER) timestamp.
