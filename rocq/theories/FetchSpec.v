(** Specification vocabulary for fetching the advisory database. *)
From Coq Require Import List NArith ZArith Ascii String Bool Arith.
From Verif Require Import Base IdModel DbModel MtimeModel FetchModel.
Import ListNotations.
Local Open Scope string_scope.

(** [a] is [b] or a directory above it. *)
Definition covers (a b : gpath) : Prop := exists r, b = (a ++ r)%list.
(** The trees git stores: no path twice, no file that is a directory as well. *)
Definition good_tree (t : work) : Prop :=
  NoDup (map fst t) /\ forall a b, In a (map fst t) -> In b (map fst t) -> covers a b -> a = b.
(** The path cannot exist beside the files of the tree: one of them is a directory above it, or lies below it. *)
Definition in_the_way (t : work) (p : gpath) : Prop := exists q, In q (map fst t) /\ (covers q p \/ covers p q).
(** [w'] is [w] with the files of [t] put into it. *)
Definition updated (w t w' : work) : Prop :=
  (forall p c, In (p, c) t -> content p w' = Some c) /\
  (forall p, ~ In p (map fst t) -> in_the_way t p -> content p w' = None) /\
  (forall p, ~ in_the_way t p -> content p w' = content p w).
(** Younger than ninety days at [now] (nanoseconds since the epoch). *)
Definition ninety_days : Z := (90 * 24 * 60 * 60 * 1000000000)%Z.
Definition younger (now : Z) (c : gcommit) : Prop := (now < t_seconds (gc_time c) * 1000000000 + ninety_days)%Z.
(** A commit the program can read: a date between the years -9999 and 9999, an offset below 26 hours, a message. *)
Definition readable (c : gcommit) : Prop :=
  (MIN_SECONDS <= t_seconds (gc_time c) <= MAX_SECONDS)%Z /\ (-93599 <= t_offset (gc_time c) <= 93599)%Z /\ gc_summary c <> "".

(** The states reachable by running fetches with one URL and one path, starting with nothing at the path; each run has its own
    clock, its own server and its own options, and can fail or be interrupted anywhere.  [served]: the commits the server gave. *)
Inductive runs (above : string -> option string) (url path : string) : list gcommit -> disk -> Prop :=
| run_start d : d path = Nothing -> runs above url path [] d
| run_step served d server now fresh free d' :
    runs above url path served d ->
    fetch_crash server above now url path fresh free d d' ->
    runs above url path (match server url with Some c => c :: served | None => served end) d'.
