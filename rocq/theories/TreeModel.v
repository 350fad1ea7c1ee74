(** Dependency trees: /repo/cargo-lock/src/dependency/tree.rs.
    The [petgraph] graph is modelled by its node and edge lists: node indexes count insertions,
    [edges_directed] lists the most recently added edge first, [externals(Incoming)] lists the nodes without
    incoming edges in index order.  Edge weights are not kept.  The [BTreeMap] from dependencies to nodes is a
    list in key order searched in key order. *)
From Coq Require Import List NArith Ascii String Bool Arith.
From Verif Require Import Base SemverModel StrLib PkgModel UrlModel LockModel.
Import ListNotations.

(** dependency.rs:17-27: derived [Ord for Dependency]. *)
Definition dep_cmp (a b : dependency) : comparison :=
  then_cmp (str_cmp (d_name a) (d_name b))
    (then_cmp (version_cmp (d_version a) (d_version b))
       (option_cmp source_cmp (d_source a) (d_source b))).

Definition nodes_map := list (dependency * nat).
Fixpoint node_insert (k : dependency) (i : nat) (m : nodes_map) : nodes_map :=
  match m with
  | [] => [(k, i)]
  | (k', i') :: r =>
      match dep_cmp k k' with
      | Lt => (k, i) :: m
      | Eq => (k', i) :: r
      | Gt => (k', i') :: node_insert k i r
      end
  end.
Fixpoint node_get (k : dependency) (m : nodes_map) : option nat :=
  match m with
  | [] => None
  | (k', i') :: r => match dep_cmp k k' with Lt => None | Eq => Some i' | Gt => node_get k r end
  end.

(** tree.rs:17-23 [struct Tree]. *)
Record tree := mkTree { t_packages : list package; t_nodes : nodes_map; t_edges : list (nat * nat) }.

(** tree.rs:31-35: first pass. *)
Fixpoint add_nodes (i : nat) (ps : list package) (m : nodes_map) : nodes_map :=
  match ps with
  | [] => m
  | p :: r => add_nodes (S i) r (node_insert (dep_of_package p) i m)
  end.
(** tree.rs:38-50: second pass; indexing a missing key (line 39) panics. *)
Definition package_edges (m : nodes_map) (p : package) : outcome (list (nat * nat)) :=
  match node_get (dep_of_package p) m with
  | None => Panic
  | Some i => omap (fun d => match node_get d m with Some j => Ok (i, j) | None => Err end) (p_deps p)
  end.
(** tree.rs:27-53 [Tree::new]. *)
Definition tree_new (l : lockfile) : outcome tree :=
  let m := add_nodes 0 (lk_packages l) [] in
  let? es := omap (package_edges m) (lk_packages l) in
  Ok (mkTree (lk_packages l) m (List.concat es)).
(** tree.rs:82-84 [roots]. *)
Definition roots (t : tree) : list nat :=
  filter (fun i => negb (existsb (fun e => Nat.eqb (snd e) i) (t_edges t))) (seq 0 (List.length (t_packages t))).

(** tree.rs:186-193: the neighbours of a node, in the order printed. *)
Inductive direction := Incoming | Outgoing.
Definition neighbours (t : tree) (dir : direction) (n : nat) : list nat :=
  match dir with
  | Outgoing => rev (map snd (filter (fun e => Nat.eqb (fst e) n) (t_edges t)))
  | Incoming => rev (map fst (filter (fun e => Nat.eqb (snd e) n) (t_edges t)))
  end.

(** A printed line: the [levels_continue] stack at that point and the node. *)
Definition line := (list bool * nat)%type.
Definition memb (n : nat) (l : list nat) : bool := existsb (Nat.eqb n) l.
(** tree.rs:195-199: the loop over the neighbours; [i < len - 1] is "more follow". *)
Fixpoint print_all (rec : nat -> list nat -> list bool -> option (list line * list nat))
  (cs : list nat) (visited : list nat) (levels : list bool) : option (list line * list nat) :=
  match cs with
  | [] => Some ([], visited)
  | c :: r =>
      match rec c visited (levels ++ [match r with [] => false | _ => true end]) with
      | None => None
      | Some (o1, v1) =>
          match print_all rec r v1 levels with
          | None => None
          | Some (o2, v2) => Some (o1 ++ o2, v2)
          end
      end
  end.
(** tree.rs:143-202 [print_node].  [fuel] bounds the recursion depth, [None] is running out of it; the theorem
    shows that one more than the number of nodes is always enough.  Writing never fails (no I/O errors). *)
Fixpoint print_node (fuel : nat) (t : tree) (dir : direction) (n : nat) (visited : list nat) (levels : list bool)
  : option (list line * list nat) :=
  match fuel with
  | O => None
  | S f =>
      if memb n visited then Some ([(levels, n)], visited)
      else match print_all (print_node f t dir) (neighbours t dir n) (n :: visited) levels with
           | None => None
           | Some (o, v) => Some ((levels, n) :: o, v)
           end
  end.
(** tree.rs:57-78 [render]. *)
Definition render (t : tree) (n : nat) (dir : direction) : option (list line) :=
  option_map fst (print_node (S (List.length (t_packages t))) t dir n [] []).
