(** The [cargo lock] command: /repo/cargo-lock/src/main.rs, and the text of a printed tree line,
    /repo/cargo-lock/src/dependency/tree.rs.
    Argument parsing by [clap] and the reading and writing of files are not modelled: a command is a function
    of its decoded options and of the loaded lockfile. *)
From Coq Require Import List NArith Ascii String Bool Arith.
From Verif Require Import Base SemverModel StrLib VerText PkgModel UrlModel SumModel LockModel TreeModel.
Import ListNotations.
Local Open Scope string_scope.
Local Infix "++" := String.append (right associativity, at level 60).

(** ** translate *)
(** lockfile/version.rs:69-73 [Default for ResolveVersion]. *)
Definition default_version : resolve_version := V3.
(** lockfile/version.rs:81-89 [FromStr for ResolveVersion]. *)
Definition resolve_version_from_str (s : string) : outcome resolve_version :=
  match parse_u32 s with Some n => resolve_version_of n | None => Err end.
Definition with_version (v : resolve_version) (l : lockfile) : lockfile :=
  mkLock v (lk_packages l) (lk_root l) (lk_metadata l) (lk_patch l).
(** main.rs:102-122 [TranslateCmd::run], without the choice of the output file; the option [-v] is text. *)
Definition cmd_translate (version : option string) (l : lockfile) : outcome raw_lock :=
  let? v := match version with None => Ok default_version | Some s => resolve_version_from_str s end in
  Ok (save (with_version v l)).

(** ** list *)
(** main.rs:57-81 [ListCmd::run]: the printed lines. *)
Definition list_package (dependencies sources : bool) (p : package) : list string :=
  ("- " ++ (if sources then dep_string (dep_of_package p) else p_name p ++ " " ++ print_version (p_version p)))
  :: (if dependencies
      then map (fun d => "  - " ++ (if sources then dep_string d else d_name d ++ " " ++ print_version (d_version d))) (p_deps p)
      else []).
Definition cmd_list (name : option string) (dependencies sources : bool) (l : lockfile) : list string :=
  flat_map (fun p => if match name with Some n => String.eqb (p_name p) n | None => true end
                     then list_package dependencies sources p else []) (lk_packages l).

(** ** tree *)
(** main.rs:144-146 [package_matches_name]. *)
Definition package_matches_name (p : package) (name : string) : bool := String.eqb (p_name p) name.
(** main.rs:148-168 [package_matches_ver]; source.rs:194-196 [precise]. *)
Definition package_matches_ver (p : package) (ver : string) : bool :=
  match parse_version ver with
  | Some v => version_eqb (p_version p) v
  | None =>
      (match p_checksum p with Some c => String.eqb (checksum_string c) ver | None => false end)
      || (match p_source p with
          | Some s => match s_precise s with Some x => String.eqb x ver | None => false end
          | None => false end)
  end.
(** main.rs:170-176 [package_matches]. *)
Definition package_matches (p : package) (spec : string) : bool :=
  match split_once "@" spec with
  | Some (name, ver) => package_matches_name p name && package_matches_ver p ver
  | None => package_matches_name p spec || package_matches_ver p spec
  end.
(** main.rs:188-205: the packages whose trees are drawn.  [Err]: the process ends with status 1 (no package
    matches); [Panic]: indexing [tree.nodes()] with a key that is not there (line 201). *)
Definition tree_indices (l : lockfile) (t : tree) (specs : list string) : outcome (list nat) :=
  match specs with
  | [] => Ok (roots t)
  | _ => omap (fun spec =>
           match find (fun p => package_matches p spec) (lk_packages l) with
           | None => Err
           | Some p => match node_get (dep_of_package p) (t_nodes t) with Some i => Ok i | None => Panic end
           end) specs
  end.

(** dependency/tree.rs:105-114 [Default for Symbols]. *)
Definition sym_down : string := "│".
Definition sym_tee : string := "├".
Definition sym_ell : string := "└".
Definition sym_right : string := "─".
(** tree.rs:153-166: the indentation of a line; the last level is drawn differently. *)
Fixpoint indentation (levels : list bool) : string :=
  match levels with
  | [] => ""
  | [last] => (if last then sym_tee else sym_ell) ++ sym_right ++ sym_right ++ " "
  | c :: r => (if c then sym_down else " ") ++ "   " ++ indentation r
  end.
(** tree.rs:168-180: the text of a node (without the line end). *)
Definition node_text (exact : bool) (p : package) : string :=
  p_name p ++ " " ++ print_version (p_version p)
  ++ (if exact
      then " " ++ match p_checksum p with
                  | Some c => "checksum:" ++ checksum_string c
                  | None => match p_source p with Some s => as_url false s | None => "inexact" end
                  end
      else "").
(** A line of the output; [self.graph[node_index]] (tree.rs:150) panics on an unknown index, here the empty text
    (the theorems show that it does not arise). *)
Definition line_text (exact : bool) (ps : list package) (ln : line) : string :=
  indentation (fst ln) ++ match nth_error ps (snd ln) with Some p => node_text exact p | None => "" end.
(** main.rs:211-224 [dependency_tree]: a blank line between trees.  [None]: the recursion bound of
    [TreeModel.render] is exceeded (the theorems show that it is not). *)
Fixpoint draw_trees (exact : bool) (t : tree) (dir : direction) (indices : list nat) : option (list string) :=
  match indices with
  | [] => Some []
  | i :: r =>
      match render t i dir, draw_trees exact t dir r with
      | Some o, Some rest =>
          Some (map (line_text exact (t_packages t)) o ++ match r with [] => [] | _ => "" :: rest end)%list
      | _, _ => None
      end
  end.
(** main.rs:180-208 [TreeCmd::run]. *)
Definition cmd_tree (exact inverse : bool) (specs : list string) (l : lockfile) : outcome (list string) :=
  let? t := tree_new l in
  let? is := tree_indices l t specs in
  match draw_trees exact t (if inverse then Incoming else Outgoing) is with
  | Some ls => Ok ls
  | None => Panic
  end.
