(** Specification vocabulary for the advisory database, queries and reports. *)
From Coq Require Import List NArith Ascii String Bool.
From Verif Require Import Base SemverModel OsvModel IdModel IdSpec PkgModel DbModel.
Import ListNotations.
Local Open Scope string_scope.
Local Infix "++" := String.append (right associativity, at level 60).

(** The file [f] lies at [coll/dir/f] in the tree and is not hidden. *)
Definition tree_file (t : fs_tree) (p : placed) : Prop :=
  exists es e fs,
    (pl_coll p = "crates" /\ t_crates t = Some es \/ pl_coll p = "rust" /\ t_rust t = Some es) /\
    In e es /\ e_name e = pl_dir p /\ e_files e = Some fs /\ In (pl_file p) fs /\
    ~ has_prefix "." (f_name (pl_file p)).

(** The file is well named and well placed and its content is advisory [a] (with the collection it lies
    in filled in). *)
Definition file_gives (p : placed) (a : advisory) : Prop :=
  exists raw c stem,
    f_parsed (pl_file p) = Ok raw /\
    f_name (pl_file p) = stem ++ ".md" /\ stem <> "" /\
    (stem = id_string (a_id raw) \/ has_prefix "RUSTSEC-0000-0000." (f_name (pl_file p))) /\
    pl_dir p = a_package raw /\
    pl_coll p = collection_str c /\
    (a_collection raw = None \/ a_collection raw = Some c) /\
    a = with_collection raw c.

Definition is_placeholder_adv (a : advisory) : bool := String.eqb (id_string (a_id a)) "RUSTSEC-0000-0000".

(** The package comes from crates.io (git index or sparse index). *)
Definition from_crates_io (p : package) : Prop :=
  exists s, p_source p = Some s /\
    (s_kind s = SRegistry /\ s_url s = "https://github.com/rust-lang/crates.io-index" \/
     s_kind s = SSparseRegistry /\ s_url s = "https://index.crates.io/").
(** The same as a list filter. *)
Definition crates_io_source (s : source_id) : bool :=
  match s_kind s with
  | SRegistry => String.eqb (s_url s) "https://github.com/rust-lang/crates.io-index"
  | SSparseRegistry => String.eqb (s_url s) "https://index.crates.io/"
  | _ => false
  end.
Definition crates_io_package (p : package) : bool :=
  match p_source p with Some s => crates_io_source s | None => false end.

(** Where an advisory says its package is published (crates.io's git index by default). *)
Definition advisory_location (a : advisory) : source_kind * string :=
  match a_source a with
  | Some s => (s_kind s, s_url s)
  | None => (SRegistry, "https://github.com/rust-lang/crates.io-index")
  end.

Definition if_set {A} (o : option A) (P : A -> Prop) : Prop := forall x, o = Some x -> P x.
Definition overlap (targets listed : list string) : Prop :=
  targets = [] \/ listed = [] \/ exists x, In x targets /\ In x listed.

(** What a query selects. *)
Definition selects (checks : bool) (q : query) (a : advisory) : Prop :=
  if_set (q_collection q) (fun c => a_collection a = Some c) /\
  if_set (q_name q) (fun n => a_package a = n) /\
  if_set (q_version q) (fun v => is_vulnerable checks (a_versions a) v = Ok true) /\
  if_set (q_source q) (fun s => advisory_location a = (s_kind s, s_url s)) /\
  if_set (q_severity q) (fun t => if_set (a_severity a) (fun s => severity_rank t <= severity_rank s)) /\
  if_set (a_affected a) (fun af => overlap (q_arch q) (af_arch af) /\ overlap (q_os q) (af_os af)) /\
  if_set (q_year q) (fun y => if_set (id_year (a_id a)) (fun y' => y' = y)) /\
  if_set (q_withdrawn q) (fun w => w = true <-> a_withdrawn a <> None) /\
  if_set (q_informational q) (fun i => i = true <-> a_informational a <> None).

(** Advisory [a] concerns package [p] under report settings [s] (ignoring the ignore list): [p] is from
    crates.io, has the advisory's name, is vulnerable, the advisory is not withdrawn and is in the crates
    collection, and target and severity filters pass. *)
Definition concerns (checks : bool) (s : settings) (a : advisory) (p : package) : Prop :=
  from_crates_io p /\
  a_collection a = Some Crates /\ a_package a = p_name p /\
  is_vulnerable checks (a_versions a) (p_version p) = Ok true /\
  (forall src, p_source p = Some src -> advisory_location a = (s_kind src, s_url src)) /\
  (forall t sev, st_severity s = Some t -> a_severity a = Some sev -> severity_rank t <= severity_rank sev) /\
  (forall af, a_affected a = Some af -> overlap (st_arch s) (af_arch af) /\ overlap (st_os s) (af_os af)) /\
  a_withdrawn a = None.

(** Report settings with another severity threshold / with one more ignored id, and whether an advisory
    reaches a threshold (advisories without a score always do). *)
Definition with_severity (s : settings) (t : option severity) : settings :=
  mkSettings (st_arch s) (st_os s) t (st_ignore s) (st_info s).
Definition reaches (t : severity) (a : advisory) : bool :=
  match a_severity a with Some s => Nat.leb (severity_rank t) (severity_rank s) | None => true end.
Definition at_least (lower : option severity) (t : severity) : Prop :=
  match lower with None => True | Some l => severity_rank l <= severity_rank t end.
Definition with_ignored (s : settings) (i : adv_id) : settings :=
  mkSettings (st_arch s) (st_os s) (st_severity s) (i :: st_ignore s) (st_info s).
