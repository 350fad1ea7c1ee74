(** Packages, dependencies and source ids: /repo/cargo-lock/src/package.rs,
    /repo/cargo-lock/src/package/source.rs, /repo/cargo-lock/src/dependency.rs. *)
From Coq Require Import List NArith Ascii String Bool.
From Verif Require Import Base SemverModel StrLib.
Import ListNotations.
Local Open Scope string_scope.

(** package/source.rs:405-419 [enum GitReference]. *)
Inductive git_reference :=
| GDefaultBranch | GTag (s : string) | GBranch (s : string) | GRev (s : string).

(** package/source.rs:326-348 [enum SourceKind]. *)
Inductive source_kind :=
| SGit (r : git_reference) | SPath | SRegistry | SSparseRegistry | SLocalRegistry | SDirectory.

(** package/source.rs:28-42 [struct SourceId].  A [url::Url] is modelled by its serialisation, which is
    what its [Eq], [Ord], [Hash] and [Display] use. *)
Record source_id := mkSource {
  s_url : string; s_kind : source_kind; s_precise : option string; s_name : option string }.

(** Derived [PartialEq] of the two enums above. *)
Definition git_reference_eqb (a b : git_reference) : bool :=
  match a, b with
  | GDefaultBranch, GDefaultBranch => true
  | GTag x, GTag y => String.eqb x y
  | GBranch x, GBranch y => String.eqb x y
  | GRev x, GRev y => String.eqb x y
  | _, _ => false
  end.
Definition source_kind_eqb (a b : source_kind) : bool :=
  match a, b with
  | SGit x, SGit y => git_reference_eqb x y
  | SPath, SPath => true
  | SRegistry, SRegistry => true
  | SSparseRegistry, SSparseRegistry => true
  | SLocalRegistry, SLocalRegistry => true
  | SDirectory, SDirectory => true
  | _, _ => false
  end.

(** package/source.rs:24,26. *)
Definition CRATES_IO_INDEX : string := "https://github.com/rust-lang/crates.io-index".
Definition CRATES_IO_SPARSE_INDEX : string := "sparse+https://index.crates.io/".

(** package/source.rs:320-324 [Default for SourceId]. *)
Definition default_source : source_id := mkSource CRATES_IO_INDEX SRegistry None None.

(** package/source.rs:216-220 [is_default_registry]; [&CRATES_IO_SPARSE_INDEX[7..]]. *)
Definition is_default_registry (s : source_id) : bool :=
  (source_kind_eqb (s_kind s) SRegistry && String.eqb (s_url s) CRATES_IO_INDEX)
  || (source_kind_eqb (s_kind s) SSparseRegistry
      && String.eqb (s_url s) (substring 7 (String.length CRATES_IO_SPARSE_INDEX - 7) CRATES_IO_SPARSE_INDEX)).

(** dependency.rs:17-27 [struct Dependency]. *)
Record dependency := mkDep { d_name : string; d_version : version; d_source : option source_id }.

(** package.rs:17-38 [struct Package]; the checksum is kept as its 32 bytes. *)
Record package := mkPkg {
  p_name : string; p_version : version; p_source : option source_id;
  p_checksum : option (list N); p_deps : list dependency; p_replace : option dependency }.

Lemma git_reference_eqb_spec a b : reflect (a = b) (git_reference_eqb a b).
Proof.
  destruct a, b; simpl; try (constructor; congruence);
    destruct (String.eqb_spec s s0); constructor; congruence.
Qed.
Lemma source_kind_eqb_spec a b : reflect (a = b) (source_kind_eqb a b).
Proof.
  destruct a, b; simpl; try (constructor; congruence).
  destruct (git_reference_eqb_spec r r0); constructor; congruence.
Qed.
