(** Specification vocabulary for the `cargo audit` command. *)
From Coq Require Import List NArith Ascii String Bool Arith.
From Verif Require Import Base SemverModel OsvModel OsvSpec VerText IdModel PkgModel DbModel DbSpec UrlModel LockModel LockSpec
  TreeModel TreeSpec PlatData PlatModel IndexModel IndexSpec AuditModel.
Import ListNotations.
Local Open Scope string_scope.

(** What the user asked to be fatal. *)
Definition denies (c : config) (k : warning_kind) : Prop :=
  In DWarnings (cf_deny c) \/
  match k with
  | WUnmaintained => In DUnmaintained (cf_deny c)
  | WUnsound => In DUnsound (cf_deny c)
  | WYanked => In DYanked (cf_deny c)
  | WNotice => False
  end.
Definition kind_of_info (k : warning_kind) (i : informational) : Prop :=
  match k with WNotice => i = INotice | WUnmaintained => i = IUnmaintained | WUnsound => i = IUnsound | WYanked => False end.

(** A vulnerability in the lockfile that is not ignored. *)
Definition vulnerable_finding (checks : bool) (s : settings) (advs : list advisory) (pkgs : list package) : Prop :=
  exists a p, In a advs /\ In p pkgs /\ concerns checks s a p /\ a_informational a = None /\ ~ In (a_id a) (st_ignore s).
(** An informational advisory of kind [k] about the lockfile that is not ignored (whether or not the user asked to see
    that kind). *)
Definition informational_finding (checks : bool) (s : settings) (advs : list advisory) (pkgs : list package) (k : warning_kind) : Prop :=
  exists a p i, In a advs /\ In p pkgs /\ concerns checks s a p /\ a_informational a = Some i /\ kind_of_info k i /\
    ~ In (a_id a) (st_ignore s).
(** A crates.io package the index [truth] says is yanked. *)
Definition yanked_finding (truth : string -> entry) (pkgs : list package) : Prop :=
  exists p, In p pkgs /\ from_crates_io p /\ says (truth (p_name p)) (p_version p) true.
(** A vulnerability in the running program itself. *)
Definition self_finding (checks : bool) (advs : list advisory) : Prop :=
  exists a v, In a advs /\ a_collection a = Some Crates /\ a_withdrawn a = None /\ a_informational a = None /\
    (a_package a = "cargo-audit" /\ v = mkVersion 0 22 2 [] [] \/ a_package a = "rustsec" /\ v = mkVersion 0 34 0 [] []) /\
    is_vulnerable checks (a_versions a) v = Ok true.
(** The index is consulted. *)
Definition index_consulted (c : config) (w : world) : Prop :=
  cf_yanked c = true /\ wd_index w (cf_update_index c && cf_fetch c) <> None.
Definition index_answers (c : config) (w : world) (truth : string -> entry) : Prop :=
  forall ix, wd_index w (cf_update_index c && cf_fetch c) = Some ix -> answers truth ix.

(** There is something that must make the audit fail: a vulnerability, a denied warning, or, if all warnings are
    denied, a vulnerability in cargo-audit itself.  (Notices are left out here: see C27.) *)
Definition must_fail (checks : bool) (c : config) (w : world) (truth : string -> entry) (advs : list advisory) (pkgs : list package) : Prop :=
  vulnerable_finding checks (report_settings c) advs pkgs \/
  (exists k, k <> WNotice /\ denies c k /\ informational_finding checks (report_settings c) advs pkgs k) \/
  (denies c WYanked /\ index_consulted c w /\ yanked_finding truth pkgs) \/
  (In DWarnings (cf_deny c) /\ self_finding checks advs).

(** The lockfile's dependency tree can be printed: git sources pinned, no package listed twice, every dependency
    listed; and, in builds with overflow checks, no version component is the largest 64-bit number. *)
Definition small (n : N) : Prop := (n < u64_max)%N.
Definition small_version (v : version) : Prop := small (major v) /\ small (minor v) /\ small (patch v).
Definition closed (l : lockfile) : Prop :=
  forall p d, In p (lk_packages l) -> In d (p_deps p) -> exists q, In q (lk_packages l) /\ names_package d q.
Definition printable (checks : bool) (c : config) (advs : list advisory) (l : lockfile) : Prop :=
  cf_format c = FTerminal ->
  locked l /\ distinct_packages l /\ closed l /\
  (checks = true -> (forall p, In p (lk_packages l) -> small_version (p_version p)) /\
                    (forall a, In a advs -> below_u64_max (unaffected (a_versions a)))).

(** ** Operating systems and executable formats *)
Definition apple (o : os) : Prop := In o [OsMacOS; OsiOS; OsTvOS; OsVisionOS; OsWatchOS].
(** Formats by operating system as the filter sees them. *)
Definition runs_as (o : os) (f : binary_format) : Prop :=
  match f with
  | PE => o = OsWindows
  | Macho => apple o
  | Elf32 | Elf64 => o <> OsWindows /\ ~ apple o
  | Wasm => o = OsUnknown \/ o = OsNone
  | UnknownFormat => True
  end.
(** An advisory is about other platforms only: it lists operating systems, and none of those known runs the format. *)
Definition other_platforms_only (f : binary_format) (a : option affected) : Prop :=
  exists af, a = Some af /\ af_os af <> [] /\ f <> UnknownFormat /\
    forall s o, In s (af_os af) -> os_str o = s -> ~ runs_as o f.
