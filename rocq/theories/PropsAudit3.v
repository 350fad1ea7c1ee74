(** Property theorems C28, C29, C63, C64: binaries and terminal output of the `cargo audit` command. *)
From Coq Require Import List NArith Ascii String Bool Arith Lia.
From Verif Require Import Base SemverModel OsvModel OsvSpec OsvProofs4 StrLib VerText IdModel PkgModel DbModel DbSpec DbProofs DbProofs2
  PropsDb UrlModel LockModel LockSpec TreeModel TreeSpec TreeProofs PropsTree PlatData PlatModel PropsPlat IndexModel IndexSpec PropsIndex
  AuditModel AuditSpec AuditProofs PropsAudit.
Import ListNotations.
Local Open Scope string_scope.

(** ** C28: the filter by binary format *)
Lemma os_eqb_iff a b : os_eqb a b = true <-> a = b.
Proof. split; [destruct a, b; vm_compute; congruence|intros ->; apply String.eqb_refl]. Qed.
Lemma apple_iff o : os_mem o apple_oss = true <-> apple o.
Proof. destruct o; (split; [vm_compute; intuition discriminate || tauto|]); intros H; try (vm_compute; reflexivity);
  exfalso; cbn in H; intuition discriminate. Qed.
Lemma parse_oss_in l o : In o (parse_oss l) <-> In (os_str o) l.
Proof.
  pose proof (proj1 (proj2 C57_target_names_round_trip)) as R.
  induction l as [|s l IH]; cbn [parse_oss In]; [tauto|].
  destruct (os_from_str s) as [x| |] eqn:E.
  - cbn [In]. rewrite IH. split; intros [K|K]; auto; left; [apply R in E; congruence|].
    symmetry in K. apply R in K. congruence.
  - rewrite IH. split; [auto|]. intros [K|K]; [|exact K]. symmetry in K. apply R in K. congruence.
  - rewrite IH. split; [auto|]. intros [K|K]; [|exact K]. symmetry in K. apply R in K. congruence.
Qed.
Lemma os_mem_iff o l : os_mem o l = true <-> In o l.
Proof.
  unfold os_mem. rewrite existsb_exists. split; [intros (x & Hx & K); apply os_eqb_iff in K as <-; exact Hx|].
  intros H. exists o. split; [exact H|apply os_eqb_iff; reflexivity].
Qed.
Local Opaque apple_oss.
Lemma elf_iff l : existsb (fun o => negb (os_eqb o OsWindows) && negb (os_mem o apple_oss)) (parse_oss l) = true <->
  exists o, In (os_str o) l /\ o <> OsWindows /\ ~ apple o.
Proof.
  rewrite existsb_exists. split; intros (o & Ho & K); exists o; (split; [apply parse_oss_in; exact Ho|]).
  - apply andb_true_iff in K as [K1 K2]. apply negb_true_iff in K1, K2. rewrite <- os_eqb_iff, <- apple_iff, K1, K2.
    split; discriminate.
  - destruct K as [K1 K2]. rewrite <- os_eqb_iff in K1. rewrite <- apple_iff in K2.
    apply not_true_iff_false in K1, K2. rewrite K1, K2. reflexivity.
Qed.
Lemma at_least_one_iff f l : at_least_one_os_runs_binary f l = true <->
  f = UnknownFormat \/ exists o, In (os_str o) l /\ runs_as o f.
Proof.
  assert (X : forall (g : binary_format) (A B : Prop), g <> UnknownFormat -> (A <-> B) -> (A <-> g = UnknownFormat \/ B)) by tauto.
  unfold at_least_one_os_runs_binary. destruct f; cbn [runs_as]; try (apply X; [discriminate|]).
  - apply elf_iff.
  - apply elf_iff.
  - rewrite existsb_exists. split; intros (o & Ho & K); exists o; (split; [apply parse_oss_in; exact Ho|apply apple_iff; exact K]).
  - rewrite os_mem_iff, parse_oss_in. split; [intros H; exists OsWindows; auto|intros (o & H & ->); exact H].
  - rewrite existsb_exists. split; intros (o & Ho & K); exists o; (split; [apply parse_oss_in; exact Ho|]);
      rewrite orb_true_iff, !os_eqb_iff in *; exact K.
  - tauto.
Qed.
Local Transparent apple_oss.
Lemma applicable_false_iff f a : applicable f a = false <-> other_platforms_only f a.
Proof.
  unfold applicable, other_platforms_only. destruct a as [af|]; [|split; [discriminate|intros (x & K & _); discriminate]].
  destruct (af_os af) as [|s l] eqn:E.
  - split; [discriminate|]. intros (x & K & N & _). injection K as <-. congruence.
  - rewrite <- E. rewrite <- not_true_iff_false, at_least_one_iff. split.
    + intros N. exists af. split; [reflexivity|]. split; [congruence|]. split; [tauto|].
      intros s' o Hs <- R. apply N. right. exists o. auto.
    + intros (x & K & N & U & H). injection K as <-. intros [K|(o & Ho & R)]; [contradiction|]. exact (H _ o Ho eq_refl R).
Qed.
Lemma winfo_get_map f k m :
  winfo_get k (map (fun kw => (fst kw, filter f (snd kw))) m) = filter f (winfo_get k m).
Proof. induction m as [|[k' ws] m IH]; [reflexivity|]. cbn. destruct (warning_kind_eqb k' k); [reflexivity|exact IH]. Qed.

(** Filtering the report generated for any database, package list and settings never panics, removes exactly the
    entries whose advisory is about other platforms only, keeps the others in order, and leaves the counts right. *)
Theorem C28_filter_removes_exactly_other_platforms : forall checks t db pkgs s r f, db_open t = Ok db ->
  report_generate checks db pkgs s = Ok r ->
  exists r' keep, filter_report f r = Ok r' /\
    (forall a, keep a = false <-> other_platforms_only f a) /\
    vi_list (r_vulns r') = filter (fun v => keep (a_affected (v_advisory v))) (vi_list (r_vulns r)) /\
    (forall k, winfo_get k (r_warnings r') = filter (fun w => keep (warning_affected w)) (winfo_get k (r_warnings r))) /\
    vi_count (r_vulns r') = List.length (vi_list (r_vulns r')) /\
    (vi_found (r_vulns r') = true <-> vi_list (r_vulns r') <> []) /\
    r_dependency_count r' = r_dependency_count r /\ r_settings r' = r_settings r.
Proof.
  intros checks t db pkgs s r f H E. destruct (report_spec checks t db pkgs s H) as (r0 & E0 & _ & _ & _ & Ec & _).
  rewrite E in E0. injection E0 as <-. unfold filter_report. rewrite Ec, Nat.eqb_refl. cbn [negb].
  eexists. exists (applicable f). split; [reflexivity|]. cbn [vi_list vi_count vi_found r_vulns r_warnings r_dependency_count r_settings].
  split; [apply applicable_false_iff|]. split; [reflexivity|]. split; [intros k; apply winfo_get_map|]. split; [reflexivity|].
  split; [|auto]. destruct (filter _ _); split; congruence.
Qed.
Print Assumptions C28_filter_removes_exactly_other_platforms.
(** A yanked-crate warning and an advisory without OS list are never removed; an advisory naming Linux survives for
    ELF, one naming Windows for PE, one naming an Apple system for Mach-O. *)
Theorem C28_kept : forall f af o, In (os_str o) (af_os af) -> runs_as o f -> ~ other_platforms_only f (Some af).
Proof. intros f af o H R (x & K & N & U & A). injection K as <-. exact (A _ o H eq_refl R). Qed.
Print Assumptions C28_kept.
Theorem C28_unrestricted_kept : forall f a, (forall af, a = Some af -> af_os af = []) -> ~ other_platforms_only f a.
Proof. intros f a H (x & K & N & _). exact (N (H x K)). Qed.
Print Assumptions C28_unrestricted_kept.
Example C28_nonvacuous :
  other_platforms_only Elf64 (Some (mkAffected [] ["windows"; "macos"] [])) /\
  ~ other_platforms_only Elf64 (Some (mkAffected [] ["windows"; "linux"] [])) /\
  ~ other_platforms_only Macho (Some (mkAffected [] ["ios"] [])) /\
  other_platforms_only PE (Some (mkAffected [] ["linux"] [])) /\ db_open ex_tree = Ok ex_db.
Proof.
  rewrite <- !applicable_false_iff. vm_compute. split; [reflexivity|]. split; [discriminate|]. split; [discriminate|]. split; reflexivity.
Qed.
(** "Drops only advisories for other platforms" fails where the filter's notion of which system runs which format is
    narrower than reality: UEFI and Cygwin executables are PE files, WASI and Emscripten programs are Wasm files, and an
    OS name newer than the built-in list is treated as "no OS at all". *)
Definition really_runs_as (o : os) (f : binary_format) : Prop :=
  match f with
  | PE => In o [OsWindows; OsUefi; OsCygwin]
  | Wasm => In o [OsUnknown; OsNone; OsWasi; OsEmscripten]
  | _ => runs_as o f
  end.
Theorem C28_drops_advisories_of_the_own_platform_refuted :
  (exists o f, really_runs_as o f /\ other_platforms_only f (Some (mkAffected [] [os_str o] []))) /\
  (forall f l, f <> UnknownFormat -> l <> [] -> (forall s o, In s l -> os_str o <> s) -> other_platforms_only f (Some (mkAffected [] l []))).
Proof.
  split.
  - exists OsUefi, PE. split; [cbn; auto|]. apply applicable_false_iff. reflexivity.
  - intros f l F N H. exists (mkAffected [] l []). split; [reflexivity|]. split; [exact N|]. split; [exact F|].
    intros s o Hs E. exfalso. exact (H s o Hs E).
Qed.
Print Assumptions C28_drops_advisories_of_the_own_platform_refuted.

(** ** C29: the size limit *)
Lemma substring_all s : forall n, String.length s <= n -> substring 0 n s = s.
Proof.
  induction s as [|c s IH]; intros [|n] H; cbn in *; try reflexivity; [lia|]. rewrite IH; [reflexivity|lia].
Qed.
Lemma substring_length s : forall n, n <= String.length s -> String.length (substring 0 n s) = n.
Proof. induction s as [|c s IH]; intros [|n] H; cbn in *; try reflexivity; [lia|]. rewrite IH; lia. Qed.
(** With `--max-binary-size n` (or the default of 100 MiB), a readable file is accepted, whole, iff it has at most that
    many bytes (file lengths are below 2^64). *)
Theorem C29_limit_is_exact : forall a max data bytes, (N.of_nat (String.length bytes) <= u64_max)%N ->
  (forall n, max = Some n -> n <= u64_max)%N ->
  let limit := match max with Some n => n | None => (100 * 1024 * 1024)%N end in
  ((N.of_nat (String.length bytes) <= limit)%N -> read_with_limit (set_limits a max data) (Some bytes) = Ok bytes) /\
  ((limit < N.of_nat (String.length bytes))%N -> read_with_limit (set_limits a max data) (Some bytes) = Err).
Proof.
  intros a max data bytes B M limit. unfold read_with_limit, set_limits. cbn [au_binary_limit].
  change (match max with Some n => n | None => DEFAULT_MAX_BINARY_SIZE end) with limit.
  assert (L : (limit <= u64_max)%N) by (unfold limit; destruct max as [n|]; [apply M; reflexivity|vm_compute; discriminate]).
  assert (S : u64_saturating_succ limit = N.min u64_max (limit + 1)).
  { unfold u64_saturating_succ. destruct (N.eqb_spec limit u64_max) as [->|]; lia. }
  rewrite S. split; intros H.
  - rewrite substring_all by lia. destruct (N.ltb_spec limit (N.of_nat (String.length bytes))); [lia|reflexivity].
  - rewrite substring_length by lia. destruct (N.ltb_spec limit (N.of_nat (N.to_nat (N.min (N.min u64_max (limit + 1)) (N.of_nat (String.length bytes)))))); [reflexivity|lia].
Qed.
Print Assumptions C29_limit_is_exact.
Theorem C29_unreadable_is_error : forall a, read_with_limit a None = Err.
Proof. reflexivity. Qed.
Print Assumptions C29_unreadable_is_error.
Definition ex_auditor : auditor := mkAuditor ex_config ex_db None [] None None.
Example C29_nonvacuous :
  read_with_limit (set_limits ex_auditor (Some 3%N) None) (Some "abc") = Ok "abc" /\
  read_with_limit (set_limits ex_auditor (Some 3%N) None) (Some "abcd") = Err /\
  read_with_limit (set_limits ex_auditor None None) (Some "abcd") = Ok "abcd".
Proof. split; [|split]; vm_compute; reflexivity. Qed.
(** The help text says "use 0 for unlimited"; with 0 every non-empty file is rejected. *)
Theorem C29_zero_is_unlimited_refuted : forall a data bytes, bytes <> "" ->
  read_with_limit (set_limits a (Some 0%N) data) (Some bytes) = Err.
Proof. intros a data [|c s] N; [contradiction|]. unfold read_with_limit, set_limits. cbn [au_binary_limit].
  change (u64_saturating_succ 0) with 1%N. rewrite substring_length by lia.
  destruct (N.ltb_spec 0 (N.of_nat (N.to_nat (N.min 1 (N.of_nat (String.length (String c s))))))) as [|K]; [reflexivity|].
  cbn [String.length] in K. lia.
Qed.
Print Assumptions C29_zero_is_unlimited_refuted.
