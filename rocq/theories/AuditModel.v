(** The `cargo audit` command: configuration, command line, auditing a lockfile or binaries, exit status.
    Models /repo/cargo-audit/src/{config,auditor,presenter}.rs, commands/audit.rs, commands/audit/*.rs,
    /repo/rustsec/src/binary_scanning/binary_type_filter.rs and /repo/rustsec/src/fixer.rs. *)
From Coq Require Import List NArith Ascii String Bool Arith.
From Verif Require Import Base SemverModel OsvModel StrLib VerText IdModel PkgModel DbModel UrlModel LockModel TreeModel
  PlatData PlatModel IndexModel.
Import ListNotations.
Local Open Scope string_scope.

(** ** Configuration *)
(** config.rs:175-191 [enum DenyOption]. *)
Inductive deny_option := DWarnings | DUnmaintained | DUnsound | DYanked.
Definition deny_eqb (a b : deny_option) : bool :=
  match a, b with
  | DWarnings, DWarnings => true | DUnmaintained, DUnmaintained => true
  | DUnsound, DUnsound => true | DYanked, DYanked => true | _, _ => false
  end.
(** config.rs:195-202 [all]. *)
Definition deny_all : list deny_option := [DWarnings; DUnmaintained; DUnsound; DYanked].
(** config.rs:204-215 [get_warning_kind]. *)
Definition get_warning_kind (d : deny_option) : list warning_kind :=
  match d with
  | DWarnings => [WUnmaintained; WUnsound; WYanked]
  | DUnmaintained => [WUnmaintained]
  | DUnsound => [WUnsound]
  | DYanked => [WYanked]
  end.
(** config.rs:218-233 [FromStr for DenyOption]. *)
Definition deny_from_str (s : string) : outcome deny_option :=
  if String.eqb s "warnings" then Ok DWarnings
  else if String.eqb s "unmaintained" then Ok DUnmaintained
  else if String.eqb s "unsound" then Ok DUnsound
  else if String.eqb s "yanked" then Ok DYanked
  else Err.
(** config.rs:237-250 [enum OutputFormat]. *)
Inductive output_format := FJson | FSarif | FTerminal.
(** config.rs:278-283 [enum FilterList]. *)
Inductive filter_list := Single (s : string) | Many (l : list string).
(** config.rs:14-34 [struct AuditConfig] with its sections (95-160, 288-327) flattened. *)
Record config := mkConfig {
  cf_ignore : list adv_id; cf_info : option (list informational); cf_severity : option severity;
  cf_db_path : option string; cf_db_url : option string; cf_fetch : bool; cf_stale : bool;
  cf_deny : list deny_option; cf_format : output_format; cf_quiet : bool; cf_show_tree : bool;
  cf_arch : option filter_list; cf_os : option filter_list;
  cf_yanked : bool; cf_update_index : bool }.
(** [AuditConfig::default()]: derived, with config.rs:131-140, 144-160 (derived: [show_tree] is false), 329-336. *)
Definition default_config : config :=
  mkConfig [] None None None None true false [] FTerminal false false None None true true.
(** config.rs:298-304, 307-313 [arch], [os]. *)
Definition filter_values (f : option filter_list) : list string :=
  match f with Some (Single s) => [s] | Some (Many l) => l | None => [] end.
(** config.rs:66-70. *)
Definition insert_if_not_present (i : informational) (l : list informational) : list informational :=
  if existsb (fun j => informational_eqb j i) l then l else (l ++ [i])%list.
(** config.rs:72-86, the loop over the denied kinds ([break] after [Warnings]). *)
Fixpoint deny_loop (ds : list deny_option) (l : list informational) : list informational :=
  match ds with
  | [] => l
  | DWarnings :: _ =>
      insert_if_not_present IUnsound (insert_if_not_present IUnmaintained (insert_if_not_present INotice l))
  | DUnmaintained :: r => deny_loop r (insert_if_not_present IUnmaintained l)
  | DUnsound :: r => deny_loop r (insert_if_not_present IUnsound l)
  | DYanked :: r => deny_loop r l
  end.
(** config.rs:38-89 [report_settings]. *)
Definition report_settings (c : config) : settings :=
  mkSettings (filter_values (cf_arch c)) (filter_values (cf_os c)) (cf_severity c) (cf_ignore c)
    (deny_loop (cf_deny c) (match cf_info c with Some l => l | None => [IUnmaintained; IUnsound; INotice] end)).

(** ** Command line *)
(** commands/audit.rs:71-170 [struct AuditCommand] (colour and the subcommand left out). *)
Record cli := mkCli {
  cl_db : option string; cl_deny : list deny_option; cl_ignore : list string; cl_no_yanked : bool;
  cl_no_fetch : bool; cl_stale : bool; cl_arch : list string; cl_os : list string; cl_url : option string;
  cl_quiet : bool; cl_json : bool; cl_format : option output_format }.
(** commands/audit.rs:242-248, one denied kind. *)
Definition override_deny (deny : list deny_option) (d : deny_option) : list deny_option :=
  if deny_eqb d DWarnings then deny_all else (deny ++ [d])%list.
(** commands/audit.rs:213-268 [override_config]. *)
Definition override_config (l : cli) (c : config) : outcome config :=
  let? ids := omap id_from_str (cl_ignore l) in
  Ok (mkConfig
    (cf_ignore c ++ ids)%list (cf_info c) (cf_severity c)
    (match cl_db l with Some p => Some p | None => cf_db_path c end)
    (match cl_url l with Some u => Some u | None => cf_db_url c end)
    (cf_fetch c && negb (cl_no_fetch l)) (cf_stale c || cl_stale l)
    (fold_left override_deny (cl_deny l) (cf_deny c))
    (if cl_json l then FJson else match cl_format l with Some f => f | None => cf_format c end)
    (cf_quiet c || cl_quiet l) (if cl_quiet l then false else cf_show_tree c)
    (match cl_arch l with [] => cf_arch c | a => Some (Many a) end)
    (match cl_os l with [] => cf_os c | a => Some (Many a) end)
    (if cl_no_yanked l then false else cf_yanked c) (cf_update_index c)).

(** ** Binary formats *)
(** binary_scanning/binary_format.rs:6-19 [enum BinaryFormat]. *)
Inductive binary_format := Elf32 | Elf64 | Macho | PE | Wasm | UnknownFormat.
Definition os_eqb (a b : os) : bool := String.eqb (os_str a) (os_str b).
(** binary_type_filter.rs:85-91 [apple_OSs]. *)
Definition apple_oss : list os :=
  match matching_platforms "*apple*" with Ok l => map pf_os l | _ => [] end.
Definition os_mem (o : os) (l : list os) : bool := existsb (os_eqb o) l.
(** binary_type_filter.rs:52: unknown OS names are dropped. *)
Fixpoint parse_oss (l : list string) : list os :=
  match l with
  | [] => []
  | s :: r => match os_from_str s with Ok o => o :: parse_oss r | _ => parse_oss r end
  end.
(** binary_type_filter.rs:49-83 [at_least_one_os_runs_binary]. *)
Definition at_least_one_os_runs_binary (f : binary_format) (l : list string) : bool :=
  let oss := parse_oss l in
  match f with
  | PE => os_mem OsWindows oss
  | Macho => existsb (fun o => os_mem o apple_oss) oss
  | Elf32 | Elf64 => existsb (fun o => negb (os_eqb o OsWindows) && negb (os_mem o apple_oss)) oss
  | Wasm => existsb (fun o => os_eqb o OsUnknown || os_eqb o OsNone) oss
  | UnknownFormat => true
  end.
(** binary_type_filter.rs:34-47 [advisory_applicable_to_binary]. *)
Definition applicable (f : binary_format) (a : option affected) : bool :=
  match a with
  | Some af => match af_os af with [] => true | l => at_least_one_os_runs_binary f l end
  | None => true
  end.
(** warning.rs: the [affected] of a warning is copied from its advisory, absent for yanked crates. *)
Definition warning_affected (w : warning) : option affected :=
  match w_advisory w with Some a => a_affected a | None => None end.
(** binary_type_filter.rs:13-32 [filter_report_by_binary_type]; the [assert_eq!] is the [Panic] case. *)
Definition filter_report (f : binary_format) (r : report) : outcome report :=
  if negb (Nat.eqb (List.length (vi_list (r_vulns r))) (vi_count (r_vulns r))) then Panic
  else
    let l := filter (fun v => applicable f (a_affected (v_advisory v))) (vi_list (r_vulns r)) in
    Ok (mkReport (r_dependency_count r) (r_settings r)
          (mkVInfo (match l with [] => false | _ => true end) (List.length l) l)
          (map (fun kw => (fst kw, filter (fun w => applicable f (warning_affected w)) (snd kw))) (r_warnings r))).

(** ** Presenting *)
(** presenter.rs:487-504 [permits_newer].  [+ 1] on u64 panics with overflow checks and wraps without. *)
Definition release (a b c : N) : version := mkVersion a b c [] [].
Fixpoint comparator_candidates (checks : bool) (r : version_req) : outcome (list version) :=
  match r with
  | [] => Ok []
  | c :: r =>
      let mi := match c_minor c with Some m => m | None => 0%N end in
      let pa := match c_patch c with Some p => p | None => 0%N end in
      let? pa' := u64_succ checks pa in
      let? mi' := u64_succ checks mi in
      let? rest := comparator_candidates checks r in
      Ok (release (c_major c) mi pa :: release (c_major c) mi pa' :: release (c_major c) mi' 0 :: rest)
  end.
Definition permits_newer (checks : bool) (r : version_req) (current : version) : outcome bool :=
  let? p' := u64_succ checks (patch current) in
  let? m' := u64_succ checks (minor current) in
  let? j' := u64_succ checks (major current) in
  let? cs := comparator_candidates checks r in
  Ok (existsb (fun v => version_ltb current v && req_matches r v)
       (release (major current) (minor current) p' :: release (major current) m' 0 :: release j' 0 0 :: cs)).
Fixpoint filter_newer (checks : bool) (rs : list version_req) (current : version) : outcome (list version_req) :=
  match rs with
  | [] => Ok []
  | r :: rest =>
      let? b := permits_newer checks r current in
      let? l := filter_newer checks rest current in
      Ok (if b then r :: l else l)
  end.
(** What the terminal shows as solution. *)
Inductive solution := UpgradePatched (rs : list version_req) | UpgradeUnaffected (rs : list version_req) | NoFix.
(** presenter.rs:348-376, the solution part of [print_vulnerability]. *)
Definition solution_of (checks : bool) (v : vulnerability) : outcome solution :=
  match patched (a_versions (v_advisory v)) with
  | _ :: _ => Ok (UpgradePatched (patched (a_versions (v_advisory v))))
  | [] =>
      let? l := filter_newer checks (unaffected (a_versions (v_advisory v))) (p_version (v_package v)) in
      Ok (match l with [] => NoFix | _ => UpgradeUnaffected l end)
  end.

(** Output, as a sequence of items.  Colours, metadata formatting and the affected-function lines of binary
    audits are left out. *)
Inductive item :=
| OutJson (r : report) | OutSarif (r : report)
| OutVuln (v : vulnerability) (s : solution) | OutWarning (w : warning) (denied : bool)
| OutTree (ls : list line)
| OutVulnCount (n : nat) | OutDenied (n : nat) | OutAllowed (n : nat)
| OutSelf (l : list advisory).

(** presenter.rs:31-45 [struct Presenter]: the packages whose tree was shown. *)
Definition displayed := list dependency.
Definition dep_mem (d : dependency) (l : displayed) : bool :=
  existsb (fun e => match dep_cmp d e with Eq => true | _ => false end) l.
Definition kind_mem (k : warning_kind) (l : list warning_kind) : bool := existsb (warning_kind_eqb k) l.
(** presenter.rs:52-57 [deny_warning_kinds]. *)
Definition denied_kinds (c : config) : list warning_kind := flat_map get_warning_kind (cf_deny c).

(** presenter.rs:453-478 [print_tree]; indexing [tree.nodes()] panics on a missing package.  [None] from
    [render] is running out of fuel, which does not happen (C37). *)
Definition print_tree (c : config) (t : tree) (p : package) (d : displayed) : outcome (list item * displayed) :=
  if dep_mem (dep_of_package p) d then Ok ([], d)
  else
    let d' := dep_of_package p :: d in
    if negb (cf_show_tree c) then Ok ([], d')
    else match node_get (dep_of_package p) (t_nodes t) with
         | None => Panic
         | Some n => match render t n Incoming with Some ls => Ok ([OutTree ls], d') | None => Panic end
         end.
(** presenter.rs:175-188, the loop over the vulnerabilities. *)
Fixpoint print_vulns (checks : bool) (c : config) (t : tree) (vs : list vulnerability) (d : displayed)
  : outcome (list item * displayed) :=
  match vs with
  | [] => Ok ([], d)
  | v :: r =>
      let? s := solution_of checks v in
      let? x := print_tree c t (v_package v) d in
      let? y := print_vulns checks c t r (snd x) in
      Ok (OutVuln v s :: fst x ++ fst y, snd y)%list
  end.
(** presenter.rs:190-222, the loop over the warnings of all kinds. *)
Fixpoint print_warnings (c : config) (t : tree) (ws : list warning) (d : displayed) : outcome (list item * displayed) :=
  match ws with
  | [] => Ok ([], d)
  | w :: r =>
      let? x := print_tree c t (w_package w) d in
      let? y := print_warnings c t r (snd x) in
      Ok (OutWarning w (kind_mem (w_kind w) (denied_kinds c)) :: fst x ++ fst y, snd y)%list
  end.
(** The warning kinds in the order of the map's keys (warning.rs:67-85, derived order). *)
Definition kinds_in_order : list warning_kind := [WNotice; WUnmaintained; WUnsound; WYanked].
Definition ordered_warnings (m : warning_info) : list warning := flat_map (fun k => winfo_get k m) kinds_in_order.
(** presenter.rs:328-340 [count_warnings]. *)
Definition count_warnings (c : config) (m : warning_info) : nat * nat :=
  fold_left (fun n kw => if kind_mem (fst kw) (denied_kinds c)
                         then (fst n + List.length (snd kw), snd n) else (fst n, snd n + List.length (snd kw)))
    m (0, 0).
(** presenter.rs:114-276 [print_report]; [dependency_tree().expect(..)] (142-144) panics on an error. *)
Definition print_report (checks : bool) (c : config) (r : report) (l : lockfile) (d : displayed)
  : outcome (list item * displayed) :=
  match cf_format c with
  | FJson => Ok ([OutJson r], d)
  | FSarif => Ok ([OutSarif r], d)
  | FTerminal =>
      match tree_new l with
      | Err | Panic => Panic
      | Ok t =>
          let? x := print_vulns checks c t (vi_list (r_vulns r)) d in
          let? y := print_warnings c t (ordered_warnings (r_warnings r)) (snd x) in
          let n := count_warnings c (r_warnings r) in
          Ok (fst x ++ fst y
              ++ (if vi_found (r_vulns r) then [OutVulnCount (vi_count (r_vulns r))] else [])
              ++ (if Nat.ltb 0 (fst n) then [OutDenied (fst n)] else [])
              ++ (if Nat.ltb 0 (snd n) then [OutAllowed (snd n)] else []), snd y)%list
      end
  end.
(** presenter.rs:305-314 [should_exit_with_failure]. *)
Definition should_exit_with_failure (c : config) (r : report) : bool :=
  if vi_found (r_vulns r) then true else negb (Nat.eqb (fst (count_warnings c (r_warnings r))) 0).
(** presenter.rs:319-324 [should_exit_with_failure_due_to_self]. *)
Definition fail_due_to_self (c : config) (advs : list advisory) : bool :=
  negb (match advs with [] => true | _ => false end) && existsb (deny_eqb DWarnings) (cf_deny c).

(** ** The auditor *)
(** auditor.rs:25-45 [struct Auditor], with the presenter's state. *)
Record auditor := mkAuditor {
  au_config : config; au_db : database; au_index : option (index * cache); au_shown : displayed;
  au_binary_limit : option N; au_data_limit : option N }.
Definition DEFAULT_MAX_BINARY_SIZE : N := 100 * 1024 * 1024.

(** The outside world: what the process finds when it looks.
    - [wd_located]: the lockfile was found or generated (lockfile.rs:14-25);
    - [wd_checkout cfg]: the advisory repository, fetched or opened; [None] if that fails or it is stale;
    - [wd_lockfile]: reading and parsing the lockfile;
    - [wd_index update]: opening or fetching the crates.io index. *)
Record world := mkWorld {
  wd_located : bool; wd_checkout : config -> option fs_tree; wd_lockfile : outcome lockfile;
  wd_index : bool -> option index }.

Inductive exit_code := Exit (n : N) | Crash.
(** auditor.rs:49-200 [Auditor::new]; failures to obtain the database end the process with status 1 ([inr]). *)
Definition auditor_new (c : config) (w : world) : auditor + exit_code :=
  match wd_checkout w c with
  | None => inr (Exit 1)
  | Some t =>
      match db_open t with
      | Err => inr (Exit 1)
      | Panic => inr Crash
      | Ok db =>
          inl (mkAuditor c db
                (if cf_yanked c
                 then option_map (fun ix => (ix, [])) (wd_index w (cf_update_index c && cf_fetch c))
                 else None)
                [] (Some DEFAULT_MAX_BINARY_SIZE) None)
      end
  end.
(** auditor.rs:350-378 [check_for_yanked_crates]; errors are only printed. *)
Definition check_for_yanked (ix : option (index * cache)) (pkgs : list package)
  : outcome (list warning * option (index * cache)) :=
  match ix with
  | None => Ok ([], None)
  | Some (i, c) =>
      let ps := filter (fun p => match p_source p with Some s => is_default_registry s | None => false end) pkgs in
      let (c', r) := find_yanked i c ps in
      let? l := r in
      Ok (flat_map (fun y => match y with Yanked p => [mkWarning WYanked p None] | YankError => [] end) l, Some (i, c'))
  end.
(** [warnings.entry(Yanked).or_default().append(..)]. *)
Fixpoint winfo_append (k : warning_kind) (ws : list warning) (m : warning_info) : warning_info :=
  match m with
  | [] => [(k, ws)]
  | (k', ws') :: r => if warning_kind_eqb k' k then (k', (ws' ++ ws)%list) :: r else (k', ws') :: winfo_append k ws r
  end.
(** auditor.rs:320-348 [audit]; [Err] never occurs. *)
Definition audit (checks : bool) (a : auditor) (l : lockfile) (f : option binary_format)
  : outcome (report * list item * auditor) :=
  let? r := report_generate checks (au_db a) (lk_packages l) (report_settings (au_config a)) in
  let? r := match f with Some f => filter_report f r | None => Ok r end in
  let? y := check_for_yanked (au_index a) (lk_packages l) in
  let r := match fst y with
           | [] => r
           | ws => mkReport (r_dependency_count r) (r_settings r) (r_vulns r) (winfo_append WYanked ws (r_warnings r))
           end in
  let? p := print_report checks (au_config a) r l (au_shown a) in
  Ok (r, fst p, mkAuditor (au_config a) (au_db a) (snd y) (snd p) (au_binary_limit a) (au_data_limit a)).
(** auditor.rs:393-410 [self_advisories], with the two version constants (Cargo.toml:4 of each crate). *)
Definition query_release (n : string) (v : version) : query :=
  mkQuery (Some Crates) (Some n) (Some v) None None [] [] None (Some false) (Some false).
Definition self_advisories (checks : bool) (db : database) : outcome (list advisory) :=
  let? a := db_query checks db (query_release "cargo-audit" (release 0 22 2)) in
  let? b := db_query checks db (query_release "rustsec" (release 0 34 0)) in
  Ok (a ++ b)%list.
(** auditor.rs:203-224 [audit_lockfile]: [Ok None] is an error result. *)
Definition audit_lockfile (checks : bool) (a : auditor) (lf : outcome lockfile)
  : outcome (option (report * list item * auditor)) :=
  match lf with
  | Panic => Panic
  | Err => Ok None
  | Ok l =>
      let? x := audit checks a l None in
      let? s := self_advisories checks (au_db a) in
      Ok (Some (fst (fst x), (snd (fst x) ++ match s with [] => [] | _ => [OutSelf s] end)%list, snd x))
  end.
(** auditor.rs:416-421 [should_exit_with_failure]. *)
Definition auditor_fails (checks : bool) (a : auditor) (r : report) : outcome bool :=
  if should_exit_with_failure (au_config a) r then Ok true
  else let? s := self_advisories checks (au_db a) in Ok (fail_due_to_self (au_config a) s).

(** commands/audit.rs:271-305 [run], for the plain `cargo audit`. *)
Definition run_audit (checks : bool) (c : config) (w : world) : list item * exit_code :=
  if negb (wd_located w) then ([], Exit 2)
  else match auditor_new c w with
  | inr e => ([], e)
  | inl a =>
      match audit_lockfile checks a (wd_lockfile w) with
      | Err | Panic => ([], Crash)
      | Ok None => ([], Exit 2)
      | Ok (Some (r, out, a')) =>
          match auditor_fails checks a' r with
          | Ok true => (out, Exit 1)
          | Ok false => (out, Exit 0)
          | Err | Panic => (out, Crash)
          end
      end
  end.
(** The whole command: the configuration file, overridden by the command line.  A command line with an invalid id
    ends the process with an error before anything runs (abscissa prints it and exits with status 1). *)
Definition cargo_audit (checks : bool) (l : cli) (file_config : config) (w : world) : list item * exit_code :=
  match override_config l file_config with
  | Ok c => run_audit checks c w
  | Err => ([], Exit 1)
  | Panic => ([], Crash)
  end.

(** ** Binaries *)
Definition u64_saturating_succ (n : N) : N := if N.eqb n u64_max then u64_max else (n + 1)%N.
(** auditor.rs:268-275 [set_binary_scan_limits]. *)
Definition set_limits (a : auditor) (max_binary audit_data : option N) : auditor :=
  mkAuditor (au_config a) (au_db a) (au_index a) (au_shown a)
    (Some (match max_binary with Some n => n | None => DEFAULT_MAX_BINARY_SIZE end))
    (match audit_data with Some n => Some n | None => Some (8 * 1024 * 1024)%N end).
(** auditor.rs:300-317 [read_binary_with_limit]; [None] is a file that cannot be opened or read. *)
Definition read_with_limit (a : auditor) (file : option string) : outcome string :=
  match file with
  | None => Err
  | Some bytes =>
      let limit := match au_binary_limit a with Some n => n | None => DEFAULT_MAX_BINARY_SIZE end in
      let buffer := substring 0 (N.to_nat (N.min (u64_saturating_succ limit) (N.of_nat (String.length bytes)))) bytes in
      if N.ltb limit (N.of_nat (String.length buffer)) then Err else Ok buffer
  end.
(** rustsec/src/binary_scanning.rs [load_deps_from_binary] is an oracle: the format and, if dependency data was
    found, a lockfile. *)
Definition deps_loader := string -> option N -> outcome (binary_format * option lockfile).
(** auditor.rs:279-297 [audit_binary]; [Ok (inr a)] is an error result. *)
Definition audit_binary (checks : bool) (load : deps_loader) (a : auditor) (file : option string)
  : outcome (report * list item * auditor + auditor) :=
  match read_with_limit a file with
  | Panic => Panic
  | Err => Ok (inr a)
  | Ok bytes =>
      match load bytes (au_data_limit a) with
      | Panic => Panic
      | Err => Ok (inr a)
      | Ok (_, None) => Ok (inr a)
      | Ok (f, Some l) => let? x := audit checks a l (Some f) in Ok (inl x)
      end
  end.
(** auditor.rs:228-259 [audit_binaries]: (vulnerabilities found, errors encountered), before the self check. *)
Fixpoint audit_binaries_loop (checks : bool) (load : deps_loader) (a : auditor) (files : list (option string))
  : outcome (bool * bool * list item * auditor) :=
  match files with
  | [] => Ok (false, false, [], a)
  | f :: rest =>
      let? x := audit_binary checks load a f in
      match x with
      | inl (r, out, a') =>
          let? y := audit_binaries_loop checks load a' rest in
          match y with (v, e, out', a'') =>
            Ok (should_exit_with_failure (au_config a) r || v, e, (out ++ out')%list, a'') end
      | inr a' =>
          let? y := audit_binaries_loop checks load a' rest in
          match y with (v, e, out', a'') => Ok (v, true, out', a'') end
      end
  end.
(** commands/audit/binary_scanning.rs:37-50 [run] with auditor.rs:228-259. *)
Definition run_bin (checks : bool) (load : deps_loader) (c : config) (w : world) (max_binary audit_data : option N)
  (files : list (option string)) : list item * exit_code :=
  match auditor_new c w with
  | inr e => ([], e)
  | inl a =>
      let a := set_limits a max_binary audit_data in
      match audit_binaries_loop checks load a files with
      | Err | Panic => ([], Crash)
      | Ok (v, e, out, a') =>
          match self_advisories checks (au_db a') with
          | Err | Panic => (out, Crash)
          | Ok s =>
              let out := (out ++ match s with [] => [] | _ => [OutSelf s] end)%list in
              let e := e || fail_due_to_self c s in
              (out, if v then Exit 1 else if e then Exit 2 else Exit 0)
          end
      end
  end.

(** ** Fixing *)
(** fixer.rs:76-81 [pkgid]; [SourceId]'s [Display] is its URL (package/source.rs). *)
Definition pkgid (p : package) : string :=
  match p_source p with
  | Some s => as_url false s ++ "#" ++ p_name p ++ "@" ++ print_version (p_version p)
  | None => p_name p ++ "@" ++ print_version (p_version p)
  end.
(** fixer.rs:44-68 [get_fix_command]: the arguments. *)
Definition fix_args (checks : bool) (l : lockfile) (manifest : option string) (v : vulnerability) (dry_run : bool) : list string :=
  ("update" ::
   (match manifest with Some m => ["--manifest-path"; m] | None => [] end) ++
   (if dry_run then ["--dry-run"] else []) ++
   map pkgid (filter (fun p => String.eqb (p_name p) (p_name (v_package v))
                               && vulnerable_at checks (v_advisory v) (p_version p)) (lk_packages l)))%list.
(** commands/audit/fix.rs:71-106: the commands run, the ids without patch, the number of commands that could not
    be started.  [spawn] says whether starting a command succeeds. *)
Fixpoint fix_loop (checks : bool) (l : lockfile) (dry_run : bool) (spawn : list string -> bool) (vs : list vulnerability)
  : list (list string) * list adv_id * nat :=
  match vs with
  | [] => ([], [], 0)
  | v :: r =>
      match fix_loop checks l dry_run spawn r with
      | (cmds, un, failed) =>
          match patched (a_versions (v_advisory v)) with
          | [] => (cmds, a_id (v_advisory v) :: un, failed)
          | _ =>
              let cmd := fix_args checks l None v dry_run in
              (cmd :: cmds, un, (if spawn cmd then 0 else 1) + failed)
          end
      end
  end.
(** commands/audit/fix.rs:38-166 [run] followed by commands/audit.rs:273-276 ([exit(0)]).  [w] is the world before,
    [w'] after the update commands; the explicit lockfile path resolves (lines 85-87). *)
Definition run_fix (checks : bool) (c : config) (dry_run : bool) (spawn : list string -> bool) (w w' : world)
  : list (list string) * exit_code :=
  if negb (wd_located w) then ([], Exit 2)
  else match auditor_new c w with
  | inr e => ([], e)
  | inl a =>
      match audit_lockfile checks a (wd_lockfile w) with
      | Err | Panic => ([], Crash)
      | Ok None => ([], Exit 2)
      | Ok (Some (r, _, _)) =>
          match vi_list (r_vulns r) with
          | [] => ([], Exit 0)
          | vs =>
              match wd_lockfile w with
              | Err | Panic => ([], Crash)
              | Ok l =>
                  match fix_loop checks l dry_run spawn vs with
                  | (cmds, un, failed) =>
                      (cmds,
                       if negb (Nat.eqb failed 0) then Exit 2
                       else if dry_run then match un with [] => Exit 0 | _ => Exit 1 end
                       else
                         let cq := mkConfig (cf_ignore c) (cf_info c) (cf_severity c) (cf_db_path c) (cf_db_url c)
                                     (cf_fetch c) (cf_stale c) (cf_deny c) (cf_format c) true (cf_show_tree c)
                                     (cf_arch c) (cf_os c) (cf_yanked c) (cf_update_index c) in
                         match auditor_new cq w' with
                         | inr e => e
                         | inl a' => match audit_lockfile checks a' (wd_lockfile w') with
                                     | Ok (Some _) => Exit 0
                                     | _ => Crash
                                     end
                         end)
                  end
              end
          end
      end
  end.
