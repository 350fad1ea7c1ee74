(** Which lock file is audited: /repo/cargo-audit/src/lockfile.rs (all), auditor.rs:381-390 (load_lockfile), cargo-lock/src/
    lockfile.rs:41-43 ([load]), commands/audit.rs:286-305 and commands/audit/fix.rs:33-166 (the runs, from where the lock file is). *)
From Coq Require Import List NArith ZArith Ascii String Bool Arith.
From Verif Require Import Base OsvModel StrLib IdModel PkgModel DbModel LockModel IndexModel AuditModel FetchHeadModel.
Import ListNotations.
Local Open Scope string_scope.
Local Infix "++" := String.append (right associativity, at level 60).

(** What a process finds: what is at a path (links followed; paths as they are written, relative ones from the current directory),
    the bytes of a file that can be read, what is left of standard input ([None]: reading fails), the canonical path. *)
Record machine := mkMachine {
  mc_exists : string -> bool; mc_file : string -> option string; mc_stdin : option string; mc_canonical : string -> option string }.
(** How a process ended: it could not be started, with an exit code, or without one. *)
Inductive ending := NotStarted | Exited (code : Z) | NoCode.
(** [ExitStatus::success]. *)
Definition success (e : ending) : bool := match e with Exited 0 => true | _ => false end.

Section Locate.
  (** Running cargo with some arguments: how it ends and what the machine is like afterwards. *)
  Context (cargo : list string -> machine -> ending * machine).
  (** Reading a lock file's text (LockModel gives it on what the TOML parser makes of the text). *)
  Context (parse : string -> outcome lockfile).

  (** lockfile.rs:28-53 [generate]: the commands run, the machine afterwards, the result. *)
  Definition UPDATE : list string := ["update"; "--workspace"].
  Definition generate (m : machine) : list (list string) * machine * outcome unit :=
    match cargo UPDATE m with
    | (NotStarted, m') => ([UPDATE], m', Err)
    | (e, m') => ([UPDATE], m', if success e then Ok tt else Err)
    end.
  (** lockfile.rs:14-25 [locate_or_generate]. *)
  Definition CARGO_LOCK_FILE : string := "Cargo.lock".
  Definition locate_or_generate (p : option string) (m : machine) : list (list string) * machine * outcome string :=
    match p with
    | Some p => ([], m, Ok p)
    | None =>
        if negb (mc_exists m CARGO_LOCK_FILE) && mc_exists m "Cargo.toml" then
          match generate m with (cs, m', r) => (cs, m', let? _ := r in Ok CARGO_LOCK_FILE) end
        else ([], m, Ok CARGO_LOCK_FILE)
    end.

  (** [Path]'s equality with "-" compares components: empty ones and "." after the first do not count. *)
  Definition is_dash (p : string) : bool :=
    match split_on "/" p with
    | c :: r => String.eqb c "-" && forallb (fun x => String.eqb x "" || String.eqb x ".") r
    | [] => false
    end.
  (** [read_to_string] of a file and of standard input. *)
  Definition read_text (b : option string) : outcome string :=
    match b with Some s => if utf8 s then Ok s else Err | None => Err end.
  (** cargo-lock lockfile.rs:41-43. *)
  Definition load (p : string) (m : machine) : outcome lockfile := let? s := read_text (mc_file m p) in parse s.
  (** auditor.rs:381-390; standard input is used up. *)
  Definition load_lockfile (p : string) (m : machine) : machine * outcome lockfile :=
    if is_dash p then (mkMachine (mc_exists m) (mc_file m) (option_map (fun _ => "") (mc_stdin m)) (mc_canonical m),
                       let? s := read_text (mc_stdin m) in parse s)
    else (m, load p m).

  Context (checkout : config -> option fs_tree) (open_index : bool -> option IndexModel.index) (checks : bool).
  Definition audited (l : outcome lockfile) : world := mkWorld true checkout l open_index.
  (** commands/audit.rs:286-305: the commands run, what is printed, the exit code.  ([run_audit] of AuditModel, in which the
      lock file has been located.) *)
  Definition audit_command (c : config) (file : option string) (m : machine) : list (list string) * (list item * exit_code) :=
    match locate_or_generate file m with
    | (cs, _, Err) => (cs, ([], Exit 2))
    | (cs, _, Panic) => (cs, ([], Crash))
    | (cs, m', Ok p) => (cs, run_audit checks c (audited (snd (load_lockfile p m'))))
    end.

  (** fix.rs:85-87: the directory of a canonical path; [None]: it has none. *)
  Definition parent (p : string) : option string :=
    match split_once "/" (srev p) with
    | Some (n, d) => if String.eqb n "" then None else Some (if String.eqb d "" then "/" else srev d)
    | None => None
    end.
  (** fix.rs:83-88: where the commands are run; [Ok None] is the current directory. *)
  Definition update_dir (file : option string) (m : machine) : outcome (option string) :=
    match file with
    | None => Ok None
    | Some p => match mc_canonical m p with
                | None => Panic
                | Some q => match parent q with None => Panic | Some d => Ok (Some d) end
                end
    end.
  (** fix.rs:108-166: the exit code after the commands. *)
  Definition fix_status (c : config) (dry_run : bool) (un : list adv_id) (failed : nat) (p : string) (after : machine) : exit_code :=
    if negb (Nat.eqb failed 0) then Exit 2
    else if dry_run then match un with [] => Exit 0 | _ => Exit 1 end
    else
      let cq := mkConfig (cf_ignore c) (cf_info c) (cf_severity c) (cf_db_path c) (cf_db_url c)
                  (cf_fetch c) (cf_stale c) (cf_deny c) (cf_format c) true (cf_show_tree c)
                  (cf_arch c) (cf_os c) (cf_yanked c) (cf_update_index c) in
      let l := snd (load_lockfile p after) in
      match auditor_new cq (audited l) with
      | inr e => e
      | inl a' => match audit_lockfile checks a' l with Ok (Some _) => Exit 0 | _ => Crash end
      end.
  (** fix.rs:38-166 with audit.rs:273-276.  [spawn dir cmd]: the command can be started there.  [after]: the machine after the
      commands.  The commands run to locate the lock file; those to update it, each with its directory; the exit code. *)
  Definition fix_command (c : config) (file : option string) (dry_run : bool) (spawn : option string -> list string -> bool) (m after : machine)
    : list (list string) * list (option string * list string) * exit_code :=
    match locate_or_generate file m with
    | (cs, _, Err) => (cs, [], Exit 2)
    | (cs, _, Panic) => (cs, [], Crash)
    | (cs, m1, Ok p) =>
        let (m2, l) := load_lockfile p m1 in
        match auditor_new c (audited l) with
        | inr e => (cs, [], e)
        | inl a =>
            match audit_lockfile checks a l with
            | Err | Panic => (cs, [], Crash)
            | Ok None => (cs, [], Exit 2)
            | Ok (Some (r, _, _)) =>
                match vi_list (r_vulns r) with
                | [] => (cs, [], Exit 0)
                | vs =>
                    match load p m2 with
                    | Err | Panic => (cs, [], Crash)
                    | Ok l' =>
                        (* the directory is looked for when the first command is about to be run (in the code before each: it stays the same) *)
                        if existsb (fun v => match patched (a_versions (v_advisory v)) with [] => false | _ => true end) vs then
                          match update_dir file m2 with
                          | Err | Panic => (cs, [], Crash)
                          | Ok d =>
                              match fix_loop checks l' dry_run (spawn d) vs with
                              | (cmds, un, failed) => (cs, map (pair d) cmds, fix_status c dry_run un failed p after)
                              end
                          end
                        else match fix_loop checks l' dry_run (spawn None) vs with
                             | (_, un, failed) => (cs, [], fix_status c dry_run un failed p after)
                             end
                    end
                end
            end
        end
    end.
End Locate.
