(** What `cargo audit fix` says: /repo/cargo-audit/src/commands/audit/fix.rs:38-166. *)
From Coq Require Import List NArith Ascii String Bool Arith.
From Verif Require Import Base IdModel OsvModel DbModel LockModel PkgModel AuditModel.
Import ListNotations.
Local Open Scope list_scope.

(** The messages besides those of the audits; the texts themselves, the counts' grammar and the cause in [CannotRun] are left out. *)
Inductive said :=
  | DryRunOnly                        (* 71 *)
  | NoPatch (id : adv_id) (name : string) (* 79-83 *)
  | CannotRun (name : string)         (* 100-104 *)
  | Verifying                         (* 123-126 *)
  | StillThere (ids : list adv_id)    (* 140-146: "The following advisories have patched versions but could not be fixed" *)
  | FixedAll (n : nat)                (* 157 *)
  | FixedSome (fixed remain : nat).   (* 159-163 *)

(** 76-107, for one vulnerability after the other. *)
Fixpoint fix_loop_says (checks : bool) (l : lockfile) (dry_run : bool) (spawn : list string -> bool) (vs : list vulnerability) : list said :=
  match vs with
  | [] => []
  | v :: r =>
      (match patched (a_versions (v_advisory v)) with
       | [] => [NoPatch (a_id (v_advisory v)) (p_name (v_package v))]
       | _ => if spawn (fix_args checks l None v dry_run) then [] else [CannotRun (p_name (v_package v))]
       end) ++ fix_loop_says checks l dry_run spawn r
  end.
(** 130-165: [unpatchable], the ids collected before; the counts by subtraction that stops at 0. *)
Definition verify_says (unpatchable : list adv_id) (before after : list vulnerability) : list said :=
  let ids := map (fun v => a_id (v_advisory v)) (filter (fun v => negb (existsb (id_eqb (a_id (v_advisory v))) unpatchable)) after) in
  let remaining := List.length after in
  let fixed := List.length before - remaining in
  match ids with [] => [] | _ => [StillThere ids] end ++
  (if Nat.eqb fixed 0 then [] else if Nat.eqb remaining 0 then [FixedAll fixed] else [FixedSome fixed remaining]).
(** 124: the settings of the second audit. *)
Definition quiet_config (c : config) : config :=
  mkConfig (cf_ignore c) (cf_info c) (cf_severity c) (cf_db_path c) (cf_db_url c)
    (cf_fetch c) (cf_stale c) (cf_deny c) (cf_format c) true (cf_show_tree c)
    (cf_arch c) (cf_os c) (cf_yanked c) (cf_update_index c).
(** 38-166 [run] with the [exit(0)] after it (commands/audit.rs:273-276): what is said, the commands run, the status. *)
Definition run_fix_full (checks : bool) (c : config) (dry_run : bool) (spawn : list string -> bool) (w w' : world)
  : list said * list (list string) * exit_code :=
  if negb (wd_located w) then ([], [], Exit 2)
  else match auditor_new c w with
  | inr e => ([], [], e)
  | inl a =>
      match audit_lockfile checks a (wd_lockfile w) with
      | Err | Panic => ([], [], Crash)
      | Ok None => ([], [], Exit 2)
      | Ok (Some (r, _, _)) =>
          match vi_list (r_vulns r) with
          | [] => ([], [], Exit 0)
          | vs =>
              match wd_lockfile w with
              | Err | Panic => ([], [], Crash)
              | Ok l =>
                  match fix_loop checks l dry_run spawn vs with
                  | (cmds, un, failed) =>
                      let first := (if dry_run then [DryRunOnly] else []) ++ fix_loop_says checks l dry_run spawn vs in
                      if negb (Nat.eqb failed 0) then (first, cmds, Exit 2)
                      else if dry_run then (first, cmds, match un with [] => Exit 0 | _ => Exit 1 end)
                      else
                        match auditor_new (quiet_config c) w' with
                        | inr e => (first ++ [Verifying], cmds, e)
                        | inl a' =>
                            match audit_lockfile checks a' (wd_lockfile w') with
                            | Ok (Some (r', _, _)) => (first ++ [Verifying] ++ verify_says un vs (vi_list (r_vulns r')), cmds, Exit 0)
                            | _ => (first ++ [Verifying], cmds, Crash)
                            end
                        end
                  end
              end
          end
      end
  end.
