(** The text of a saved lockfile: /repo/cargo-lock/src/lockfile/encoding.rs:160-250 (after the conversions of [LockModel.save]). *)
From Coq Require Import List NArith Ascii String Bool Arith.
From Verif Require Import Base StrLib SemverModel PkgModel UrlModel LockModel.
Import ListNotations.
Local Open Scope string_scope.
Local Infix "++" := String.append (right associativity, at level 60).

Definition NEWLINE : ascii := "010"%char.
Definition LF : string := String NEWLINE "".

Section Text.
  (** Crate toml: a string as a value ([Display for Value]), and in [to_string_pretty]: a key, a string. *)
  Context (quoted key pretty : string -> string).
  (** encoding.rs:223-231, 246: one line, if the entry is there. *)
  Definition entry_line (k : string) (o : option string) : string :=
    match o with Some v => k ++ " = " ++ quoted v ++ LF | None => "" end.
  Fixpoint each_line {A} (f : A -> string) (l : list A) : string := match l with [] => "" | x :: r => f x ++ each_line f r end.
  (** 233-247: the dependencies are in the table unless there are none (253-273, [skip_serializing_if]). *)
  Definition emit_dependencies (p : raw_package) : string :=
    match rp_deps p with
    | [] => entry_line "replace" (rp_replace p)
    | ds => "dependencies = [" ++ LF ++ each_line (fun d => " " ++ quoted d ++ "," ++ LF) ds ++ "]" ++ LF
    end.
  (** 218-250 [emit_package]. *)
  Definition emit_package (p : raw_package) : string :=
    entry_line "name" (Some (rp_name p)) ++ entry_line "version" (Some (rp_version p)) ++
    entry_line "source" (rp_source p) ++ entry_line "checksum" (rp_checksum p) ++ emit_dependencies p ++ LF.
  (** 209-212. *)
  Fixpoint drop_newlines (r : string) : string :=
    match r with
    | String a (String b _ as t) => if (Ascii.eqb a NEWLINE && Ascii.eqb b NEWLINE)%bool then drop_newlines t else r
    | _ => r
    end.
  Definition trim_newlines (s : string) : string := srev (drop_newlines (srev s)).
  (** 168-207, before trimming. *)
  Definition lock_text_long (r : raw_lock) : string :=
    "# This file is automatically @generated by Cargo." ++ LF ++ "# It is not intended for manual editing." ++ LF ++
    match rl_version r with Some n => if N.leb 3 n then "version = " ++ print_dec n ++ LF else "" | None => "" end ++ LF ++
    each_line (fun p => "[[package]]" ++ LF ++ emit_package p) (rl_packages r) ++
    each_line (fun u => "[[patch.unused]]" ++ LF ++ emit_package (mkRawPkg (ru_name u) (ru_version u) (ru_source u) None [] None) ++ LF) (rl_patch r) ++
    match rl_metadata r with [] => "" | m => "[metadata]" ++ LF ++ each_line (fun kv => key (fst kv) ++ " = " ++ pretty (snd kv) ++ LF) m end.
  (** 161-216 [ToString for EncodableLockfile]. *)
  Definition lock_text (r : raw_lock) : string := trim_newlines (lock_text_long r).
End Text.
