(** How the generator of the `platforms` tables should name variants (property C88). *)
From Coq Require Import List Ascii String.
From Verif Require Import StrLib.
Import ListNotations.
Local Open Scope string_scope.

(** Small letters and the capitals of them. *)
Definition alphabet : list (ascii * ascii) :=
  combine (list_ascii_of_string "abcdefghijklmnopqrstuvwxyz") (list_ascii_of_string "ABCDEFGHIJKLMNOPQRSTUVWXYZ").
Definition digits : list ascii := list_ascii_of_string "0123456789".

(** The same text with its capitals made small. *)
Inductive lowered : string -> string -> Prop :=
  | lowered_end : lowered "" ""
  | lowered_capital small big s t : In (small, big) alphabet -> lowered s t -> lowered (String big s) (String small t)
  | lowered_other c s t : (forall small, ~ In (small, c) alphabet) -> lowered s t -> lowered (String c s) (String c t).

(** A word of the name: with a capital, or with an underscore before a digit. *)
Inductive capitalized : string -> string -> Prop :=
  | capital_none : capitalized "" ""
  | capital_letter small big r : In (small, big) alphabet -> capitalized (String small r) (String big r)
  | capital_digit d r : In d digits -> capitalized (String d r) (String "_" (String d r))
  | capital_other c r : (forall big, ~ In (c, big) alphabet) -> ~ In c digits -> capitalized (String c r) (String c r).

(** Its words, separated by underscores, one after the other. *)
Definition in_words (s t : string) : Prop :=
  exists words, Forall2 capitalized (split_on "_" s) words /\ t = String.concat "" words.

(** The values with a name of their own. *)
Definition renamed : list (string * string) :=
  [("", "None"); ("16", "U16"); ("32", "U32"); ("64", "U64"); ("ios", "iOS"); ("aarch64", "AArch64"); ("asmjs", "AsmJs");
   ("powerpc", "PowerPc"); ("powerpc64", "PowerPc64"); ("riscv", "RiscV"); ("s390x", "S390X"); ("thumbv6", "ThumbV6");
   ("thumbv7", "ThumbV7"); ("uclibc", "UClibc"); ("vxworks", "VxWorks")].

Inductive names (value : string) : string -> Prop :=
  | names_renamed low name : lowered value low -> In (low, name) renamed -> names value name
  | names_os low x : lowered value low -> ~ In low (map fst renamed) -> in_words low (x ++ "os") -> names value (x ++ "OS")
  | names_bsd low x : lowered value low -> ~ In low (map fst renamed) -> in_words low (x ++ "bsd") -> names value (x ++ "BSD")
  | names_other low name : lowered value low -> ~ In low (map fst renamed) -> in_words low name ->
      (forall x, name <> x ++ "os") -> (forall x, name <> x ++ "bsd") -> names value name.
