(** Specification vocabulary for advisory ids and dates. *)
From Coq Require Import List NArith ZArith Ascii String Bool.
From Verif Require Import Base StrLib IdModel.
Import ListNotations.
Local Open Scope string_scope.
Local Open Scope N_scope.
Local Infix "++" := String.append (right associativity, at level 60).

(** Value of a decimal digit string (most significant digit first). *)
Definition digits (s : string) : Prop := s <> "" /\ str_forall is_dig s = true.
Fixpoint value_from (acc : N) (s : string) : N :=
  match s with
  | EmptyString => acc
  | String a r => value_from (acc * 10 + (N_of_ascii a - 48)) r
  end.
Definition value (s : string) : N := value_from 0 s.

(** What Rust accepts as a u32: decimal digits with an optional plus sign. *)
Definition u32_numeral (s : string) (n : N) : Prop :=
  exists ds, (s = ds \/ s = "+" ++ ds) /\ digits ds /\ value ds = n /\ n <= 4294967295.

(** Zero-padded decimal of a fixed width, and ISO dates. *)
Definition iso_date (y m d : string) : string := y ++ "-" ++ m ++ "-" ++ d.

Definition has_prefix (p s : string) : Prop := exists t, s = p ++ t.

(** The kinds whose ids carry a year, with the text before the first dash. *)
Definition dated_prefix (k : id_kind) : option string :=
  match k with KRustSec => Some "RUSTSEC" | KCve => Some "CVE" | KTalos => Some "TALOS" | _ => None end.
