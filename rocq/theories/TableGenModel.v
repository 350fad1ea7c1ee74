(** The generator of the table of platforms: /repo/platforms-table-gen/src/main.rs.
    Simplified: standard output as the text written; writing to it never fails.  Widths are counted in bytes, which for the
    ASCII names of platforms is what [{:width$}] counts; [str::to_uppercase] is modelled on ASCII. *)
From Coq Require Import List NArith Ascii String Bool Arith.
From Verif Require Import Base StrLib PlatData PartsModel OsvAdvModel PlatGenModel.
Import ListNotations.
Local Open Scope string_scope.
Local Infix "++" := String.append (right associativity, at level 60).
Local Notation NL := (String nl "").

(** main.rs:6-15. *)
Definition TARGET_TRIPLE_WIDTH : nat := 36.
Definition TARGET_ARCH_WIDTH : nat := 11.
Definition TARGET_OS_WIDTH : nat := 10.
Definition TARGET_ENV_WIDTH : nat := 10.

(** [{:width$}] of a text: blanks after it. *)
Fixpoint blanks (n : nat) : string := match n with O => "" | S k => String " " (blanks k) end.
Definition pad_right (w : nat) (s : string) : string := s ++ blanks (w - String.length s).
(** [Iterator::max]: nothing of nothing. *)
Definition widest (l : list nat) : option nat := match l with [] => None | x :: r => Some (fold_right Nat.max x r) end.

(** tier.rs:46-53 [to_usize], printed. *)
Definition tier_digit (t : tier) : string := match t with TierOne => "1" | TierTwo => "2" | TierThree => "3" end.
(** The derived order of [Tier]. *)
Definition tier_rank (t : tier) : nat := match t with TierOne => 1 | TierTwo => 2 | TierThree => 3 end.
Definition by_tier (p q : platform) : comparison := Nat.compare (tier_rank (pf_tier p)) (tier_rank (pf_tier q)).
Definition same_tier (a b : tier) : bool := Nat.eqb (tier_rank a) (tier_rank b).

(** main.rs:62-69 [print_table_header]. *)
Definition table_header (t : tier) : string :=
  "### Tier " ++ tier_digit t ++ NL ++ NL
  ++ "| target triple                          | target_arch | target_os  | target_env |" ++ NL
  ++ "|----------------------------------------|-------------|------------|------------|" ++ NL.
(** main.rs:72-94 [print_platform_entry]. *)
Definition platform_entry (p : platform) : string :=
  "| " ++ pad_right (TARGET_TRIPLE_WIDTH + 2) ("[" ++ pf_triple p ++ "]") ++ " | "
  ++ pad_right TARGET_ARCH_WIDTH (arch_str (pf_arch p)) ++ " | "
  ++ pad_right TARGET_OS_WIDTH (os_str (pf_os p)) ++ " | "
  ++ pad_right TARGET_ENV_WIDTH (env_str (pf_env p)) ++ " |" ++ NL.
(** main.rs:97-107 [print_platform_links]. *)
Definition platform_link (p : platform) : string :=
  "[" ++ pf_triple p ++ "]: https://docs.rs/platforms/latest/platforms/platform/constant."
  ++ replace_char "-" "_" (to_ascii_uppercase (pf_triple p)) ++ ".html" ++ NL.
(** main.rs:45-55: the loop, with the tier being printed. *)
Fixpoint entries (current : option tier) (ps : list platform) : string :=
  match ps with
  | [] => ""
  | p :: r =>
      (if match current with Some t => same_tier t (pf_tier p) | None => false end then ""
       else (match current with Some _ => NL | None => "" end) ++ table_header (pf_tier p))
      ++ platform_entry p ++ entries (Some (pf_tier p)) r
  end.
(** main.rs:17-36, 39-59: the two assertions come first; [sort_by_key] is stable. *)
Definition table_gen (all : list platform) : outcome string :=
  let? w := or_panic (widest (map (fun p => String.length (pf_triple p)) all)) in
  if negb (Nat.eqb w TARGET_TRIPLE_WIDTH) then Panic else
  let? w := or_panic (widest (map (fun p => String.length (os_str (pf_os p))) all)) in
  if negb (Nat.eqb w TARGET_OS_WIDTH) then Panic else
  Ok (entries None (sort_list by_tier all) ++ NL ++ fold_right (fun p s => platform_link p ++ s) "" all).
