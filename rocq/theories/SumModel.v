(** Package checksums: /repo/cargo-lock/src/package/checksum.rs. *)
From Coq Require Import List NArith Ascii String Bool Arith.
From Verif Require Import Base StrLib UrlModel.
Import ListNotations.
Local Open Scope string_scope.
Local Open Scope N_scope.
Local Infix "++" := String.append (right associativity, at level 60).

(** [u8::from_str_radix(_, 16)] on a two-byte string: an optional ['+'], then hex digits. *)
Definition hex_byte (a b : ascii) : option N :=
  match hex_val a, hex_val b with
  | Some x, Some y => Some (16 * x + y)
  | None, Some y => if Ascii.eqb a "+" then Some y else None
  | _, _ => None
  end.
(** [is_char_boundary] just before a byte: it is not a UTF-8 continuation byte. *)
Definition boundary_before (a : ascii) : bool := let n := N_of_ascii a in negb ((128 <=? n) && (n <? 192)).
(** checksum.rs:47-49: the loop; [&s[(i * 2)..=(i * 2) + 1]] panics off a character boundary. *)
Fixpoint digest_loop (s : string) : outcome (list N) :=
  match s with
  | String a (String b r) =>
      if negb (boundary_before a && match r with String c _ => boundary_before c | EmptyString => true end) then Panic
      else match hex_byte a b with
           | None => Err
           | Some x => let? l := digest_loop r in Ok (x :: l)
           end
  | _ => Ok []
  end.
(** checksum.rs:37-53 [FromStr for Checksum]. *)
Definition checksum_from_str (s : string) : outcome (list N) :=
  if negb (Nat.eqb (String.length s) 64) then Err else digest_loop s.
(** checksum.rs:70-82 [LowerHex] (and [Display], 64-68): two lower-case digits per byte. *)
Fixpoint checksum_string (d : list N) : string :=
  match d with
  | [] => ""
  | x :: r => String (hex_lower (x / 16)) (String (hex_lower (x mod 16)) (checksum_string r))
  end.
(** A SHA-256 digest: 32 bytes. *)
Definition is_digest (d : list N) : Prop := List.length d = 32%nat /\ Forall (fun x => x < 256) d.
