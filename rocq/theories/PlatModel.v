(** Platform requirements: /repo/platforms/src/platform/{mod,req}.rs. *)
From Coq Require Import List NArith Ascii String Bool Arith.
From Verif Require Import Base StrLib PlatData.
Import ListNotations.
Local Open Scope string_scope.

(** [str::chars().last()]; the last byte is '*' exactly when the last char is. *)
Fixpoint last_char (s : string) : option ascii :=
  match s with
  | "" => None
  | String a "" => Some a
  | String _ r => last_char r
  end.

(** platform/req.rs:39-71 [PlatformReq::matches]; [unwrap] of the first char panics on the empty string. *)
Definition preq_matches (req triple : string) : outcome bool :=
  match req with
  | "" => Panic
  | String c rest =>
      let len := String.length req in
      if Nat.eqb len 1 && Ascii.eqb c "*" then Ok true
      else
        let starts := Ascii.eqb c "*" in
        let ends := match last_char rest with Some l => Ascii.eqb l "*" | None => false end in
        if starts then
          if ends then Ok (contains (substring 1 (len - 1 - 1) req) triple)
          else Ok (ends_with (substring 1 (len - 1) req) triple)
        else if ends then Ok (starts_with (substring 0 (len - 1) req) triple)
        else Ok (String.eqb req triple)
  end.

(** platform/req.rs:80-88 [matching_platforms]. *)
Fixpoint matching_in (req : string) (ps : list platform) : outcome (list platform) :=
  match ps with
  | [] => Ok []
  | p :: r =>
      let? b := preq_matches req (pf_triple p) in
      let? l := matching_in req r in
      Ok (if b then p :: l else l)
  end.
(** platform/req.rs:74-76. *)
Definition matching_platforms (req : string) : outcome (list platform) := matching_in req ALL.
(** platform/req.rs:98-106 [from_str]: the result is the string itself.  ([next().is_none()] forces only the
    first match; [matching_in] forces all, which makes no difference because matching a non-empty requirement
    never panics.) *)
Definition preq_from_str (s : string) : outcome string :=
  if String.eqb s "" then Err
  else let? l := matching_platforms s in match l with [] => Err | _ => Ok s end.

(** platform/mod.rs:66-70 [Platform::find]. *)
Definition platform_find (triple : string) : option platform :=
  find (fun p => String.eqb (pf_triple p) triple) ALL.
