(** Advisory files: /repo/rustsec/src/advisory/parts.rs and [FromStr for Advisory] (/repo/rustsec/src/advisory.rs).
    Text is a UTF-8 byte string. *)
From Coq Require Import List NArith Ascii String Bool Arith.
From Verif Require Import Base StrLib.
Import ListNotations.
Local Open Scope string_scope.
Local Open Scope N_scope.
Local Infix "++" := String.append (right associativity, at level 60).

(** The encodings of the characters with the Unicode property White_Space ([char::is_whitespace]):
    U+0009..U+000D, U+0020, U+0085, U+00A0, U+1680, U+2000..U+200A, U+2028, U+2029, U+202F, U+205F, U+3000. *)
Definition ws1 (a : ascii) : bool := let n := N_of_ascii a in (n =? 32) || ((9 <=? n) && (n <=? 13)).
Definition ws2 (a b : ascii) : bool :=
  (N_of_ascii a =? 194) && ((N_of_ascii b =? 133) || (N_of_ascii b =? 160)).
Definition ws3 (a b c : ascii) : bool :=
  let x := N_of_ascii a in let y := N_of_ascii b in let z := N_of_ascii c in
  ((x =? 225) && (y =? 154) && (z =? 128))
  || ((x =? 226) && (y =? 128) && (((128 <=? z) && (z <=? 138)) || (z =? 168) || (z =? 169) || (z =? 175)))
  || ((x =? 226) && (y =? 129) && (z =? 159))
  || ((x =? 227) && (y =? 128) && (z =? 128)).
(** [str::trim_start]. *)
Fixpoint trim_start (s : string) : string :=
  match s with
  | EmptyString => ""
  | String a r =>
      if ws1 a then trim_start r
      else match r with
           | EmptyString => s
           | String b r2 =>
               if ws2 a b then trim_start r2
               else match r2 with
                    | EmptyString => s
                    | String c r3 => if ws3 a b c then trim_start r3 else s
                    end
           end
  end.
(** [str::trim_end], on the reversed bytes.  (On valid UTF-8 looking at the last one, two or three bytes is looking at
    the last character.) *)
Fixpoint trim_rev (s : string) : string :=
  match s with
  | EmptyString => ""
  | String a r =>
      if ws1 a then trim_rev r
      else match r with
           | EmptyString => s
           | String b r2 =>
               if ws2 b a then trim_rev r2
               else match r2 with
                    | EmptyString => s
                    | String c r3 => if ws3 c b a then trim_rev r3 else s
                    end
           end
  end.
Definition trim_end (s : string) : string := srev (trim_rev (srev s)).

(** [str::find] of a non-empty pattern, as the texts before and after its first occurrence. *)
Fixpoint split_str (p s : string) : option (string * string) :=
  match strip_prefix p s with
  | Some t => Some ("", t)
  | None =>
      match s with
      | EmptyString => None
      | String a r => match split_str p r with Some (x, y) => Some (String a x, y) | None => None end
      end
  end.

(** A line break. *)
Definition nl : ascii := ascii_of_N 10.
Definition FENCE : string := "```toml".
Definition CLOSE : string := String nl "```".

(** [&s[..20]] panics inside a character: byte 20 is a continuation byte. *)
Definition continuation_at (i : nat) (s : string) : bool :=
  match String.get i s with
  | Some a => let n := N_of_ascii a in (128 <=? n) && (n <? 192)
  | None => false
  end.

(** parts.rs:7-20 [struct Parts]. *)
Record parts := mkParts { pt_front : string; pt_markdown : string; pt_title : string; pt_description : string }.

(** parts.rs:24-72 [Parts::parse]. *)
Definition parts_parse (data : string) : outcome parts :=
  match strip_prefix FENCE data with
  | None => if Nat.ltb 20 (String.length data) && continuation_at 20 data then Panic else Err
  | Some body =>
      match split_str CLOSE body with (* the fence contains no line break, so this is [find] in all of [data] *)
      | None => Err
      | Some (front, rest) =>
          let markdown := trim_start rest in
          match strip_prefix "# " markdown with
          | None => Err
          | Some m =>
              match split_once nl m with
              | None => Err
              | Some (title, desc) =>
                  Ok (mkParts (trim_end (trim_start front)) markdown (trim_end title) (trim_end (trim_start desc)))
              end
          end
      end
  end.

(** advisory.rs:112-149 [FromStr for Advisory].  [toml] is the external TOML decoder with the derived [Deserialize]
    (None: error); [A] is the decoded advisory, seen through its title and description. *)
Section FromStr.
  Context {A : Type} (toml : string -> option A) (title description : A -> string)
          (with_text : A -> string -> string -> A).
  Definition HEADER : string := "[advisory]".
  Definition front_document (front : string) : string :=
    if starts_with HEADER front then front else HEADER ++ String nl front.
  Definition advisory_from_str (data : string) : outcome A :=
    let? p := parts_parse data in
    match toml (front_document (pt_front p)) with
    | None => Err
    | Some a =>
        if negb (String.eqb (title a) "") then Err
        else if negb (String.eqb (description a) "") then Err
        else Ok (with_text a (pt_title p) (pt_description p))
    end.
End FromStr.
