(** Model of advisory identifiers and dates:
    /repo/rustsec/src/advisory/id.rs, /repo/rustsec/src/advisory/date.rs. *)
From Coq Require Import List NArith ZArith Ascii String Bool.
From Verif Require Import Base StrLib.
Import ListNotations.
Local Open Scope string_scope.
Local Open Scope N_scope.

(** id.rs:171-186 [enum IdKind]. *)
Inductive id_kind := KRustSec | KCve | KGhsa | KTalos | KOther.

(** id.rs:13-22 [struct Id]. *)
Record adv_id := mkId { id_kind_of : id_kind; id_year : option N; id_string : string }.

(** id.rs:26. *)
Definition placeholder : string := "RUSTSEC-0000-0000".

(** id.rs:190-202 [IdKind::detect]. *)
Definition detect (s : string) : id_kind :=
  if starts_with "RUSTSEC-" s then KRustSec
  else if starts_with "CVE-" s then KCve
  else if starts_with "TALOS-" s then KTalos
  else if starts_with "GHSA-" s then KGhsa
  else KOther.

(** date.rs:12,15. *)
Definition YEAR_MIN : N := 2000.
Definition YEAR_MAX : N := YEAR_MIN + 100.

(** id.rs:206-239 [parse_year]; the two [unwrap]s are the [Panic] cases. *)
Definition parse_year (s : string) : outcome N :=
  match split_on "-" s with
  | [] => Panic
  | _ :: [] => Panic
  | _ :: y :: rest =>
      match parse_u32 y with
      | None => Err
      | Some n =>
          if (YEAR_MIN <=? n) && (n <=? YEAR_MAX) then
            match rest with
            | [] => Err
            | num :: rest' =>
                match parse_u32 num with
                | None => Err
                | Some _ => match rest' with [] => Ok n | _ => Err end
                end
            end
          else Err
      end
  end.

(** id.rs:115-123 [Default for Id]. *)
Definition id_default : adv_id := mkId KRustSec None placeholder.

(** id.rs:135-153 [FromStr for Id]. *)
Definition id_from_str (s : string) : outcome adv_id :=
  if String.eqb s placeholder then Ok id_default
  else
    let kind := detect s in
    match kind with
    | KRustSec | KCve | KTalos => let? y := parse_year s in Ok (mkId kind (Some y) s)
    | _ => Ok (mkId kind None s)
    end.

(** id.rs:39-41 [is_placeholder]. *)
Definition is_placeholder (i : adv_id) : bool := String.eqb (id_string i) placeholder.

(** id.rs:75-84 [numerical_part]. *)
Definition numerical_part (i : adv_id) : option N :=
  if is_placeholder i then None
  else match rev (split_on "-" (id_string i)) with
       | [] => None
       | last_part :: _ => parse_u32 last_part
       end.

(** id.rs:89-106 [url]. *)
Definition id_url (i : adv_id) : option string :=
  match id_kind_of i with
  | KRustSec => if is_placeholder i then None
                else Some ("https://rustsec.org/advisories/" ++ id_string i)%string
  | KCve => Some ("https://www.cve.org/CVERecord?id=" ++ id_string i)%string
  | KGhsa => Some ("https://github.com/advisories/" ++ id_string i)%string
  | KTalos => Some ("https://www.talosintelligence.com/reports/" ++ id_string i)%string
  | KOther => None
  end.

(** id.rs:156-166: serde uses the same string and [from_str]. *)

(** ** Dates.  date.rs:19 [struct Date(String)].  [civil] is the external parser
    [jiff::civil::Date::from_str] (year, month, day). *)
Definition civil_parser := string -> option (Z * N * N).

(** [date.year() as u32]: i16 to u32, sign extending. *)
Definition i16_as_u32 (y : Z) : N := Z.to_N (y mod 4294967296)%Z.

(** date.rs:67-82 [FromStr for Date]. *)
Definition date_from_str (civil : civil_parser) (s : string) : outcome string :=
  match civil s with
  | None => Err
  | Some (y, _, _) =>
      let y' := i16_as_u32 y in
      if (YEAR_MIN <=? y') && (y' <=? YEAR_MAX) then Ok s else Err
  end.

(** date.rs:43-48 [component] followed by [expect], date.rs:23-35: both failures panic. *)
Definition date_component (i : nat) (d : string) : outcome N :=
  match nth_error (split_on "-" d) i with
  | None => Panic
  | Some p => match parse_u32 p with Some n => Ok n | None => Panic end
  end.
Definition date_year := date_component 0.
Definition date_month := date_component 1.
Definition date_day := date_component 2.
(** date.rs:18 derived [Ord]: byte order of the text. *)
Definition date_cmp (a b : string) : comparison := str_cmp a b.
