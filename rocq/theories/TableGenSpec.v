(** How the table of platforms is read: a reader of Markdown, independent of the generator. *)
From Coq Require Import List NArith Ascii String Bool Arith.
From Verif Require Import Base StrLib PlatData.
Import ListNotations.
Local Open Scope string_scope.

Definition line_end : ascii := "010".
Fixpoint drop_blanks (s : string) : string := match s with String c r => if Ascii.eqb c " " then drop_blanks r else s | EmptyString => "" end.
Definition cell (s : string) : string := srev (drop_blanks (srev (drop_blanks s))).
(** The cells of a row: what is between the bars, without the blanks around it. *)
Definition cells (line : string) : list string := map cell (removelast (tl (split_on "|" line))).
(** The rows of the tables, each with the heading it is under: a row is a line starting with a bar and a link. *)
Fixpoint rows_under (heading : string) (lines : list string) : list (string * list string) :=
  match lines with
  | [] => []
  | l :: r =>
      match strip_prefix "### " l with
      | Some h => rows_under h r
      | None => if starts_with "| [" l then (heading, cells l) :: rows_under heading r else rows_under heading r
      end
  end.
Definition rows (text : string) : list (string * list string) := rows_under "" (split_on line_end text).
(** The link definitions: name and address. *)
Definition link_of (line : string) : option (string * string) :=
  match strip_prefix "[" line with
  | Some r => match split_once "]" r with Some (n, r') => match strip_prefix ": " r' with Some a => Some (n, a) | None => None end | None => None end
  | None => None
  end.
Definition links (text : string) : list (string * string) :=
  flat_map (fun l => match link_of l with Some x => [x] | None => [] end) (split_on line_end text).

(** The row a platform should have. *)
Definition row_of (p : platform) : list string :=
  ["[" ++ pf_triple p ++ "]"; arch_str (pf_arch p); os_str (pf_os p); env_str (pf_env p)].
Definition title_of (t : tier) : string := match t with TierOne => "Tier 1" | TierTwo => "Tier 2" | TierThree => "Tier 3" end.
Definition of_tier (t : tier) (ps : list platform) : list platform :=
  filter (fun p => match pf_tier p, t with TierOne, TierOne | TierTwo, TierTwo | TierThree, TierThree => true | _, _ => false end) ps.
(** A name that Markdown does not take apart. *)
Definition tame (s : string) : Prop := has_char "|" s = false /\ has_char "]" s = false /\ has_char line_end s = false.
