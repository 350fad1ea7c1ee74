(** Specification vocabulary for package sources. *)
From Coq Require Import List NArith Ascii String Bool.
From Verif Require Import Base SemverModel StrLib PkgModel UrlModel.
Import ListNotations.
Local Open Scope string_scope.
Local Open Scope N_scope.
Local Infix "++" := String.append (right associativity, at level 60).

(** Visible ASCII. *)
Definition visible (a : ascii) : bool := let n := N_of_ascii a in (33 <=? n) && (n <=? 126).
(** What is assumed of the URL library's normalisation of the part before ['?'] and ['#']: its result is
    visible ASCII without these two characters and is left unchanged when normalised again. *)
Definition norm_laws (norm : string -> option string) : Prop :=
  forall s b, norm s = Some b -> norm b = Some b /\ str_forall visible b = true /\ has_char "?" b = false /\ has_char "#" b = false.

(** Sources that can be written: the url is one the library produced (for git: without query and fragment),
    and a commit is visible ASCII without the characters a fragment would escape. *)
Definition normal_url (norm : string -> option string) (u : string) : Prop :=
  exists s p, url_parse norm s = Some p /\ u = url_string p.
Definition normal_base (norm : string -> option string) (u : string) : Prop := norm u = Some u.
Definition plain_precise (s : string) : Prop := str_forall (fun a => negb (fragment_set a)) s = true.
Definition writable (norm : string -> option string) (s : source_id) : Prop :=
  s_name s = None /\
  match s_kind s with
  | SGit _ => normal_base norm (s_url s) /\ match s_precise s with Some p => plain_precise p | None => True end
  | SPath | SRegistry | SSparseRegistry => normal_url norm (s_url s)
  | SLocalRegistry | SDirectory => False
  end.
(** A branch, tag or revision that the unescaped form (lockfile formats 1 to 3) can carry: no ['%'], ['+'],
    ['&'], ['#'], and no space or control character. *)
Definition plain_ref_char (a : ascii) : bool := negb (is_one_of "%+&#" a) && (32 <? N_of_ascii a).
Definition plain_ref (s : source_id) : Prop :=
  match s_kind s with
  | SGit (GBranch r) | SGit (GTag r) | SGit (GRev r) => str_forall plain_ref_char r = true
  | _ => True
  end.
(** What reading back gives: registries are always locked, paths never. *)
Definition reread (s : source_id) : source_id :=
  mkSource (s_url s) (s_kind s)
    (match s_kind s with SGit _ => s_precise s | SPath => None | _ => Some "locked" end) None.
