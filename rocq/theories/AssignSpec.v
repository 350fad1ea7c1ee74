(** Specification vocabulary for the id assigner. *)
From Coq Require Import List NArith Ascii String Bool Arith.
From Verif Require Import Base StrLib IdModel DbModel PartsModel AssignModel.
Import ListNotations.
Local Open Scope string_scope.
Local Open Scope N_scope.
Local Infix "++" := String.append (right associativity, at level 60).

(** The files of the repository with their texts, collection [crates] first, each in listing order. *)
Definition entry_texts (coll : string) (e : rentry) : list (path * string) :=
  match re_files e with
  | None => []
  | Some fs => map (fun f => ((coll, re_name e, rf_name f), rf_text f)) fs
  end.
Definition collection_texts (coll : string) (es : option (list rentry)) : list (path * string) :=
  match es with None => [] | Some l => flat_map (entry_texts coll) l end.
Definition texts (t : rtree) : list (path * string) :=
  (collection_texts "crates" (rt_crates t) ++ collection_texts "rust" (rt_rust t))%list.

(** No two files have the same place. *)
Definition well_formed (t : rtree) : Prop := NoDup (map fst (texts t)).

(** Drafts go by file name. *)
Definition draft_path (p : path) : bool := starts_with "RUSTSEC-0000-0000." (snd p).
Definition drafts (t : rtree) : list (path * string) := filter (fun x => draft_path (fst x)) (texts t).

(** File systems as maps from places to texts. *)
Definition fsmap : Type := path -> option string.
Definition path_eqb (a b : path) : bool :=
  String.eqb (fst (fst a)) (fst (fst b)) && String.eqb (snd (fst a)) (snd (fst b)) && String.eqb (snd a) (snd b).
Fixpoint lookup (l : list (path * string)) (p : path) : option string :=
  match l with [] => None | (k, x) :: r => if path_eqb k p then Some x else lookup r p end.
Definition contents (t : rtree) : fsmap := lookup (texts t).
Definition set (m : fsmap) (p : path) (x : option string) : fsmap := fun k => if path_eqb p k then x else m k.
Definition apply_op (m : fsmap) (o : op) : fsmap :=
  match o with
  | Create p => set m p (Some "")
  | Append p s => match m p with Some x => set m p (Some (x ++ s)) | None => m end
  | Delete p => set m p None
  end.
Definition apply_ops (m : fsmap) (l : list op) : fsmap := fold_left apply_op l m.

(** The text of a draft with its new id: every line ends with LF, and each line that is the placeholder's
    [id = "RUSTSEC-0000-0000"], up to white space around it, becomes the id line of the new id. *)
Definition with_id (sid text : string) : string :=
  fold_right (fun l rest => (if is_placeholder_line l then "id = " ++ String q sid ++ String q "" else l)
                            ++ String nl "" ++ rest) "" (file_lines text).

(** The highest number of a RUSTSEC advisory dated in year [y] (0: there is none). *)
Definition dated (y : N) (a : advisory) : Prop := date_year (a_date a) = Ok y.
Definition numbered (a : advisory) (n : N) : Prop := id_kind_of (a_id a) = KRustSec /\ numerical_part (a_id a) = Some n.
Definition top_number (advs : list advisory) (y m : N) : Prop :=
  (forall a n, In a advs -> dated y a -> numbered a n -> n <= m) /\
  (m = 0 \/ exists a, In a advs /\ dated y a /\ numbered a m).

(** RUSTSEC ids carry the year of the advisory's date (a rule of the linter). *)
Definition years_agree (advs : list advisory) : Prop :=
  forall a y, In a advs -> id_kind_of (a_id a) = KRustSec -> id_year (a_id a) = Some y -> dated y a.

(** The place of the file for id [sid] beside the draft at [p]. *)
Definition beside (p : path) (sid : string) : path := (fst p, sid ++ ".md").
