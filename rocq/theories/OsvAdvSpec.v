(** How a consumer reads an exported advisory: the evaluation algorithm of the OSV schema
    (https://ossf.github.io/osv-schema/#evaluation), on the JSON document. *)
From Coq Require Import List NArith Ascii String Bool.
From Verif Require Import Base SemverModel VerText OsvAdvModel.
Import ListNotations.
Local Open Scope string_scope.

Definition member (k : string) (j : json) : option json :=
  match j with
  | JObj t => match find (fun e => String.eqb (fst e) k) t with Some (_, v) => Some v | None => None end
  | _ => None
  end.
Fixpoint all_some {A} (l : list (option A)) : option (list A) :=
  match l with
  | [] => Some []
  | None :: _ => None
  | Some x :: r => match all_some r with Some xs => Some (x :: xs) | None => None end
  end.

(** Events.  Versions are SemVer 2.0 texts, compared by precedence. *)
Inductive ev_kind := EIntroduced | EFixed | ELastAffected.
Definition read_event (j : json) : option (ev_kind * version) :=
  match j with
  | JObj [(k, JStr s)] =>
      match parse_version s with
      | None => None
      | Some v => if String.eqb k "introduced" then Some (EIntroduced, v) else if String.eqb k "fixed" then Some (EFixed, v)
                  else if String.eqb k "last_affected" then Some (ELastAffected, v) else None
      end
  | _ => None
  end.
Definition at_most (a b : version) : bool := match prec_cmp a b with Gt => false | _ => true end.
(** [sorted(range.events)]: stable, by version. *)
Fixpoint ev_insert (e : ev_kind * version) (l : list (ev_kind * version)) : list (ev_kind * version) :=
  match l with
  | [] => [e]
  | x :: r => if at_most (snd e) (snd x) then e :: l else x :: ev_insert e r
  end.
Definition ev_sort (l : list (ev_kind * version)) : list (ev_kind * version) := fold_right ev_insert [] l.
Definition ev_step (v : version) (vulnerable : bool) (e : ev_kind * version) : bool :=
  match fst e with
  | EIntroduced => if at_most (snd e) v then true else vulnerable
  | EFixed => if at_most (snd e) v then false else vulnerable
  | ELastAffected => if at_most v (snd e) then vulnerable else false
  end.
Definition evaluate (events : list (ev_kind * version)) (v : version) : bool := fold_left (ev_step v) (ev_sort events) false.

Definition range_verdict (v : version) (r : json) : option bool :=
  match member "type" r, member "events" r with
  | Some (JStr kind), Some (JArr es) =>
      if String.eqb kind "SEMVER" then
        match all_some (map read_event es) with Some evs => Some (evaluate evs v) | None => None end
      else None
  | _, _ => None
  end.
Definition listed (v : version) (j : json) : bool := match j with JStr s => String.eqb s (print_version v) | _ => false end.
Definition entry_verdict (eco name : string) (v : version) (a : json) : option bool :=
  match member "package" a, member "ranges" a, member "versions" a with
  | Some p, Some (JArr rs), Some (JArr vs) =>
      match member "ecosystem" p, member "name" p, all_some (map (range_verdict v) rs) with
      | Some (JStr e), Some (JStr n), Some bs =>
          Some ((String.eqb e eco && String.eqb n name) && (existsb (listed v) vs || existsb (fun b => b) bs))%bool
      | _, _, _ => None
      end
  | _, _, _ => None
  end.
(** Is version [v] of package [name] of ecosystem [eco] affected?  [None]: the document cannot be used. *)
Definition osv_verdict (j : json) (eco name : string) (v : version) : option bool :=
  match member "affected" j with
  | Some (JArr l) => match all_some (map (entry_verdict eco name v) l) with Some bs => Some (existsb (fun b => b) bs) | None => None end
  | _ => None
  end.
