(** What FETCH_HEAD says, independently of how it is written: a reader of the file as git documents it, and of identifiers. *)
From Coq Require Import List NArith Ascii String Bool Arith.
From Verif Require Import Base FetchHeadModel.
Import ListNotations.
Local Open Scope string_scope.
Local Open Scope N_scope.
Local Infix "++" := String.append (right associativity, at level 60).

(** The lines of a text: each ends with a line feed. [None]: the last one does not. *)
Fixpoint read_lines (cur : string) (s : string) : option (list string) :=
  match s with
  | EmptyString => if String.eqb cur "" then Some [] else None
  | String c r => if Ascii.eqb c (ascii_of_nat 10) then match read_lines "" r with Some l => Some (cur :: l) | None => None end
                  else read_lines (cur ++ String c "") r
  end.
(** A text up to a tab, and what is after it. *)
Fixpoint up_to_tab (s : string) : option (string * string) :=
  match s with
  | EmptyString => None
  | String c r => if Ascii.eqb c (ascii_of_nat 9) then Some ("", r)
                  else match up_to_tab r with Some (a, b) => Some (String c a, b) | None => None end
  end.
(** A line: the identifier, whether it is marked "not-for-merge", the description. *)
Definition read_line (s : string) : option (string * bool * string) :=
  match up_to_tab s with
  | Some (id, r) => match up_to_tab r with
                    | Some (note, d) => if String.eqb note "" then Some (id, true, d)
                                        else if String.eqb note "not-for-merge" then Some (id, false, d) else None
                    | None => None
                    end
  | None => None
  end.
Fixpoint read_all (l : list string) : option (list (string * bool * string)) :=
  match l with
  | [] => Some []
  | x :: r => match read_line x, read_all r with Some e, Some es => Some (e :: es) | _, _ => None end
  end.
Definition read_fetch_head (s : string) : option (list (string * bool * string)) :=
  match read_lines "" s with Some l => read_all l | None => None end.

(** A digit of a hexadecimal number in lower case. *)
Definition digit_value (c : ascii) : option N :=
  let n := N_of_ascii c in
  if (48 <=? n) && (n <=? 57) then Some (n - 48) else if (97 <=? n) && (n <=? 102) then Some (n - 87) else None.
(** The bytes a text of hexadecimal digits stands for. *)
Fixpoint read_id (s : string) : option (list N) :=
  match s with
  | EmptyString => Some []
  | String a (String b r) => match digit_value a, digit_value b, read_id r with Some x, Some y, Some l => Some (16 * x + y :: l) | _, _, _ => None end
  | _ => None
  end.

(** A mapping whose remote side is a symbolic HEAD. *)
Definition a_symbolic_head (m : source) : Prop := exists t tag o, m = SrcRef (RSymbolic "HEAD" t tag o).
(** The first symbolic HEAD among the mappings leads to a reference and a commit. *)
Definition server_head (ms : list source) (t : string) (o : oid) : Prop :=
  exists before tag after, ms = (before ++ SrcRef (RSymbolic "HEAD" t tag o) :: after)%list /\ Forall (fun m => ~ a_symbolic_head m) before.
(** The name of a remote, "origin" for one that has only a URL. *)
Definition is_named (rm : remote) (name : string) : Prop :=
  rm_name rm = Some (NSymbol name) \/ ((forall n, rm_name rm <> Some (NSymbol n)) /\ name = "origin").
(** The remote's HEAD is fetched to the place for the HEAD of a remote of that name. *)
Definition head_is_asked_for (name : string) (rm : remote) : Prop :=
  exists src, In (Some (src ++ "HEAD"), Some ("refs/remotes/" ++ name ++ "/HEAD")) (rm_specs rm).
(** Text: the UTF-8 encodings of characters (Unicode scalar values). *)
Definition a_character (c : N) : Prop := c < 55296 \/ (57344 <= c /\ c < 1114112).
Definition byte (n : N) (r : string) : string := String (ascii_of_N n) r.
Definition encoded (c : N) : string :=
  if c <? 128 then byte c ""
  else if c <? 2048 then byte (192 + c / 64) (byte (128 + c mod 64) "")
  else if c <? 65536 then byte (224 + c / 4096) (byte (128 + c / 64 mod 64) (byte (128 + c mod 64) ""))
  else byte (240 + c / 262144) (byte (128 + c / 4096 mod 64) (byte (128 + c / 64 mod 64) (byte (128 + c mod 64) ""))).
Definition is_text (s : string) : Prop := exists l, Forall a_character l /\ s = fold_right (fun c r => encoded c ++ r) "" l.

(** The name of a branch (as far as it can be read as text). *)
Definition branch_name (t b : string) : Prop := t = "refs/heads/" ++ b /\ is_text b.
(** Twenty bytes. *)
Definition a_sha1 (l : list N) : Prop := List.length l = 20%nat /\ Forall (fun x => x < 256) l.

(** Following references from a name to an object. *)
Inductive leads_to (rs : refs) : string -> oid -> Prop :=
| leads_here n id : rs n = Some (TObject id) -> leads_to rs n id
| leads_on n m id : rs n = Some (TSymbolic m) -> leads_to rs m id -> leads_to rs n id.
(** Following symbolic references from a name, the last name; after how many steps. *)
Inductive ends_at (rs : refs) : nat -> string -> string -> Prop :=
| ends_here n : (forall m, rs n <> Some (TSymbolic m)) -> ends_at rs 0 n n
| ends_on k n m e : rs n = Some (TSymbolic m) -> ends_at rs k m e -> ends_at rs (S k) n e.
