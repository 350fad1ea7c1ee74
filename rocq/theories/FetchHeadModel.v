(** What a fetch records: the file FETCH_HEAD and the reference HEAD leads to.
    /repo/rustsec/src/repository/git/repository.rs: 20 (REF_SPEC), 267-352 (perform_fetch, after the objects have been received),
    354-547 (write_fetch_head, encode_hex).  Given, by their documented effects: gix's reading of the server's references, its
    store of references, the file system. *)
From Coq Require Import List NArith Ascii String Bool Arith.
From Verif Require Import Base StrLib.
Import ListNotations.
Local Open Scope string_scope.
Local Open Scope N_scope.
Local Infix "++" := String.append (right associativity, at level 60).

(** ** Texts *)
(** [str::from_utf8] and [ByteSlice::to_str] accept exactly the well-formed sequences of table 3-7 of the Unicode standard. *)
Definition byte_in (lo hi : N) (a : ascii) : bool := (lo <=? N_of_ascii a) && (N_of_ascii a <=? hi).
Definition second_of_three (x : N) : ascii -> bool :=
  if x =? 224 then byte_in 160 191 else if x =? 237 then byte_in 128 159 else byte_in 128 191.
Definition second_of_four (x : N) : ascii -> bool :=
  if x =? 240 then byte_in 144 191 else if x =? 244 then byte_in 128 143 else byte_in 128 191.
Fixpoint utf8 (s : string) : bool :=
  match s with
  | EmptyString => true
  | String a r =>
      if byte_in 0 127 a then utf8 r
      else if byte_in 194 223 a then match r with String b r => byte_in 128 191 b && utf8 r | _ => false end
      else if byte_in 224 239 a then match r with String b (String c r) => second_of_three (N_of_ascii a) b && byte_in 128 191 c && utf8 r | _ => false end
      else if byte_in 240 244 a then
        match r with String b (String c (String d r)) => second_of_four (N_of_ascii a) b && byte_in 128 191 c && byte_in 128 191 d && utf8 r | _ => false end
      else false
  end.

(** ** What gix gives *)
(** [gix::ObjectId]: twenty bytes of SHA-1, or another kind of hash. *)
Inductive oid := Sha1 (bytes : list N) | OtherHash (bytes : list N).
(** [gix::protocol::handshake::Ref]. *)
Inductive server_ref :=
| RPeeled (full_ref_name : string) (tag object : oid)
| RDirect (full_ref_name : string) (object : oid)
| RSymbolic (full_ref_name target : string) (tag : option oid) (object : oid)
| RUnborn (full_ref_name target : string).
(** [gix::remote::fetch::refmap::Source]: what is on the remote's side of a mapping. *)
Inductive source := SrcObject (id : oid) | SrcRef (r : server_ref).
(** [gix::remote::Name]. *)
Inductive remote_name := NSymbol (name : string) | NUrl (url : string).
(** [gix::Remote]: its URL for fetching, its name, both sides of its refspecs for fetching. *)
Record remote := mkRemote { rm_url : option string; rm_name : option remote_name; rm_specs : list (option string * option string) }.

(** ** write_fetch_head *)
(** 397-420. *)
Fixpoint find_head (ms : list source) : option (string * oid) :=
  match ms with
  | [] => None
  | SrcRef (RSymbolic name target _ object) :: r => if String.eqb name "HEAD" then Some (target, object) else find_head r
  | _ :: r => find_head r
  end.
(** 527-544 [encode_hex]; the assertion holds for the sizes it is used with, 20 and 40. *)
Definition CHARS : string := "0123456789abcdef".
Fixpoint encode_hex (input : list N) : outcome string :=
  match input with
  | [] => Ok ""
  | byte :: r =>
      match String.get (N.to_nat (N.shiftr byte 4)) CHARS, String.get (N.to_nat (N.land byte 15)) CHARS with
      | Some hi, Some lo => let? s := encode_hex r in Ok (String hi (String lo s))
      | _, _ => Panic
      end
  end.
Definition TAB : string := String (ascii_of_nat 9) "".
Definition LF : string := String (ascii_of_nat 10) "".
(** 442-450. *)
Definition remote_name_of (rm : remote) : string :=
  match rm_name rm with Some (NSymbol n) => n | _ => "origin" end.
(** 453-471. *)
Definition asks_for_head (name : string) (spec : option string * option string) : bool :=
  match fst spec with
  | Some r =>
      if negb (ends_with "HEAD" r) then false
      else match snd spec with
           | Some l =>
               match (if utf8 l then match strip_prefix "refs/remotes/" l with Some l => strip_suffix "/HEAD" l | None => None end else None) with
               | Some n => String.eqb n name
               | None => false
               end
           | None => false
           end
  | None => false
  end.
(** 390-524, up to the writing of the file: the identifier returned, and the text to write. *)
Definition fetch_head_text (ms : list source) (rm : remote) : outcome (oid * string) :=
  match find_head ms with
  | None => Err
  | Some (target, id) =>
      match rm_url rm with
      | None => Panic
      | Some url =>
          if negb (utf8 url) then Panic
          else match id with
               | OtherHash _ => Err
               | Sha1 bytes =>
                   let? commit_id := encode_hex bytes in
                   let first := if existsb (asks_for_head (remote_name_of rm)) (rm_specs rm) then commit_id ++ TAB ++ TAB ++ url ++ LF else "" in
                   let second :=
                     match (if utf8 target then strip_prefix "refs/heads/" target else None) with
                     | Some branch => commit_id ++ TAB ++ TAB ++ "branch '" ++ branch ++ "' of " ++ url ++ LF
                     | None => ""
                     end in
                   let text := first ++ second in
                   if String.eqb text "" then Err else Ok (id, text)
               end
      end
  end.

(** ** perform_fetch *)
(** The references of the repository ("HEAD" is one of them). *)
Inductive target := TObject (id : oid) | TSymbolic (name : string).
Definition refs := string -> option target.
Record gitdir := mkGitdir { g_refs : refs; g_fetch_head : option string }.
Definition set_ref (n : string) (t : target) (rs : refs) : refs := fun m => if String.eqb m n then Some t else rs m.
Section Perform.
  (** How many symbolic references gix follows before it takes them for a cycle. *)
  Context (rounds : nat).
  (** [edit_reference] of an update with [deref]: the symbolic references are followed, and the last name is made to lead to the
      object; [MustExist] is a condition on that name. *)
  Fixpoint last_name (fuel : nat) (rs : refs) (n : string) : option string :=
    match rs n with
    | Some (TSymbolic m) => match fuel with O => None | S f => last_name f rs m end
    | _ => Some n
    end.
  Definition edit_reference (rs : refs) (n : string) (must_exist : bool) (id : oid) : option refs :=
    match last_name rounds rs n with
    | None => None
    | Some m => if must_exist && match rs m with None => true | _ => false end then None else Some (set_ref m (TObject id) rs)
    end.
  (** 302: [replace_refspecs] with the constant of line 20, of the remote "origin" (294). *)
  Definition our_remote (url : option string) : remote :=
    mkRemote url (Some (NSymbol "origin")) [(Some "HEAD", Some "refs/remotes/origin/HEAD")].
  (** 512-524, 299-352: what happens after the fetch.  [written]: [None] if [fs::write] succeeds, otherwise how much it had
      written when it failed.  *)
  Definition record_fetch (ms : list source) (url : option string) (written : option nat) (g : gitdir) : gitdir * outcome oid :=
    match fetch_head_text ms (our_remote url) with
    | Err => (g, Err)
    | Panic => (g, Panic)
    | Ok (id, text) =>
        match written with
        | Some n => (mkGitdir (g_refs g) (Some (String.substring 0 n text)), Err)
        | None =>
            let g1 := mkGitdir (g_refs g) (Some text) in
            (* 314-350: [repo.head()] finds HEAD and, if it is symbolic, the reference it names (unborn if that is missing). *)
            match g_refs g "HEAD" with
            | None => (g1, Err)
            | Some t =>
                let edited :=
                  match t with
                  | TSymbolic b =>
                      match g_refs g b with
                      | Some (TSymbolic name) => edit_reference (g_refs g) name true id
                      | _ => edit_reference (g_refs g) "HEAD" false id
                      end
                  | TObject _ => edit_reference (g_refs g) "HEAD" false id
                  end in
                match edited with
                | Some rs => (mkGitdir rs (Some text), Ok id)
                | None => (g1, Err)
                end
            end
        end
    end.
End Perform.
