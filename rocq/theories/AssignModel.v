(** Assigning advisory ids: /repo/admin/src/assigner.rs. *)
From Coq Require Import List NArith Ascii String Bool Arith.
From Verif Require Import Base StrLib IdModel PkgModel DbModel PartsModel.
Import ListNotations.
Local Open Scope string_scope.
Local Open Scope N_scope.
Local Infix "++" := String.append (right associativity, at level 60).

(** The advisory repository: the two collection directories, in the order [read_dir] lists them ([None]: [read_dir]
    fails), their entries ([re_files] is [None] for an entry that is not a directory) and the texts of the files.
    All names are valid UTF-8. *)
Record rfile := mkRFile { rf_name : string; rf_text : string }.
Record rentry := mkREntry { re_name : string; re_files : option (list rfile) }.
Record rtree := mkRTree { rt_crates : option (list rentry); rt_rust : option (list rentry) }.

(** A file's place: collection, directory, name. *)
Definition path : Type := string * string * string.

(** assigner.rs:54 [Map<u32, u32>]; later insertions come first. *)
Definition ymap := list (N * N).
Fixpoint yget (y : N) (m : ymap) : option N :=
  match m with [] => None | (k, v) :: r => if k =? y then Some v else yget y r end.
Definition yput (y n : N) (m : ymap) : ymap := (y, n) :: m.

(** assigner.rs:56-73: the highest number of each year.  [year()] can panic (date.rs:23-48), and so can the [unwrap] of
    [numerical_part] (63). *)
Fixpoint highest (advs : list advisory) (m : ymap) : outcome ymap :=
  match advs with
  | [] => Ok m
  | a :: r =>
      let? y := date_year (a_date a) in
      match id_kind_of (a_id a) with
      | KRustSec =>
          match numerical_part (a_id a) with
          | None => Panic
          | Some n =>
              match yget y m with
              | Some k => if k <? n then highest r (yput y n m) else highest r m
              | None => highest r (yput y n m)
              end
          end
      | _ => highest r m
      end
  end.

(** [{:04}]. *)
Fixpoint zeros (k : nat) : string := match k with O => "" | S k => String "0" (zeros k) end.
Definition pad4 (n : N) : string := zeros (4 - String.length (print_dec n)) ++ print_dec n.
(** assigner.rs:162-163. *)
Definition new_id (y n : N) : string := "RUSTSEC-" ++ print_dec y ++ "-" ++ pad4 n.
(** assigner.rs:161 [+ 1] on [u32]: a panic with overflow checks, otherwise 0. *)
Definition u32_succ (checks : bool) (n : N) : outcome N :=
  if n + 1 <=? u32_max then Ok (n + 1) else if checks then Panic else Ok 0.

(** [BufRead::lines]: a line ends with LF or CR LF, which are dropped; a last line without LF is kept as it is. *)
Definition cr : ascii := ascii_of_N 13.
Definition strip_cr (l : string) : string := match strip_suffix (String cr "") l with Some x => x | None => l end.
Fixpoint lines_of (parts : list string) : list string :=
  match parts with
  | [] => []
  | [l] => if String.eqb l "" then [] else [l]
  | l :: r => strip_cr l :: lines_of r
  end.
Definition file_lines (text : string) : list string := lines_of (split_on nl text).

(** assigner.rs:170-176. *)
Definition q : ascii := ascii_of_N 34.
Definition PLACEHOLDER_LINE : string := "id = " ++ String q "RUSTSEC-0000-0000" ++ String q "".
Definition is_placeholder_line (l : string) : bool := String.eqb (trim_end (trim_start l)) PLACEHOLDER_LINE.
Definition rewrite_line (sid l : string) : string :=
  if is_placeholder_line l then "id = " ++ String q sid ++ String q "" else l.

(** The effects on the file system, in order: [File::create] (165) makes the file empty, [write_all] (171, 175) appends
    (every write ends with a line break, so the [LineWriter] passes it on at once), [remove_file] (190). *)
Inductive op := Create (p : path) | Append (p : path) (s : string) | Delete (p : path).

(** What the program has done so far: highest numbers, effects, and the assignments (id, directory name), which the
    program prints or collects (191-195). *)
Record astate := mkSt { s_high : ymap; s_ops : list op; s_done : list (string * string) }.

(** A loop that stops at the first failure. *)
Fixpoint run_list {A} (step : astate -> A -> astate * outcome unit) (s : astate) (l : list A) : astate * outcome unit :=
  match l with
  | [] => (s, Ok tt)
  | x :: r => match step s x with (s', Ok tt) => run_list step s' r | (s', e) => (s', e) end
  end.

(** assigner.rs:97-103: the title of the pull request. *)
Fixpoint join_str (sep : string) (l : list string) : string :=
  match l with [] => "" | [x] => x | x :: r => x ++ sep ++ join_str sep r end.
(** [str::rsplit_once]. *)
Definition rsplit_once_str (p s : string) : option (string * string) :=
  match split_str (srev p) (srev s) with Some (x, y) => Some (srev y, srev x) | None => None end.
(** The loop; every turn removes a separator, so that the length of the title is enough fuel (proved: [Err], out of
    fuel, does not occur). *)
Fixpoint shorten (fuel : nat) (dropped : N) (title : string) : outcome string :=
  if Nat.leb (String.length title) 255 then Ok title
  else match fuel with
       | O => Err
       | S f => match rsplit_once_str ", " title with
                | None => Panic
                | Some (new, _) => shorten f (dropped + 1) (new ++ " and " ++ print_dec (dropped + 1) ++ " more")
                end
       end.
Definition make_title (assignments : list string) : outcome string :=
  let title := "Assigned " ++ join_str ", " assignments in shorten (String.length title) 0 title.

(** The external TOML decoder with the derived [Deserialize] for [Advisory], and the advisory's text fields. *)
Section Assign.
  Context (toml : string -> option advisory) (title description : advisory -> string)
          (with_text : advisory -> string -> string -> advisory).
  Context (checks : bool). (* overflow checks *)

  (** What [Database::open] sees: every file loaded by [Advisory::load_file]. *)
  Definition load_text (text : string) : outcome advisory := advisory_from_str toml title description with_text text.
  Definition fs_of_entry (e : rentry) : fs_entry :=
    mkEntry (re_name e) (match re_files e with
                         | None => None
                         | Some fs => Some (map (fun f => mkFile (rf_name f) (load_text (rf_text f))) fs)
                         end).
  Definition fs_of (t : rtree) : fs_tree :=
    mkTree (option_map (map fs_of_entry) (rt_crates t)) (option_map (map fs_of_entry) (rt_rust t)).

  (** assigner.rs:148-160: note that here the front matter goes to the TOML decoder as it is, without the
    ["[advisory]"] line [Advisory::from_str] supplies. *)
  Definition draft_year (text : string) : outcome N :=
    let? p := parts_parse text in
    match toml (pt_front p) with None => Err | Some a => date_year (a_date a) end.

  (** assigner.rs:135-195, one turn of the loop.  The texts are those of the tree the run started with; the program
      itself only writes to other files (proved). *)
  Definition assign_file (coll dir : string) (s : astate) (f : rfile) : astate * outcome unit :=
    if negb (is_draft_name (rf_name f)) then (s, Ok tt)
    else match draft_year (rf_text f) with
         | Panic => (s, Panic)
         | Err => (s, Err)
         | Ok y =>
             match u32_succ checks (match yget y (s_high s) with Some n => n | None => 0 end) with
             | Panic => (s, Panic)
             | Err => (s, Err)
             | Ok n =>
                 let sid := new_id y n in
                 let target := (coll, dir, sid ++ ".md") in
                 let ls := file_lines (rf_text f) in
                 let ops := (Create target :: map (fun l => Append target (rewrite_line sid l ++ String nl "")) ls)%list in
                 if existsb is_placeholder_line ls then
                   (mkSt (yput y n (s_high s)) (s_ops s ++ ops ++ [Delete (coll, dir, rf_name f)])%list
                      (s_done s ++ [(sid, dir)])%list, Ok tt)
                 else (mkSt (s_high s) (s_ops s ++ ops)%list (s_done s), Err)
             end
         end.
  (** assigner.rs:121-197, one entry of the collection. *)
  Definition assign_entry (coll : string) (s : astate) (e : rentry) : astate * outcome unit :=
    match re_files e with None => (s, Err) | Some fs => run_list (assign_file coll (re_name e)) s fs end.
  (** assigner.rs:109-200 [assign_ids_across_directory]. *)
  Definition assign_collection (coll : string) (s : astate) (es : option (list rentry)) : astate * outcome unit :=
    match es with None => (s, Ok tt) | Some l => run_list (assign_entry coll) s l end.

  (** assigner.rs:27-106 [assign_ids]: [Err] is exit status 1; the result is the printed title, if any. *)
  Definition assign_ids (github : bool) (t : rtree) : astate * outcome (option string) :=
    let s0 := mkSt [] [] [] in
    match db_open (fs_of t) with
    | Panic => (s0, Panic)
    | Err => (s0, Err)
    | Ok db =>
        match db_iter db with
        | [] => (s0, Err)
        | advs =>
            match highest advs [] with
            | Panic => (s0, Panic)
            | Err => (s0, Err)
            | Ok m =>
                match assign_collection "crates" (mkSt m [] []) (rt_crates t) with
                | (s, Ok tt) =>
                    match assign_collection "rust" s (rt_rust t) with
                    | (s, Ok tt) =>
                        (s, if github then let? x := make_title (map (fun d => fst d ++ " to " ++ snd d) (s_done s)) in Ok (Some x)
                            else Ok None)
                    | (s, Err) => (s, Err)
                    | (s, Panic) => (s, Panic)
                    end
                | (s, Err) => (s, Err)
                | (s, Panic) => (s, Panic)
                end
            end
        end
    end.
End Assign.
