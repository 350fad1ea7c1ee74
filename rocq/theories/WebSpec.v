(** What the web site shows, independently of how it is generated. *)
From Coq Require Import List NArith ZArith Ascii String Bool Permutation Sorted.
From Verif Require Import Base IdModel DbModel AdvModel WebModel.
Import ListNotations.
Local Open Scope string_scope.

(** Newest first; advisories of the same day in the database's order. *)
Definition newest (ds l : list site_adv) : Prop :=
  Permutation ds l /\
  StronglySorted (fun a b => str_cmp (s_created a) (s_created b) <> Lt) l /\
  forall day, filter (fun d => String.eqb (s_created d) day) l = filter (fun d => String.eqb (s_created d) day) ds.

(** A list on a page shows exactly these advisories in this order, each with its day of publication and its title. *)
Definition shows (es : list entry) (ds : list site_adv) : Prop :=
  map e_adv es = ds /\
  forall e, In e es -> friendly_date (s_created (e_adv e)) = Ok (e_date e) /\ e_title e = title_type (s_adv (e_adv e)).

(** The advisories of a list that have a key, once for each time they have it. *)
Definition having (keys : site_adv -> list string) (k : string) (l : list site_adv) : list site_adv :=
  flat_map (fun d => repeat d (count_occ string_dec (keys d) k)) l.
(** The same when no advisory has a key twice: the advisories with the key. *)
Definition with_key (keys : site_adv -> list string) (k : string) (l : list site_adv) : list site_adv :=
  filter (fun d => existsb (String.eqb k) (keys d)) l.

(** An index page lists each name once, by lower-case name, with the link to its page. *)
Definition index_of (lower : string -> string) (folder : string) (is : list item) (names : string -> Prop) : Prop :=
  NoDup (map it_name is) /\
  (forall n, In n (map it_name is) <-> names n) /\
  (forall i, In i is -> it_url i = "/" ++ folder ++ "/" ++ it_name i ++ ".html") /\
  StronglySorted (fun a b => str_cmp (lower (it_name a)) (lower (it_name b)) <> Gt) is.

(** ** Search *)
(** The identifiers of an advisory: its aliases, the related ones and its own. *)
Definition names (d : site_adv) : list string :=
  let m := f_meta (s_adv d) in (map id_string (m_aliases m) ++ map id_string (m_related m) ++ [id_string (m_id m)])%list.
(** What a search for an identifier should find: the advisories that mention it, regardless of case (once for each mention). *)
Definition found (lower : string -> string) (t : string) (l : list site_adv) : list string :=
  flat_map (fun d => repeat (s_id d) (count_occ string_dec (map lower (names d)) t)) l.

(** ** Texts *)
Definition month_name (m : N) : string :=
  match m with
  | 1%N => "January" | 2%N => "February" | 3%N => "March" | 4%N => "April" | 5%N => "May" | 6%N => "June"
  | 7%N => "July" | 8%N => "August" | 9%N => "September" | 10%N => "October" | 11%N => "November" | _ => "December"
  end.
(** The heading of an advisory: its id, then what kind of problem which package has. *)
Inductive titled (a : full_advisory) : string -> Prop :=
| t_notice : m_informational (f_meta a) = Some INotice -> titled a (id_string (m_id (f_meta a)) ++ ": Security notice about " ++ m_package (f_meta a))
| t_unmaintained : m_informational (f_meta a) = Some IUnmaintained -> titled a (id_string (m_id (f_meta a)) ++ ": " ++ m_package (f_meta a) ++ " is unmaintained")
| t_unsound : m_informational (f_meta a) = Some IUnsound -> titled a (id_string (m_id (f_meta a)) ++ ": Unsoundness in " ++ m_package (f_meta a))
| t_other s : m_informational (f_meta a) = Some (IOther s) -> titled a (id_string (m_id (f_meta a)) ++ ": " ++ m_package (f_meta a) ++ " is " ++ s)
| t_malicious : m_informational (f_meta a) = None -> In Malicious (m_categories (f_meta a)) ->
    titled a (id_string (m_id (f_meta a)) ++ ": " ++ m_package (f_meta a) ++ " contained malicious code")
| t_vulnerability : m_informational (f_meta a) = None -> ~ In Malicious (m_categories (f_meta a)) ->
    titled a (id_string (m_id (f_meta a)) ++ ": Vulnerability in " ++ m_package (f_meta a)).
(** The bytes of one character: an ASCII byte, or a first byte from 192 up and continuation bytes (128 to 191). *)
Fixpoint continuation (s : string) : Prop :=
  match s with EmptyString => True | String c r => (128 <= N_of_ascii c < 192)%N /\ continuation r end.
Definition character (s : string) : Prop :=
  match s with
  | EmptyString => False
  | String c r => (N_of_ascii c < 128)%N /\ r = "" \/ (192 <= N_of_ascii c)%N /\ continuation r
  end.
(** Letters, digits, dashes and underscores stay; any other character becomes a dash. *)
Definition plain : string := "0123456789ABCDEFGHIJKLMNOPQRSTUVWXYZabcdefghijklmnopqrstuvwxyz-_".
Definition plain_char (s t : string) : Prop :=
  (exists c, s = String c "" /\ In c (list_ascii_of_string plain)) /\ t = s \/
  ~ (exists c, s = String c "" /\ In c (list_ascii_of_string plain)) /\ t = "-".
