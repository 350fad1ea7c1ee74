(** Model of the advisory database, queries and reports:
    /repo/rustsec/src/database.rs, database/{entries,index,query}.rs, report.rs, vulnerability.rs,
    warning.rs, advisory.rs, advisory/{metadata,informational,affected}.rs, collection.rs. *)
From Coq Require Import List NArith Ascii String Bool Arith.
From Verif Require Import Base SemverModel OsvModel StrLib IdModel PkgModel.
Import ListNotations.
Local Open Scope string_scope.

(** collection.rs:11-18 [enum Collection], 27-32 [as_str]. *)
Inductive collection := Crates | RustColl.
Definition collection_eqb (a b : collection) : bool :=
  match a, b with Crates, Crates => true | RustColl, RustColl => true | _, _ => false end.
Definition collection_str (c : collection) : string := match c with Crates => "crates" | RustColl => "rust" end.

(** cvss/src/severity.rs:25-41 [enum Severity] with its derived order. *)
Inductive severity := SevNone | SevLow | SevMedium | SevHigh | SevCritical.
Definition severity_rank (s : severity) : nat :=
  match s with SevNone => 0 | SevLow => 1 | SevMedium => 2 | SevHigh => 3 | SevCritical => 4 end.
Definition severity_ltb (a b : severity) : bool := Nat.ltb (severity_rank a) (severity_rank b).

(** advisory/informational.rs:11-30 [enum Informational]. *)
Inductive informational := INotice | IUnmaintained | IUnsound | IOther (s : string).
Definition informational_eqb (a b : informational) : bool :=
  match a, b with
  | INotice, INotice => true
  | IUnmaintained, IUnmaintained => true
  | IUnsound, IUnsound => true
  | IOther x, IOther y => String.eqb x y
  | _, _ => false
  end.
(** advisory/informational.rs:83-90 [FromStr for Informational]. *)
Definition informational_from_str (s : string) : informational :=
  if String.eqb s "notice" then INotice
  else if String.eqb s "unmaintained" then IUnmaintained
  else if String.eqb s "unsound" then IUnsound
  else IOther s.
(** advisory/informational.rs:34-41 [as_str]. *)
Definition informational_str (i : informational) : string :=
  match i with INotice => "notice" | IUnmaintained => "unmaintained" | IUnsound => "unsound" | IOther s => s end.

(** warning.rs:67-85 [enum WarningKind]. *)
Inductive warning_kind := WNotice | WUnmaintained | WUnsound | WYanked.
Definition warning_kind_eqb (a b : warning_kind) : bool :=
  match a, b with
  | WNotice, WNotice => true | WUnmaintained, WUnmaintained => true
  | WUnsound, WUnsound => true | WYanked, WYanked => true | _, _ => false
  end.
(** advisory/informational.rs:64-71 [warning_kind]. *)
Definition warning_kind_of (i : informational) : option warning_kind :=
  match i with
  | INotice => Some WNotice | IUnmaintained => Some WUnmaintained | IUnsound => Some WUnsound
  | IOther _ => None
  end.

(** advisory/affected.rs:19-36 [struct Affected]; function paths as lists of segments. *)
Record affected := mkAffected {
  af_arch : list string; af_os : list string; af_functions : list (list string * list version_req) }.

(** advisory.rs:38-49 [struct Advisory] with advisory/metadata.rs:15-98 [struct Metadata] flattened.
    [a_severity] is [cvss.map(severity)] (advisory.rs:94-96; the CVSS crate is modelled separately).
    Title, description, aliases, categories, keywords, references, url, license and expect-deleted
    play no role in queries and reports and are represented by the opaque field [a_text]. *)
Record advisory := mkAdvisory {
  a_id : adv_id; a_package : string; a_date : string; a_collection : option collection;
  a_severity : option severity; a_informational : option informational;
  a_source : option source_id; a_withdrawn : option string; a_text : string;
  a_affected : option affected; a_versions : versions }.

(** Derived equality of [Id] (id.rs:12). *)
Definition id_kind_eqb (a b : id_kind) : bool :=
  match a, b with
  | KRustSec, KRustSec => true | KCve, KCve => true | KGhsa, KGhsa => true
  | KTalos, KTalos => true | KOther, KOther => true | _, _ => false
  end.
Definition opt_eqb {A} (f : A -> A -> bool) (a b : option A) : bool :=
  match a, b with Some x, Some y => f x y | None, None => true | _, _ => false end.
Definition id_eqb (a b : adv_id) : bool :=
  id_kind_eqb (id_kind_of a) (id_kind_of b) && opt_eqb N.eqb (id_year a) (id_year b)
  && String.eqb (id_string a) (id_string b).

(** ** Files.  The advisory directory as the loader sees it (any order of [read_dir]).
    [f_parsed] is the result of [Advisory::load_file] (advisory.rs:53-71), i.e. of reading and parsing
    the file; file names are valid UTF-8. *)
Record fs_file := mkFile { f_name : string; f_parsed : outcome advisory }.
(** A directory entry of a collection; [None]: not a directory. *)
Record fs_entry := mkEntry { e_name : string; e_files : option (list fs_file) }.
(** [None]: [read_dir] of the collection fails. *)
Record fs_tree := mkTree { t_crates : option (list fs_entry); t_rust : option (list fs_entry) }.

(** A file with the names of its directory and its directory's directory. *)
Record placed := mkPlaced { pl_coll : string; pl_dir : string; pl_file : fs_file }.

(** database.rs:57-71: skip non-directories and dot files. *)
Definition entry_files (coll : string) (e : fs_entry) : list placed :=
  match e_files e with
  | None => []
  | Some fs => map (mkPlaced coll (e_name e)) (filter (fun f => negb (starts_with "." (f_name f))) fs)
  end.
(** database.rs:48-72. *)
Definition advisory_paths (t : fs_tree) : outcome (list placed) :=
  match t_crates t with
  | None => Err
  | Some es =>
      Ok (flat_map (entry_files "crates") es
          ++ match t_rust t with None => [] | Some rs => flat_map (entry_files "rust") rs end)%list
  end.

(** [Path::extension() == Some("md")]. *)
Definition has_md_extension (name : string) : bool :=
  match strip_suffix ".md" name with Some stem => negb (String.eqb stem "") | None => false end.

(** advisory.rs:104-109 [is_draft]. *)
Definition is_draft_name (name : string) : bool := starts_with "RUSTSEC-0000-0000." name.

Definition with_collection (a : advisory) (c : collection) : advisory :=
  mkAdvisory (a_id a) (a_package a) (a_date a) (Some c) (a_severity a) (a_informational a)
    (a_source a) (a_withdrawn a) (a_text a) (a_affected a) (a_versions a).

(** database/entries.rs:22-29 [struct Entries]: the [BTreeMap] as an association list. *)
Record entries := mkEntries { en_index : list (adv_id * nat); en_advisories : list advisory }.
Definition entries_new : entries := mkEntries [] [].
Fixpoint index_get (i : adv_id) (l : list (adv_id * nat)) : option nat :=
  match l with
  | [] => None
  | (k, s) :: r => if id_eqb k i then Some s else index_get i r
  end.

(** database/entries.rs:39-137 [Entries::load_file]. *)
Definition load_file (en : entries) (p : placed) : outcome (entries * option nat) :=
  let? adv := f_parsed (pl_file p) in
  let name := f_name (pl_file p) in
  if negb (has_md_extension name) then Err
  else if negb (String.eqb name (id_string (a_id adv) ++ ".md")) && negb (is_draft_name name) then Err
  else if negb (String.eqb (pl_dir p) (a_package adv)) then Err
  else
    let? coll := (if String.eqb (pl_coll p) (collection_str Crates) then Ok Crates
                  else if String.eqb (pl_coll p) (collection_str RustColl) then Ok RustColl
                  else Err) in
    let? adv := match a_collection adv with
                | Some c => if collection_eqb c coll then Ok adv else Err
                | None => Ok (with_collection adv coll)
                end in
    if is_placeholder (a_id adv) then Ok (en, None)
    else
      let slot := List.length (en_advisories en) in
      let advs := (en_advisories en ++ [adv])%list in
      match index_get (a_id adv) (en_index en) with
      | Some _ => Err
      | None => Ok (mkEntries ((a_id adv, slot) :: en_index en) advs, Some slot)
      end.

(** database/index.rs:10 [Map<Name, Set<Slot>>], 19-26 [insert], 29-31 [get].
    A [BTreeSet<Slot>] is an increasing list. *)
Definition pkg_index := list (string * list nat).
Fixpoint set_insert (x : nat) (l : list nat) : list nat :=
  match l with
  | [] => [x]
  | y :: r => if Nat.ltb x y then x :: y :: r else if Nat.eqb x y then y :: r else y :: set_insert x r
  end.
Fixpoint pidx_insert (k : string) (s : nat) (ix : pkg_index) : pkg_index :=
  match ix with
  | [] => [(k, [s])]
  | (k', ss) :: r => if String.eqb k' k then (k', set_insert s ss) :: r else (k', ss) :: pidx_insert k s r
  end.
Fixpoint pidx_get (k : string) (ix : pkg_index) : option (list nat) :=
  match ix with
  | [] => None
  | (k', ss) :: r => if String.eqb k' k then Some ss else pidx_get k r
  end.

(** database.rs:28-41 [struct Database] (without the commit). *)
Record database := mkDb { db_entries : entries; db_rust : pkg_index; db_crates : pkg_index }.

(** database.rs:78-90, one iteration. *)
Definition open_step (db : database) (p : placed) : outcome database :=
  let? r := load_file (db_entries db) p in
  match r with
  | (en, None) => Ok (mkDb en (db_rust db) (db_crates db))
  | (en, Some slot) =>
      match nth_error (en_advisories en) slot with
      | None => Panic
      | Some a =>
          match a_collection a with
          | None => Panic
          | Some Crates => Ok (mkDb en (db_rust db) (pidx_insert (a_package a) slot (db_crates db)))
          | Some RustColl => Ok (mkDb en (pidx_insert (a_package a) slot (db_rust db)) (db_crates db))
          end
      end
  end.
Fixpoint open_loop (db : database) (ps : list placed) : outcome database :=
  match ps with
  | [] => Ok db
  | p :: r => let? db' := open_step db p in open_loop db' r
  end.
(** database.rs:45-99 [Database::open]. *)
Definition db_open (t : fs_tree) : outcome database :=
  let? ps := advisory_paths t in open_loop (mkDb entries_new [] []) ps.

(** database.rs:116-118 [get], entries.rs:140-142 [find_by_id]. *)
Definition db_get (db : database) (i : adv_id) : option advisory :=
  match index_get i (en_index (db_entries db)) with
  | None => None
  | Some s => nth_error (en_advisories (db_entries db)) s
  end.
(** database.rs:175-177 [iter]. *)
Definition db_iter (db : database) : list advisory := en_advisories (db_entries db).

(** ** Queries: database/query.rs:13-45 [struct Query]. *)
Record query := mkQuery {
  q_collection : option collection; q_name : option string; q_version : option version;
  q_source : option source_id; q_severity : option severity; q_arch : list string; q_os : list string;
  q_year : option N; q_withdrawn : option bool; q_informational : option bool }.

(** query.rs:57-70 [new], 77-82 [crate_scope]. *)
Definition query_new : query := mkQuery None None None None None [] [] None None None.
Definition crate_scope : query := mkQuery (Some Crates) None None None None [] [] None (Some false) (Some false).
(** query.rs:92-97 [package]. *)
Definition query_package (q : query) (p : package) : query :=
  mkQuery (q_collection q) (Some (p_name p)) (Some (p_version p)) (p_source p) (q_severity q)
    (q_arch q) (q_os q) (q_year q) (q_withdrawn q) (q_informational q).

Definition str_mem (s : string) (l : list string) : bool := existsb (String.eqb s) l.

(** [advisory.versions.is_vulnerable(v)] (advisory/versions.rs:22-29, modelled in OsvModel).  The
    [Versions] of an advisory exist only if construction succeeded, and then this is [Ok] (proved:
    [OsvProofs4.is_vulnerable_correct]); the other outcomes are unreachable and mapped to [false]. *)
Definition vulnerable_at (checks : bool) (a : advisory) (v : version) : bool :=
  match is_vulnerable checks (a_versions a) v with Ok b => b | _ => false end.

(** query.rs:161-245 [Query::matches]. *)
Definition matches (checks : bool) (q : query) (a : advisory) : bool :=
  (* 162-166 *)
  match q_collection q with
  | Some c => match a_collection a with Some c' => collection_eqb c c' | None => false end
  | None => true end &&
  (* 168-172 *)
  match q_name q with Some n => String.eqb n (a_package a) | None => true end &&
  (* 174-178 *)
  match q_version q with Some v => vulnerable_at checks a v | None => true end &&
  (* 180-194 *)
  match q_source q with
  | Some s =>
      let asrc := match a_source a with Some x => x | None => default_source end in
      negb (negb (source_kind_eqb (s_kind asrc) (s_kind s)) || negb (String.eqb (s_url asrc) (s_url s)))
  | None => true end &&
  (* 196-201 *)
  match q_severity q with
  | Some t => match a_severity a with Some s => negb (severity_ltb s t) | None => true end
  | None => true end &&
  (* 203-223 *)
  match a_affected a with
  | Some af =>
      negb (negb (match af_arch af with [] => true | _ => false end)
            && negb (match q_arch q with [] => true | _ => false end)
            && negb (existsb (fun t => str_mem t (af_arch af)) (q_arch q))) &&
      negb (negb (match af_os af with [] => true | _ => false end)
            && negb (match q_os q with [] => true | _ => false end)
            && negb (existsb (fun t => str_mem t (af_os af)) (q_os q)))
  | None => true end &&
  (* 225-230 *)
  match q_year q with
  | Some y => match id_year (a_id a) with Some y' => N.eqb y y' | None => true end
  | None => true end &&
  (* 232-236 *)
  match q_withdrawn q with
  | Some w => Bool.eqb w (match a_withdrawn a with Some _ => true | None => false end)
  | None => true end &&
  (* 238-242 *)
  match q_informational q with
  | Some i => Bool.eqb i (match a_informational a with Some _ => true | None => false end)
  | None => true end.

(** database.rs:132 [self.advisories.get(slot).unwrap()] over the slots. *)
Fixpoint slots_advisories (advs : list advisory) (ss : list nat) : outcome (list advisory) :=
  match ss with
  | [] => Ok []
  | s :: r =>
      match nth_error advs s with
      | None => Panic
      | Some a => let? l := slots_advisories advs r in Ok (a :: l)
      end
  end.

(** database.rs:121-142 [Database::query]. *)
Definition db_query (checks : bool) (db : database) (q : query) : outcome (list advisory) :=
  match q_name q, q_collection q with
  | Some n, Some c =>
      match pidx_get n (match c with Crates => db_crates db | RustColl => db_rust db end) with
      | None => Ok []
      | Some ss => let? l := slots_advisories (db_iter db) ss in Ok (filter (matches checks q) l)
      end
  | _, _ => Ok (filter (matches checks q) (db_iter db))
  end.

(** vulnerability.rs:12-35: a [Vulnerability] is a copy of the advisory and of the package. *)
Record vulnerability := mkVuln { v_advisory : advisory; v_package : package }.

(** database.rs:145-167 [query_vulnerabilities]. *)
Fixpoint query_vulnerabilities (checks : bool) (db : database) (pkgs : list package) (q : query)
  : outcome (list vulnerability) :=
  match pkgs with
  | [] => Ok []
  | p :: r =>
      if match p_source p with None => true | Some s => negb (is_default_registry s) end
      then query_vulnerabilities checks db r q
      else
        let? advs := db_query checks db (query_package q p) in
        let? rest := query_vulnerabilities checks db r q in
        Ok (map (fun a => mkVuln a p) advs ++ rest)%list
  end.

(** ** Reports.  report.rs:60-75 [struct Settings]. *)
Record settings := mkSettings {
  st_arch : list string; st_os : list string; st_severity : option severity;
  st_ignore : list adv_id; st_info : list informational }.

(** report.rs:81-91 [Settings::query]. *)
Definition settings_query (s : settings) : query :=
  mkQuery (Some Crates) None None None (st_severity s) (st_arch s) (st_os s) None (Some false) (Some false).
(** query.rs:155-158 [informational]. *)
Definition with_informational (q : query) (b : bool) : query :=
  mkQuery (q_collection q) (q_name q) (q_version q) (q_source q) (q_severity q)
    (q_arch q) (q_os q) (q_year q) (q_withdrawn q) (Some b).

Definition ignored (s : settings) (a : advisory) : bool := existsb (id_eqb (a_id a)) (st_ignore s).

(** warning.rs:10-25 [struct Warning]; the advisory-derived fields as the advisory they are copied from. *)
Record warning := mkWarning { w_kind : warning_kind; w_package : package; w_advisory : option advisory }.

(** report.rs:166 [WarningInfo]: map from kind to list. *)
Definition warning_info := list (warning_kind * list warning).
Fixpoint winfo_push (w : warning) (m : warning_info) : warning_info :=
  match m with
  | [] => [(w_kind w, [w])]
  | (k, ws) :: r => if warning_kind_eqb k (w_kind w) then (k, (ws ++ [w])%list) :: r else (k, ws) :: winfo_push w r
  end.
Fixpoint winfo_get (k : warning_kind) (m : warning_info) : list warning :=
  match m with
  | [] => []
  | (k', ws) :: r => if warning_kind_eqb k' k then ws else winfo_get k r
  end.

(** report.rs:175-208, the loop body; [expect] is the [Panic] case. *)
Fixpoint warning_loop (s : settings) (vs : list vulnerability) (m : warning_info) : outcome warning_info :=
  match vs with
  | [] => Ok m
  | v :: r =>
      let a := v_advisory v in
      if ignored s a then warning_loop s r m
      else if negb (existsb (fun i => match a_informational a with
                                      | Some i' => informational_eqb i i' | None => false end) (st_info s))
      then warning_loop s r m
      else match a_informational a with
           | None => Panic
           | Some i =>
               match warning_kind_of i with
               | None => warning_loop s r m
               | Some k => warning_loop s r (winfo_push (mkWarning k (v_package v) (Some a)) m)
               end
           end
  end.
(** report.rs:169-211 [find_warnings]. *)
Definition find_warnings (checks : bool) (db : database) (pkgs : list package) (s : settings) : outcome warning_info :=
  let? vs := query_vulnerabilities checks db pkgs (with_informational (settings_query s) true) in
  warning_loop s vs [].

(** report.rs:143-152 [VulnerabilityInfo], 156-162 [new]. *)
Record vuln_info := mkVInfo { vi_found : bool; vi_count : nat; vi_list : list vulnerability }.
Definition vuln_info_new (l : list vulnerability) : vuln_info :=
  mkVInfo (negb (match l with [] => true | _ => false end)) (List.length l) l.

(** report.rs:17-34 [struct Report] (without database info); 132-138 [LockfileInfo::new]. *)
Record report := mkReport {
  r_dependency_count : nat; r_settings : settings; r_vulns : vuln_info; r_warnings : warning_info }.

(** report.rs:38-55 [Report::generate]. *)
Definition report_generate (checks : bool) (db : database) (pkgs : list package) (s : settings) : outcome report :=
  let? vs := query_vulnerabilities checks db pkgs (settings_query s) in
  let vulns := filter (fun v => negb (ignored s (v_advisory v))) vs in
  let? ws := find_warnings checks db pkgs s in
  Ok (mkReport (List.length pkgs) s (vuln_info_new vulns) ws).
