(** What an advisory's front matter says: a reading of TOML tables as sets of entries, in which neither the order of the
    entries nor entries with other keys play a role. *)
From Coq Require Import List NArith Ascii String Bool Arith Sorting.Sorted.
From Verif Require Import Base StrLib SemverModel OsvModel IdModel PkgModel DbModel UrlModel CvssText ScanModel PartsModel AdvModel PartsSpec.
Import ListNotations.
Local Open Scope string_scope.

(** TOML: no table has two entries with the same key, at any depth. *)
Inductive one_each : tval -> Prop :=
| oe_str s : one_each (TStr s)
| oe_bool b : one_each (TBool b)
| oe_other : one_each TOther
| oe_arr l : (forall v, In v l -> one_each v) -> one_each (TArr l)
| oe_tab t : NoDup (map fst t) -> (forall k v, In (k, v) t -> one_each v) -> one_each (TTab t).

(** A value that is a text read in a certain way, or an array of such texts. *)
Definition text {A} (P : string -> A -> Prop) (v : tval) (a : A) : Prop := exists s, v = TStr s /\ P s a.
Definition texts {A} (P : string -> A -> Prop) (v : tval) (l : list A) : Prop := exists ss, v = TArr (map TStr ss) /\ Forall2 P ss l.
Definition flag (v : tval) (b : bool) : Prop := v = TBool b.
Definition is (s a : string) : Prop := a = s.

(** An entry that must be there, may be there, or counts as [d] when it is not there. *)
Definition lacks (t : ttable) (k : string) : Prop := forall v, ~ In (k, v) t.
Definition required {A} (t : ttable) (k : string) (R : tval -> A -> Prop) (a : A) : Prop := exists v, In (k, v) t /\ R v a.
Definition optional {A} (t : ttable) (k : string) (R : tval -> A -> Prop) (o : option A) : Prop :=
  match o with Some a => exists v, In (k, v) t /\ R v a | None => lacks t k end.
Definition defaulted {A} (t : ttable) (k : string) (R : tval -> A -> Prop) (d a : A) : Prop :=
  (exists v, In (k, v) t /\ R v a) \/ (lacks t k /\ a = d).

(** The names of collections and licences. *)
Definition collection_name (s : string) (c : collection) : Prop :=
  (s = "crates" /\ c = Crates) \/ (s = "rust" /\ c = RustColl).
Definition license_named (s : string) (l : license) : Prop :=
  match l with CcZero10 => s = "CC0-1.0" | CcBy40 => s = "CC-BY-4.0" | LicOther o => s = o /\ o <> "CC0-1.0" /\ o <> "CC-BY-4.0" end.
Definition category_named (s : string) (c : category) : Prop :=
  match c with
  | CodeExecution => s = "code-execution" | CryptoFailure => s = "crypto-failure"
  | DenialOfService => s = "denial-of-service" | FileDisclosure => s = "file-disclosure"
  | FormatInjection => s = "format-injection" | Malicious => s = "malicious"
  | MemoryCorruption => s = "memory-corruption" | MemoryExposure => s = "memory-exposure"
  | PrivilegeEscalation => s = "privilege-escalation" | ThreadSafety => s = "thread-safety"
  | CatOther o => s = o /\ ~ In o ["code-execution"; "crypto-failure"; "denial-of-service"; "file-disclosure"; "format-injection";
      "malicious"; "memory-corruption"; "memory-exposure"; "privilege-escalation"; "thread-safety"]
  end.
Definition informational_named (s : string) (i : informational) : Prop :=
  match i with
  | INotice => s = "notice" | IUnmaintained => s = "unmaintained" | IUnsound => s = "unsound"
  | IOther o => s = o /\ ~ In o ["notice"; "unmaintained"; "unsound"]
  end.

Section Says.
  Context (x : externals).
  (** The grammars of ids, dates, URLs, requirements, scores and sources are those of the respective properties (C12, C15,
      C34, C38-C46) and of the external parsers. *)
  Definition an_id (s : string) (i : adv_id) : Prop := id_from_str s = Ok i.
  Definition a_day (s d : string) : Prop := date_from_str (x_civil x) s = Ok d.
  Definition a_url (s : string) (u : url) : Prop := url_parse (x_norm x) s = Some u.
  Definition a_req (s : string) (r : version_req) : Prop := x_req x s = Some r.
  Definition a_score (s : string) (c : cvss) : Prop := cvss_parse s = Ok c.
  Definition a_source (s : string) (i : source_id) : Prop := from_url (x_norm x) s = Ok i.

  (** The [advisory] table but for the title and description. *)
  Record says_fields (t : ttable) (m : metadata) : Prop := {
    sf_id : required t "id" (text an_id) (m_id m);
    sf_package : required t "package" (text is) (m_package m);
    sf_date : required t "date" (text a_day) (m_date m);
    sf_aliases : defaulted t "aliases" (texts an_id) [] (m_aliases m);
    sf_related : defaulted t "related" (texts an_id) [] (m_related m);
    sf_collection : optional t "collection" (text collection_name) (m_collection m);
    sf_categories : defaulted t "categories" (texts category_named) [] (m_categories m);
    sf_keywords : defaulted t "keywords" (texts is) [] (m_keywords m);
    sf_cvss : optional t "cvss" (text a_score) (m_cvss m);
    sf_informational : optional t "informational" (text informational_named) (m_informational m);
    sf_references : defaulted t "references" (texts a_url) [] (m_references m);
    sf_source : optional t "source" (text a_source) (m_source m);
    sf_url : optional t "url" (text a_url) (m_url m);
    sf_withdrawn : optional t "withdrawn" (text a_day) (m_withdrawn m);
    sf_license : defaulted t "license" (text license_named) CcZero10 (m_license m);
    sf_expect_deleted : defaulted t "expect-deleted" flag false (m_expect_deleted m) }.

  (** [functions]: one entry for each path, with its requirements, in the order of paths. *)
  Definition path_before (a b : list string) : Prop := list_cmp str_cmp a b = Lt.
  Definition says_functions (v : tval) (fs : list (list string * list version_req)) : Prop :=
    exists ft, v = TTab ft /\
      (forall k v', In (k, v') ft -> exists p rs, path_from_str k = Ok p /\ texts a_req v' rs) /\
      (forall p rs, In (p, rs) fs <-> exists k v', In (k, v') ft /\ path_from_str k = Ok p /\ texts a_req v' rs) /\
      StronglySorted path_before (map fst fs).
  Definition says_affected (v : tval) (a : affected) : Prop :=
    exists t, v = TTab t /\ defaulted t "arch" (texts is) [] (af_arch a) /\ defaulted t "os" (texts is) [] (af_os a) /\
      defaulted t "functions" says_functions [] (af_functions a).
  (** [versions]: the safe requirements as listed, [patched] being obligatory, and acceptable together (C01-C11). *)
  Definition says_versions (v : tval) (vs : versions) : Prop :=
    exists t, v = TTab t /\ required t "patched" (texts a_req) (patched vs) /\
      defaulted t "unaffected" (texts a_req) [] (unaffected vs) /\
      exists w, versions_new (x_checks x) (patched vs) (unaffected vs) = Ok w.
  Definition says_rest (t : ttable) (a : full_advisory) : Prop :=
    optional t "affected" says_affected (f_affected a) /\ required t "versions" says_versions (f_versions a).
  (** The whole document. *)
  Definition says (t : ttable) (a : full_advisory) : Prop :=
    (exists mt, In ("advisory", TTab mt) t /\ says_fields mt (f_meta a) /\
       defaulted mt "title" (text is) "" (m_title (f_meta a)) /\ defaulted mt "description" (text is) "" (m_description (f_meta a))) /\
    says_rest t a.
  (** An advisory file: the document in the front matter says everything but the title and description, which it leaves
      out or empty and which the Markdown gives. *)
  Definition file_says (t : ttable) (title description : string) (a : full_advisory) : Prop :=
    (exists mt, In ("advisory", TTab mt) t /\ says_fields mt (f_meta a) /\
       defaulted mt "title" (text is) "" "" /\ defaulted mt "description" (text is) "" "") /\
    m_title (f_meta a) = title /\ m_description (f_meta a) = description /\ says_rest t a.
End Says.

(** Two tables with the same entries for the keys [ks]. *)
Definition same_on (ks : list string) (t t' : ttable) : Prop := forall k v, In k ks -> (In (k, v) t <-> In (k, v) t').
Definition metadata_keys : list string :=
  ["id"; "package"; "title"; "description"; "date"; "aliases"; "related"; "collection"; "categories"; "keywords"; "cvss";
   "informational"; "references"; "source"; "url"; "withdrawn"; "license"; "expect-deleted"].
(** The document in a front matter: its first table may go without the header [[advisory]]. *)
Definition document (front d : string) : Prop :=
  ((exists r, front = ("[advisory]" ++ r)%string) /\ d = front) \/
  (~ (exists r, front = ("[advisory]" ++ r)%string) /\ d = ("[advisory]" ++ newline ++ front)%string).
