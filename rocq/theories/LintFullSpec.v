(** What the advisory linter reports, finding by finding, from the loaded advisory and the document. *)
From Coq Require Import List NArith Ascii String Bool.
From Verif Require Import Base StrLib IdModel IdSpec DbModel PlatData AdvModel LintModel LintSpec.
Import ListNotations.
Local Open Scope string_scope.
Local Infix "++" := String.append (right associativity, at level 60).

(** The kinds of findings: about a key, about a value of a field, about the form of the document. *)
Definition bad_key (section : option string) (k : string) : lint_error := mkLint (InvalidKey k) section None.
Definition bad_value (section field message : string) : lint_error := mkLint (InvalidValue field) (Some section) (Some message).
Definition bad_form (section message : string) : lint_error := mkLint Malformed (Some section) (Some message).

(** One key stands before another in a table. *)
Definition before (k1 k2 : string) (t : ttable) : Prop := exists a v b w c, t = (a ++ (k1, v) :: b ++ (k2, w) :: c)%list.
(** The id has a year that is compared with that of the date. *)
Definition compared_year (i : adv_id) (y : N) : Prop := id_year i = Some y /\ id_kind_of i <> KCve /\ id_kind_of i <> KOther.

Section Reports.
  Context (adv : full_advisory) (draft : option bool).
  Let m := f_meta adv.

  (** Findings about the table [advisory]. *)
  Inductive reports_metadata (t : ttable) : lint_error -> Prop :=
  | r_draft : forall d, has_key "id" t -> draft = Some d -> (d = true <-> id_string (m_id m) <> "RUSTSEC-0000-0000") ->
      reports_metadata t (bad_value "advisory" "id" "advisory ID draft status does not match file name")
  | r_kind : has_key "id" t -> id_kind_of (m_id m) = KOther -> reports_metadata t (bad_value "advisory" "id" "unknown advisory ID type")
  | r_id_year : forall y1 y2, before "date" "id" t -> compared_year (m_id m) y1 -> date_year (m_date m) = Ok y2 -> y1 <> y2 ->
      reports_metadata t (bad_value "advisory" "id" "year in advisory ID does not match date")
  | r_date_year : forall y1 y2, before "id" "date" t -> compared_year (m_id m) y1 -> date_year (m_date m) = Ok y2 -> y1 <> y2 ->
      reports_metadata t (bad_value "advisory" "date" "year in advisory ID does not match date")
  | r_category : forall s, has_key "categories" t -> In (CatOther s) (m_categories m) ->
      reports_metadata t (bad_value "advisory" "category" "unknown category")
  | r_collection : has_key "collection" t ->
      reports_metadata t (bad_form "advisory" "collection shouldn't be explicit; inferred by location")
  | r_informational : forall s, has_key "informational" t -> m_informational m = Some (IOther s) ->
      reports_metadata t (bad_value "advisory" "informational" "unknown informational advisory type")
  | r_url : forall u, In ("url", TStr u) t -> ~ has_prefix "https://" u ->
      reports_metadata t (bad_value "advisory" "url" "URL must start with https://")
  | r_yanked : has_key "yanked" t -> m_withdrawn m = None ->
      reports_metadata t (bad_form "metadata" "field `yanked` is deprecated, use `withdrawn` field instead")
  | r_license : forall l, In ("license", TStr l) t -> ~ In l LICENSES -> reports_metadata t (bad_value "advisory" "license" "unknown license")
  | r_key : forall k, has_key k t -> ~ In k ("collection" :: ADVISORY_KEYS) -> reports_metadata t (bad_key (Some "advisory") k).

  (** Findings about the table [affected]. *)
  Inductive reports_affected (t : ttable) : lint_error -> Prop :=
  | r_function : forall af s p rs, has_key "functions" t -> f_affected adv = Some af -> In (s :: p, rs) (af_functions af) ->
      s <> path_name (m_package m) -> reports_affected t (bad_value "affected" "functions" "function path must start with crate name")
  | r_arch : forall af a, has_key "arch" t -> f_affected adv = Some af -> In a (af_arch af) -> (forall x, arch_str x <> a) ->
      reports_affected t (bad_value "affected" "arch" "unknown architecture")
  | r_os : forall af, has_key "os" t -> f_affected adv = Some af -> In "" (af_os af) ->
      reports_affected t (bad_value "affected" "os" "unknown OS")
  | r_affected_key : forall k, has_key k t -> ~ In k ["functions"; "arch"; "os"] -> reports_affected t (bad_key (Some "affected") k).

  (** Findings about a document. *)
  Inductive reports (doc : ttable) : lint_error -> Prop :=
  | r_section : forall k, has_key k doc -> ~ In k SECTIONS -> reports doc (bad_key None k)
  | r_no_table : forall v, In ("advisory", v) doc -> (forall t, v <> TTab t) -> reports doc (bad_form "advisory" "expected table")
  | r_metadata : forall t e, In ("advisory", TTab t) doc -> reports_metadata t e -> reports doc e
  | r_versions_key : forall t k, In ("versions", TTab t) doc -> has_key k t -> ~ In k ["patched"; "unaffected"] ->
      reports doc (bad_key (Some "versions") k)
  | r_affected : forall t e, In ("affected", TTab t) doc -> reports_affected t e -> reports doc e.

  (** What makes the linter crash. *)
  Inductive upsets (doc : ttable) : Prop :=
  | u_informational : forall t, In ("advisory", TTab t) doc -> has_key "informational" t -> m_informational m = None -> upsets doc
  | u_date : forall t, In ("advisory", TTab t) doc -> has_key "date" t -> (forall y, date_year (m_date m) <> Ok y) -> upsets doc
  | u_affected : forall t k, In ("affected", TTab t) doc -> has_key k t -> In k ["functions"; "arch"; "os"] -> f_affected adv = None -> upsets doc
  | u_path : forall t af rs, In ("affected", TTab t) doc -> has_key "functions" t -> f_affected adv = Some af ->
      In ([], rs) (af_functions af) -> upsets doc.
End Reports.
