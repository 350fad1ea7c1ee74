(** What the terminal report says. *)
From Coq Require Import List NArith ZArith Ascii String Bool Arith.
From Verif Require Import Base StrLib SemverModel OsvModel IdModel PkgModel DbModel VerText UrlModel CvssText CvssScoreSpec PropsScan PartsModel
  AdvModel MtimeModel LockModel LockSpec TreeModel TreeSpec LockCliModel AuditModel AuditSpec ReportJsonModel PropsSeverity SarifJsonSpec TermModel.
Import ListNotations.
Local Open Scope string_scope.

(** ** Labelled lines *)
(** Exactly one line has the label, with this content; no line has the label. *)
Definition states (ls : list printed) (label content : string) : Prop :=
  exists a b c, ls = (a ++ Attr c label content :: b)%list /\ forall c' s, ~ In (Attr c' label s) (a ++ b)%list.
Definition omits (ls : list printed) (label : string) : Prop := forall c s, ~ In (Attr c label s) ls.
Definition states_if (ls : list printed) (label : string) (content : option string) : Prop :=
  match content with Some s => states ls label s | None => omits ls label end.
Definition label_order : list string :=
  ["Crate:    "; "Version:  "; "Warning:  "; "Title:    "; "Date:     "; "ID:       "; "URL:      "; "Severity: "; "Solution: "; "Affected: "].

(** ** Advisories *)
Definition band_text (b : band) : string :=
  match b with BNone => "none" | BLow => "low" | BMedium => "medium" | BHigh => "high" | BCritical => "critical" end.
(** A score in tenths, without a zero after the point. *)
Definition short_score (n : Z) : string := if Z.eqb (n mod 10) 0 then print_int (n / 10) else score_text n.
(** The address: under CC-BY-4.0 the advisory's own, if it has one; otherwise the page of its identifier, if there is one. *)
Definition address (m : metadata) (o : option string) : Prop :=
  (m_license m = CcBy40 -> forall u, m_url m = Some u -> o = Some (url_string u)) /\
  (m_license m = CcBy40 -> m_url m = None -> o = id_url (m_id m)) /\
  (m_license m <> CcBy40 -> forall u, id_url (m_id m) = Some u -> o = Some u) /\
  (m_license m <> CcBy40 -> id_url (m_id m) = None -> o = option_map url_string (m_url m)).
Record states_advisory (ls : list printed) (m : metadata) : Prop := {
  tx_title : states ls "Title:    " (m_title m);
  tx_date : states ls "Date:     " (m_date m);
  tx_id : states ls "ID:       " (id_string (m_id m));
  tx_url : exists o, address m o /\ states_if ls "URL:      " o;
  tx_severity : match m_cvss m with
                | Some c => exists n, published_score c n /\ states ls "Severity: " (short_score n ++ " (" ++ band_text (band_in c n) ++ ")")
                | None => omits ls "Severity: "
                end }.
Record omits_advisory (ls : list printed) : Prop := {
  ox_title : omits ls "Title:    "; ox_date : omits ls "Date:     "; ox_id : omits ls "ID:       ";
  ox_url : omits ls "URL:      "; ox_severity : omits ls "Severity: " }.

(** ** Findings *)
Section Findings.
  Context (checks : bool) (print_req : version_req -> string).
  Definition alternatives (rs : list version_req) : string := String.concat " OR " (map print_req rs).
  (** The solution: the patched versions; without those, the unaffected ones that some version newer than the one in use is found
      for (C59). *)
  Definition advised (v : json_vuln) (s : string) : Prop :=
    (patched (jv_versions v) <> [] -> s = "Upgrade to " ++ alternatives (patched (jv_versions v)) ++ " (patched)") /\
    (patched (jv_versions v) = [] -> exists newer,
       (forall r, In r (unaffected (jv_versions v)) -> permits_newer checks r (p_version (jv_package v)) = Ok (newer r)) /\
       s = match filter newer (unaffected (jv_versions v)) with
           | [] => "No fixed upgrade is available!"
           | rs => "Upgrade to " ++ alternatives rs ++ " (unaffected)"
           end).
  Definition affected_of (f : finding) : option affected := match f with Vulnerable v => jv_affected v | Warned w => jw_affected w end.
  (** The affected functions of the version in use that are among the symbols of the executable. *)
  Definition functions_present (symbols : list (list string)) (f : finding) (fs : list (list string)) : Prop :=
    exists keep, fs = map fst (filter keep (match affected_of f with Some a => af_functions a | None => [] end)) /\
      forall a p reqs, affected_of f = Some a -> In (p, reqs) (af_functions a) ->
        (keep (p, reqs) = true <->
         (exists r, In r reqs /\ req_matches r (p_version (package_of f)) = true) /\ exists s, In s symbols /\ names_symbol p s).
  Record block (cf : config) (symbols : option (list (list string))) (f : finding) (ls : list printed) : Prop := {
    bk_colour : exists c, Forall (fun x => exists label s, x = Attr c label s) ls /\
      (c = Red <-> match f with Vulnerable _ => True | Warned w => jw_kind w <> WNotice /\ denies cf (jw_kind w) end);
    bk_order : exists labels, map (fun x => match x with Attr _ l _ => l | _ => "" end) ls = labels /\ subsequence labels label_order;
    bk_crate : states ls "Crate:    " (p_name (package_of f));
    bk_version : states ls "Version:  " (print_version (p_version (package_of f)));
    bk_warning : match f with Vulnerable _ => omits ls "Warning:  " | Warned w => states ls "Warning:  " (kind_text (jw_kind w)) end;
    bk_advisory : match advisory_of f with Some m => states_advisory ls m | None => omits_advisory ls end;
    bk_solution : match f with Vulnerable v => exists s, advised v s /\ states ls "Solution: " s | Warned _ => omits ls "Solution: " end;
    bk_affected : match symbols with
                  | None => omits ls "Affected: "
                  | Some ss => exists fs, functions_present ss f fs /\
                      match fs with [] => omits ls "Affected: " | _ => states ls "Affected: " (String.concat ", " (map joined fs)) end
                  end }.

  (** The tree of the packages that depend on [p], each expanded once, below a head. *)
  Definition dependents_drawn (l : lockfile) (p : package) (ls : list printed) : Prop :=
    exists c next i T all, (forall a b, In b (next a) <-> lists l b a) /\ nth_error (lk_packages l) i = Some p /\
      root_of T = i /\ shown next [] T all /\
      ls = TreeHead c :: map (fun ln => Plain (line_text false (lk_packages l) ln)) (lines [] T).
  (** The findings one after the other: block, tree, empty line; [drawn]: the packages whose tree was drawn before. *)
  Inductive reported (cf : config) (symbols : option (list (list string))) (l : lockfile) : list package -> list finding -> list printed -> list package -> Prop :=
  | rp_nil drawn : reported cf symbols l drawn [] [] drawn
  | rp_again drawn f fs ls rest last : block cf symbols f ls ->
      (exists q, In q drawn /\ names_package (dep_of_package (package_of f)) q) -> reported cf symbols l drawn fs rest last ->
      reported cf symbols l drawn (f :: fs) (ls ++ [Plain ""] ++ rest)%list last
  | rp_first drawn f fs ls tree rest last : block cf symbols f ls ->
      ~ (exists q, In q drawn /\ names_package (dep_of_package (package_of f)) q) ->
      (cf_show_tree cf = false -> tree = []) -> (cf_show_tree cf = true -> dependents_drawn l (package_of f) tree) ->
      reported cf symbols l (package_of f :: drawn) fs rest last ->
      reported cf symbols l drawn (f :: fs) (ls ++ tree ++ [Plain ""] ++ rest)%list last.
End Findings.

(** ** The last lines *)
Definition number_text (n : nat) : string := print_dec (N.of_nat n).
(** How many warnings are fatal and how many are not. *)
Definition counted (cf : config) (r : full_report) (fatal harmless : nat) : Prop :=
  exists fw hw, (forall w, In w fw -> jw_kind w <> WNotice /\ denies cf (jw_kind w)) /\
    (forall w, In w hw -> ~ (jw_kind w <> WNotice /\ denies cf (jw_kind w))) /\
    Permutation.Permutation (flat_map snd (fr_warnings r)) (fw ++ hw) /\ fatal = List.length fw /\ harmless = List.length hw.
Definition ending (path : option string) (mark : string) : string := match path with Some p => " in " ++ p | None => mark end.
Definition summary (cf : config) (r : full_report) (path : option string) (ls : list printed) : Prop :=
  exists n fatal harmless, n = List.length (fr_list r) /\ counted cf r fatal harmless /\
    ls = ((match n with
           | 0 => []
           | 1 => [StatusErr ("1 vulnerability found" ++ ending path "!")]
           | _ => [StatusErr (number_text n ++ " vulnerabilities found" ++ ending path "!")]
           end) ++
          (match fatal with
           | 0 => []
           | 1 => [StatusErr ("1 denied warning found" ++ ending path "!")]
           | _ => [StatusErr (number_text fatal ++ " denied warnings found" ++ ending path "!")]
           end) ++
          (match harmless with
           | 0 => []
           | 1 => [StatusWarn ("1 allowed warning found" ++ ending path "")]
           | _ => [StatusWarn (number_text harmless ++ " allowed warnings found" ++ ending path "")]
           end))%list.
(** The counts in the report are those of its lists. *)
Definition well_counted (r : full_report) : Prop := fr_count r = List.length (fr_list r) /\ (fr_found r = true <-> fr_list r <> []).
