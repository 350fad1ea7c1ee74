(** What `cargo audit` prints to the terminal: /repo/cargo-audit/src/presenter.rs (the JSON and SARIF formats are in ReportJsonModel and
    SarifJsonModel) and the symbols of a scanned executable, /repo/cargo-audit/src/binary_scanning.rs:10-43.
    The drawing of a label with its content, the colours' escape codes and the two streams are the terminal library's (abscissa): a
    printed thing is a constructor of [printed], in the order of the calls. *)
From Coq Require Import List NArith ZArith Ascii String Bool Arith Floats.SpecFloat.
From Verif Require Import Base StrLib SemverModel OsvModel IdModel PkgModel DbModel VerText UrlModel CvssText CvssFloat ScanModel PartsModel
  AdvModel MtimeModel OsvAdvModel LockModel TreeModel LockCliModel AuditModel SarifModel ReportJsonModel SeverityModel SarifJsonModel.
Import ListNotations.
Local Open Scope string_scope.

Inductive color := Red | Yellow.
(** A label in bold and colour with a content (presenter.rs:426-433 [print_attr]); the head of a dependency tree (463-468); a line
    ([println!], [Tree::render]); [status_err!], [status_warn!], [status_ok!]. *)
Inductive printed :=
| Attr (c : color) (label content : string)
| TreeHead (c : color)
| Plain (s : string)
| StatusErr (s : string) | StatusWarn (s : string) | StatusOk (status s : string).

(** [Display for f64]: the shortest decimal that reads back as the number.  Only the numbers next to a tenth of at most 10.0 are
    covered ([Err] otherwise; the theorems show that scores are among them): an integer is printed without a point, and of two different
    tenths below 10.0 at most one reads as the number. *)
Definition show_f64 (x : f64) : outcome string :=
  match x with
  | S754_zero s => Ok (if s then "-0" else "0")
  | S754_finite false m e =>
      let n := if Z.leb 0 e then (10 * Z.pos m * 2 ^ e)%Z else round_even (10 * Z.pos m) (2 ^ (- e)) in
      if (Z.leb n 100 && feq (fdiv (fint n) (fint 10)) x)%bool
      then Ok (if Z.eqb (n mod 10) 0 then print_int (n / 10) else print_int (n / 10) ++ "." ++ print_int (n mod 10))
      else Err
  | _ => Err
  end.

(** ** The symbols of an executable *)
(** [str::replace('-', "_")]. *)
Fixpoint underscores (s : string) : string :=
  match s with
  | EmptyString => EmptyString
  | String a r => String (if Ascii.eqb a "-" then "_"%char else a) (underscores r)
  end.
(** binary_scanning.rs:12-43 [SymbolSet::from_file].  [File::parse] gives the names of the symbols ([None]: a name that is not text) or an
    error (the text is its [Display]); [read_symbol] is demangling and parsing as a type path (crates object, rustc_demangle, syn). *)
Inductive object_file := Symbols (names : list (option string)) | Unreadable (why : string).
Definition from_file (read_symbol : string -> option type_path) (f : object_file) (ps : list package) : list (list string) + string :=
  match f with
  | Unreadable e => inr e
  | Symbols names =>
      let crate_names := map (fun p => underscores (p_name p)) ps in
      let symbols := flat_map (fun o => match o with
        | None => []
        | Some name => if existsb (fun c => contains c name) crate_names
                       then match read_symbol name with Some t => [flatten_type_path t] | None => [] end
                       else []
        end) names in
      inl (dedup (list_cmp str_cmp) (sort_list (list_cmp str_cmp) symbols))
  end.

Section Print.
  (** [checks]: overflow checks; [pow]: [powf(_, 15.0)]; [print_req]: [Display for VersionReq]. *)
  Context (checks : bool) (pow : f64 -> f64) (print_req : version_req -> string).

  (** presenter.rs:397-413: which address is shown. *)
  Definition shown_url (m : metadata) : option string :=
    match m_license m with
    | CcBy40 => match m_url m with Some u => Some (url_string u) | None => id_url (m_id m) end
    | _ => match id_url (m_id m) with Some u => Some u | None => option_map url_string (m_url m) end
    end.
  (** presenter.rs:392-422 [print_metadata]. *)
  Definition metadata_lines (c : color) (m : metadata) : outcome (list printed) :=
    let? sev := match m_cvss m with
                | None => Ok []
                | Some v =>
                    let? x := cvss_score pow v in
                    let? s := cvss_severity pow v in
                    let? t := show_f64 x in
                    Ok [Attr c "Severity: " (t ++ " (" ++ severity_str s ++ ")")]
                end in
    Ok ([Attr c "Title:    " (m_title m); Attr c "Date:     " (m_date m); Attr c "ID:       " (id_string (m_id m))]
        ++ (match shown_url m with Some u => [Attr c "URL:      " u] | None => [] end) ++ sev)%list.
  (** presenter.rs:507-513 [join_reqs]. *)
  Definition join_reqs (rs : list version_req) : string := String.concat " OR " (map print_req rs).
  (** presenter.rs:348-376, the end of [print_vulnerability]. *)
  Definition solution_text (v : json_vuln) : outcome string :=
    match patched (jv_versions v) with
    | _ :: _ => Ok ("Upgrade to " ++ join_reqs (patched (jv_versions v)) ++ " (patched)")
    | [] =>
        let? l := filter_newer checks (unaffected (jv_versions v)) (p_version (jv_package v)) in
        Ok (match l with [] => "No fixed upgrade is available!" | _ => "Upgrade to " ++ join_reqs l ++ " (unaffected)" end)
    end.
  (** presenter.rs:342-347: the package. *)
  Definition package_lines (c : color) (p : package) : list printed :=
    [Attr c "Crate:    " (p_name p); Attr c "Version:  " (print_version (p_version p))].
  (** presenter.rs:343-376 [print_vulnerability]. *)
  Definition vulnerability_lines (v : json_vuln) : outcome (list printed) :=
    let? m := metadata_lines Red (jv_advisory v) in
    let? s := solution_text v in
    Ok (package_lines Red (jv_package v) ++ m ++ [Attr Red "Solution: " s])%list.
  (** presenter.rs:379-387 [print_warning]. *)
  Definition warning_lines (c : color) (w : json_warning) : outcome (list printed) :=
    let? m := match jw_advisory w with Some m => metadata_lines c m | None => Ok [] end in
    Ok (package_lines c (jw_package w) ++ [Attr c "Warning:  " (warning_kind_str (jw_kind w))] ++ m)%list.
  (** vulnerability.rs:38-56 [affected_functions] with [unwrap_or_default]; presenter.rs:199-214 for warnings. *)
  Definition functions_hit (a : option affected) (v : version) : list (list string) :=
    match a with
    | None => []
    | Some af => map fst (filter (fun f => existsb (fun r => req_matches r v) (snd f)) (af_functions af))
    end.
  (** presenter.rs:436-450 [print_affected], with 179-184 and 195-217. *)
  Definition affected_lines (c : color) (symbols : option (list (list string))) (a : option affected) (v : version) : outcome (list printed) :=
    match symbols with
    | None => Ok []
    | Some ss =>
        match symbol_filter ss (functions_hit a v) with
        | [] => Ok []
        | fs => let? ts := omap path_string fs in Ok [Attr c "Affected: " (String.concat ", " ts)]
        end
    end.
  (** presenter.rs:453-478 [print_tree]. *)
  Definition tree_lines (cf : config) (c : color) (t : tree) (p : package) (d : displayed) : outcome (list printed * displayed) :=
    if dep_mem (dep_of_package p) d then Ok ([], d)
    else
      let d' := dep_of_package p :: d in
      if negb (cf_show_tree cf) then Ok ([], d')
      else match node_get (dep_of_package p) (t_nodes t) with
           | None => Panic
           | Some n => match render t n Incoming with
                       | Some ls => Ok (TreeHead c :: map (fun ln => Plain (line_text false (t_packages t) ln)) ls, d')
                       | None => Panic
                       end
           end.
  (** presenter.rs:175-188. *)
  Fixpoint vulnerabilities_text (cf : config) (t : tree) (ss : option (list (list string))) (vs : list json_vuln) (d : displayed)
    : outcome (list printed * displayed) :=
    match vs with
    | [] => Ok ([], d)
    | v :: r =>
        let? a := vulnerability_lines v in
        let? f := affected_lines Red ss (jv_affected v) (p_version (jv_package v)) in
        let? x := tree_lines cf Red t (jv_package v) d in
        let? y := vulnerabilities_text cf t ss r (snd x) in
        Ok (a ++ f ++ fst x ++ [Plain ""] ++ fst y, snd y)%list
    end.
  (** presenter.rs:388-390 [warning_color]. *)
  Definition warning_color (denied : bool) : color := if denied then Red else Yellow.
  (** presenter.rs:190-222. *)
  Fixpoint warnings_text (cf : config) (t : tree) (ss : option (list (list string))) (ws : list json_warning) (d : displayed)
    : outcome (list printed * displayed) :=
    match ws with
    | [] => Ok ([], d)
    | w :: r =>
        let c := warning_color (kind_mem (jw_kind w) (denied_kinds cf)) in
        let? a := warning_lines c w in
        let? f := affected_lines c ss (jw_affected w) (p_version (jw_package w)) in
        let? x := tree_lines cf c t (jw_package w) d in
        let? y := warnings_text cf t ss r (snd x) in
        Ok (a ++ f ++ fst x ++ [Plain ""] ++ fst y, snd y)%list
    end.
  (** presenter.rs:328-340 [count_warnings]. *)
  Definition count_denied (cf : config) (m : list (warning_kind * list json_warning)) : nat * nat :=
    fold_left (fun n kw => if kind_mem (fst kw) (denied_kinds cf)
                           then (fst n + List.length (snd kw), snd n) else (fst n, snd n + List.length (snd kw)))
      m (0, 0).
  (** presenter.rs:109-111 [warning_word]. *)
  Definition warning_word (n : nat) : string := if negb (Nat.eqb n 1) then "warnings" else "warning".
  Definition count_text (n : nat) : string := print_dec (N.of_nat n).
  Definition in_path (path : option string) (mark : string) : string := match path with Some p => " in " ++ p | None => mark end.
  (** presenter.rs:224-275. *)
  Definition summary_text (cf : config) (r : full_report) (path : option string) : list printed :=
    let n := count_denied cf (fr_warnings r) in
    ((if fr_found r
      then [StatusErr (if Nat.eqb (fr_count r) 1 then "1 vulnerability found" ++ in_path path "!"
                       else count_text (fr_count r) ++ " vulnerabilities found" ++ in_path path "!")]
      else [])
     ++ (if Nat.ltb 0 (fst n) || Nat.ltb 0 (snd n)
         then (if Nat.ltb 0 (fst n) then [StatusErr (count_text (fst n) ++ " denied " ++ warning_word (fst n) ++ " found" ++ in_path path "!")] else [])
              ++ (if Nat.ltb 0 (snd n) then [StatusWarn (count_text (snd n) ++ " allowed " ++ warning_word (snd n) ++ " found" ++ in_path path "")] else [])
         else []))%list.
  (** presenter.rs:146-170. *)
  Definition symbols_of (read_symbol : string -> option type_path) (binary : option object_file) (r : full_report)
    : list printed * option (list (list string)) :=
    match binary with
    | None => ([], None)
    | Some f =>
        match from_file read_symbol f (map jv_package (fr_list r) ++ map jw_package (flat_map snd (fr_warnings r)))%list with
        | inl ss => ([], Some ss)
        | inr e => ([StatusWarn ("Failed to extract symbols from binary for affected-function analysis: " ++ e)], None)
        end
    end.
  (** presenter.rs:114-276 [print_report], the terminal format. *)
  Definition print_terminal (read_symbol : string -> option type_path) (binary : option object_file) (cf : config) (r : full_report)
    (l : lockfile) (path : option string) (d : displayed) : outcome (list printed * displayed) :=
    match tree_new l with
    | Err | Panic => Panic
    | Ok t =>
        let (notice, ss) := symbols_of read_symbol binary r in
        let? x := vulnerabilities_text cf t ss (fr_list r) d in
        let? y := warnings_text cf t ss (flat_map snd (fr_warnings r)) (snd x) in
        Ok (notice ++ fst x ++ fst y ++ summary_text cf r path, snd y)%list
    end.
  (** presenter.rs:279-300 [print_self_report]. *)
  Definition self_text (cf : config) (advs : list metadata) : outcome (list printed) :=
    match advs with
    | [] => Ok []
    | _ =>
        let denied := existsb (deny_eqb DWarnings) (cf_deny cf) in
        let msg := "This copy of cargo-audit has known advisories! Upgrade cargo-audit to the latest version: cargo install --force cargo-audit" in
        let? ls := omap (metadata_lines (warning_color denied)) advs in
        Ok ([if denied then StatusErr msg else StatusWarn msg] ++ List.concat ls ++ [Plain ""])%list
    end.
  (** config.rs:164-166 [is_quiet]. *)
  Definition is_quiet (cf : config) : bool := cf_quiet cf || match cf_format cf with FTerminal => false | _ => true end.
  (** presenter.rs:71-80 [before_report]. *)
  Definition before_report (cf : config) (path : string) (l : lockfile) : list printed :=
    if negb (is_quiet cf)
    then [StatusOk "Scanning" (path ++ " for vulnerabilities (" ++ count_text (List.length (lk_packages l)) ++ " crate dependencies)")]
    else [].
End Print.
