(** The generator of the web site: /repo/admin/src/web.rs, its templates (as far as links and dates go) and
    /repo/admin/src/web/static/js/search.js. *)
From Coq Require Import List NArith ZArith Ascii String Bool.
From Verif Require Import Base StrLib OsvModel IdModel PkgModel DbModel AdvModel MtimeModel OsvAdvModel.
Import ListNotations.
Local Open Scope string_scope.

(** web.rs:603-608 [struct AdvisoryData]. *)
Record site_adv := mkSite { s_adv : full_advisory; s_path : path; s_created : string; s_modified : string }.
Definition s_id (d : site_adv) : string := id_string (m_id (f_meta (s_adv d))).
Definition s_package (d : site_adv) : string := m_package (f_meta (s_adv d)).
(** collection.rs:24-29 [as_str]. *)
Definition collection_name (c : collection) : string := match c with Crates => "crates" | RustColl => "rust" end.

(** ** Dates on pages: web.rs:573-587 [friendly_date] *)
Definition is_leap (y : N) : bool := (N.eqb (N.modulo y 4) 0 && (negb (N.eqb (N.modulo y 100) 0) || N.eqb (N.modulo y 400) 0))%bool.
Definition month_days (y m : N) : N :=
  (if N.eqb m 2 then if is_leap y then 29 else 28
   else if N.eqb m 4 || N.eqb m 6 || N.eqb m 9 || N.eqb m 11 then 30 else 31)%N.
(** [NaiveDate::from_ymd] (crate chrono): panics unless the date exists; years up to 262142. *)
Definition from_ymd (y m d : N) : outcome (N * N * N) :=
  if (N.leb y 262142 && N.leb 1 m && N.leb m 12 && N.leb 1 d && N.leb d (month_days y m))%bool then Ok (y, m, d) else Panic.
Definition MONTHS : list string :=
  ["January"; "February"; "March"; "April"; "May"; "June"; "July"; "August"; "September"; "October"; "November"; "December"].
(** The format ["%B %e, %Y"]: the month's name, the day padded with a space, the year with at least four digits (and a
    sign if it has more). *)
Definition friendly_date (date : string) : outcome string :=
  let? y := date_year date in
  let? m := date_month date in
  let? d := date_day date in
  let? _ := from_ymd y m d in
  Ok (nth (N.to_nat m - 1) MONTHS "" ++ " " ++ (if N.ltb d 10 then " " else "") ++ print_dec d ++ ", "
      ++ (if N.ltb 9999 y then "+" else "") ++ pad_left 4 (print_dec y)).

(** web.rs:589-600 [safe_keyword].  It works on characters; on the bytes of UTF-8, the first byte of a character outside ASCII
    becomes the dash and the others go. *)
Definition is_alnum (c : ascii) : bool :=
  let n := N_of_ascii c in
  ((N.leb 48 n && N.leb n 57) || (N.leb 65 n && N.leb n 90) || (N.leb 97 n && N.leb n 122))%bool.
Fixpoint safe_keyword (s : string) : string :=
  match s with
  | EmptyString => ""
  | String c r =>
      let n := N_of_ascii c in
      if (N.leb 128 n && N.ltb n 192)%bool then safe_keyword r
      else String (if (is_alnum c || Ascii.eqb c "-" || Ascii.eqb c "_")%bool then c else "-"%char) (safe_keyword r)
  end.

(** web.rs:401-420 [title_type]. *)
Definition title_type (a : full_advisory) : string :=
  let m := f_meta a in
  let id := id_string (m_id m) in
  let package := m_package m in
  match m_informational m with
  | Some INotice => id ++ ": Security notice about " ++ package
  | Some IUnmaintained => id ++ ": " ++ package ++ " is unmaintained"
  | Some IUnsound => id ++ ": Unsoundness in " ++ package
  | Some (IOther s) => id ++ ": " ++ package ++ " is " ++ s
  | None => if existsb (fun c => match c with Malicious => true | _ => false end) (m_categories m)
            then id ++ ": " ++ package ++ " contained malicious code"
            else id ++ ": Vulnerability in " ++ package
  end.

(** ** Pages *)
(** templates/advisory-list-entry.html: one advisory of a list.  Simplified: of the rendered HTML, the date, the title and the
    advisory it is about (the rest is a function of the advisory). *)
Record entry := mkEntry { e_adv : site_adv; e_date : string; e_title : string }.
(** web.rs:79-84 [ItemsList]: name, URL, count. *)
Record item := mkItem { it_name : string; it_url : string; it_count : option N }.
(** web.rs:462-516: an entry of the feed. *)
Record feed_entry := mkFeed { fe_url : string; fe_title : string; fe_summary : string; fe_terms : list string;
  fe_published : string; fe_updated : string; fe_issued : string }.
Inductive page :=
| PgStatic                                                      (* front page, search form, contributing, assets *)
| PgAdvisory (d : site_adv) (reported issued : string) (modified : option string)
| PgListing (l : list entry)                                    (* the list of all advisories *)
| PgGroup (title : string) (l : list entry)                     (* one package, keyword or category *)
| PgIndex (title : string) (l : list item)                      (* the packages, keywords or categories *)
| PgOsv (l : list osv_advisory)                                 (* the JSON file of a package *)
| PgSearch (ids : list (string * list string)) (packages : list string)
| PgFeed (updated : string) (l : list feed_entry).

(** templates/advisory-content.html:32-48: the dates of an advisory's page. *)
Definition advisory_page (d : site_adv) : outcome page :=
  let? reported := friendly_date (m_date (f_meta (s_adv d))) in
  let? issued := friendly_date (s_created d) in
  let? modified := if String.eqb (s_created d) (s_modified d) then Ok None
                   else let? m := friendly_date (s_modified d) in Ok (Some m) in
  Ok (PgAdvisory d reported issued modified).
Definition list_entry (d : site_adv) : outcome entry :=
  let? date := friendly_date (s_created d) in Ok (mkEntry d date (title_type (s_adv d))).

(** ** Grouping *)
(** web.rs:200-214, 279-293, 326-340: push to the group of the key, or start one; also 440-442, the entry of a [HashMap]. *)
Fixpoint group_push {A} (k : string) (v : A) (gs : list (string * list A)) : list (string * list A) :=
  match gs with
  | [] => [(k, [v])]
  | (k', l) :: r => if String.eqb k' k then (k', (l ++ [v])%list) :: r else (k', l) :: group_push k v r
  end.
(** web.rs:192-199: count the package. *)
Fixpoint count_push (k : string) (items : list item) : list item :=
  match items with
  | [] => [mkItem k ("/packages/" ++ k ++ ".html") (Some 1%N)]
  | i :: r => if String.eqb (it_name i) k
              then mkItem (it_name i) (it_url i) (match it_count i with Some n => Some (n + 1)%N | None => None end) :: r
              else i :: count_push k r
  end.
(** web.rs:271-277, 318-324: note the name unless it is there. *)
Definition name_push (folder k : string) (items : list item) : list item :=
  if existsb (fun i => String.eqb (it_name i) k) items then items
  else (items ++ [mkItem k ("/" ++ folder ++ "/" ++ k ++ ".html") None])%list.
(** web.rs:255-268: the keywords of an advisory, as slugs, sorted and without repetition. *)
Definition slugs (d : site_adv) : list string :=
  dedup str_cmp (sort_list str_cmp (map safe_keyword (m_keywords (f_meta (s_adv d))))).
Definition category_names (d : site_adv) : list string := map category_name (m_categories (f_meta (s_adv d))).
(** The loops: for each advisory, for each of its keys. *)
Definition group_all (keys : site_adv -> list string) (l : list site_adv) : list (string * list site_adv) :=
  fold_left (fun gs d => fold_left (fun gs k => group_push k d gs) (keys d) gs) l [].
Definition count_all (l : list site_adv) : list item := fold_left (fun is d => count_push (s_package d) is) l [].
Definition name_all (folder : string) (keys : site_adv -> list string) (l : list site_adv) : list item :=
  fold_left (fun is d => fold_left (fun is k => name_push folder k is) (keys d) is) l [].

(** ** The search index: web.rs:422-452 [render_index].  The [HashMap] as its entries, in some order, with distinct keys. *)
(** The identifiers under which an advisory is found. *)
Definition search_keys (d : site_adv) : list string :=
  let m := f_meta (s_adv d) in map id_string (m_aliases m ++ m_related m ++ [m_id m]).
Definition set_push (k : string) (l : list string) : list string := if existsb (String.eqb k) l then l else (l ++ [k])%list.

Section Site.
  (** [lower]: [str::to_lowercase] (and JavaScript's [toLowerCase]); [escape]: [escape_str_attribute] (crate xml). *)
  Context (x : externals) (lower escape : string -> string).
  Definition search_index (l : list site_adv) : list (string * list string) :=
    fold_left (fun ids d => fold_left (fun ids k => group_push (lower k) (s_id d) ids) (search_keys d) ids) l [].
  Definition search_packages (l : list site_adv) : list string :=
    fold_left (fun ps d => set_push (lower (s_package d)) ps) l [].

  (** web.rs:86-95 [render_list_index]: the items by name in lower case. *)
  Definition sort_items (items : list item) : list item :=
    sort_list (fun a b => str_cmp (lower (it_name a)) (lower (it_name b))) items.

  (** web.rs:453-549: the feed's entries.  ["{date}T12:00:00+00:00"] is a valid time for the dates that [created] and [modified]
      hold (chrono's [unwrap]s are taken to succeed).  The content of an entry is the advisory's page. *)
  Definition feed_item (d : site_adv) : outcome feed_entry :=
    let m := f_meta (s_adv d) in
    let? p := advisory_page d in
    let? issued := friendly_date (s_created d) in
    Ok (mkFeed ("https://rustsec.org/advisories/" ++ s_id d ++ ".html") (escape (title_type (s_adv d))) (escape (m_title m))
          (map category_name (m_categories m)) (s_created d ++ "T12:00:00+00:00") (s_modified d ++ "T12:00:00+00:00") issued).
  Definition render_feed (l : list site_adv) : outcome page :=
    match l with
    | [] => Panic
    | first :: _ =>
        let? es := omap feed_item l in
        Ok (PgFeed (s_created first ++ "T12:00:00+00:00") es)
    end.

  (** The calendars: [cal] of the crate time (days to dates), [day_of] of chrono ([parse_from_str] with ["%Y-%m-%d"]: a text to
      days); [today] is [Utc::today()] in days. *)
  Context (cal : Z -> Z * N * N) (day_of : string -> option Z) (today : Z).
  (** web.rs:374-384: [take_while] and [count]. *)
  Fixpoint last_week_len (l : list site_adv) : outcome nat :=
    match l with
    | [] => Ok O
    | d :: r =>
        match day_of (s_created d) with
        | None => Panic
        | Some n => if Z.ltb (today - 8) n then let? k := last_week_len r in Ok (S k) else Ok O
        end
    end.
  Definition MIN_FEED_LEN : nat := 10.
  (** web.rs:386-395. *)
  Definition feed_len (l : list site_adv) : outcome nat :=
    let? week := last_week_len l in
    Ok (if Nat.ltb (List.length l) MIN_FEED_LEN then List.length l
        else if Nat.ltb MIN_FEED_LEN week then week else MIN_FEED_LEN).

  Context (mt : mod_times) (head : option tree).
  (** web.rs:610-631 [AdvisoryData::new]. *)
  Definition advisory_data (a : full_advisory) : outcome site_adv :=
    match m_collection (f_meta a) with
    | None => Panic
    | Some c =>
        let p := collection_name c ++ "/" ++ m_package (f_meta a) ++ "/" ++ id_string (m_id (f_meta a)) ++ ".md" in
        match git_path head p with
        | Ok g =>
            let? created := cdate_for_path cal (x_civil x) mt g in
            let? modified := mdate_for_path cal (x_civil x) mt g in
            Ok (mkSite a p created modified)
        | _ => Panic
        end
    end.
  (** web.rs:227-240: the JSON file of a package. *)
  Definition osv_of (d : site_adv) : outcome osv_advisory :=
    match git_path head (s_path d) with Ok g => from_rustsec x cal mt g (s_adv d) | _ => Panic end.

  (** Files written, in order; a later write to the same path replaces the earlier. *)
  Definition write : Type := (string * page)%type.
  (** web.rs:220-242, 299-303, 349-353: one page per group. *)
  Definition group_title (what key : string) : string := "Advisories " ++ what ++ " '" ++ key ++ "'".
  Definition group_write (folder what : string) (g : string * list site_adv) : outcome write :=
    let? es := omap list_entry (snd g) in
    Ok (folder ++ "/" ++ fst g ++ ".html", PgGroup (group_title what (fst g)) es).
  Definition package_write (g : string * list site_adv) : outcome (list write) :=
    let? h := group_write "packages" "for package" g in
    let? os := omap osv_of (snd g) in
    Ok [h; ("packages/" ++ fst g ++ ".json", PgOsv os)].

  (** web.rs:641-694 [STATIC_ASSETS]. *)
  Definition ASSETS : list string :=
    ["favicon.ico"; "favicon-16x16.png"; "favicon-32x32.png"; "css/basic.css"; "css/highlight.css"; "css/index.css"; "js/search.js";
     "img/debian-logo.svg"; "img/external-link.svg"; "img/github-logo-dark.svg"; "img/github-logo-light.svg"; "img/osv-logo-dark.svg";
     "img/osv-logo-light.svg"; "img/rustsec-logo-dark.svg"; "img/rustsec-logo-light.svg"; "img/rustsec-logo-square.svg"].

  (** web.rs:98-399 [render_advisories].  [db]: the advisories of the database, in its order.  Paths are relative to the output
      folder.  Simplified: paths are texts (names of packages, ids and categories are taken to contain no slash, so that every
      file's directory is one the program creates); writing succeeds; the repository and its CONTRIBUTING.md are readable. *)
  Definition newest_first (l : list site_adv) : list site_adv := sort_list (fun a b => str_cmp (s_created b) (s_created a)) l.
  Definition render_site (db : list full_advisory) : outcome (list write) :=
    let? ds := omap advisory_data db in
    let? pages := omap (fun d => let? p := advisory_page d in Ok ("advisories/" ++ s_id d ++ ".html", p)) ds in
    let l := newest_first ds in
    let? listing := omap list_entry l in
    let? packages := omap package_write (group_all (fun d => [s_package d]) l) in
    let? keywords := omap (group_write "keywords" "with keyword") (group_all slugs l) in
    let? categories := omap (group_write "categories" "in category") (group_all category_names l) in
    let? n := feed_len l in
    let? feed := render_feed (firstn n l) in
    Ok (("contributing.html", PgStatic)
        :: pages
        ++ map (fun p => (p, PgStatic)) ASSETS
        ++ [("index.html", PgStatic); ("search.html", PgStatic); ("advisories/index.html", PgListing listing);
            ("packages/index.html", PgIndex "Packages" (sort_items (count_all l)))]
        ++ List.concat packages
        ++ ("keywords/index.html", PgIndex "Keywords" (sort_items (name_all "keywords" slugs l)))
        :: keywords
        ++ ("categories/index.html", PgIndex "Categories" (sort_items (name_all "categories" category_names l)))
        :: categories
        ++ [("js/index.js", PgSearch (search_index l) (search_packages l)); ("feed.xml", feed)])%list.

  (** The site as it is in the end. *)
  Definition site_get (ws : list write) (p : string) : option page :=
    match find (fun w => String.eqb (fst w) p) (rev ws) with Some w => Some (snd w) | None => None end.

  (** ** search.js:1-48 [search]; the index is the object [ids] and the array [packages].  [trim] is [String.prototype.trim]. *)
  Inductive answer :=
  | OpenPage (path : string)
  | ShowResults (ids : list string)
  | NoResults
  | ScriptError.
  Definition ids_get (k : string) (ids : list (string * list string)) : option (list string) :=
    match find (fun e => String.eqb (fst e) k) ids with Some e => Some (snd e) | None => None end.
  (** [term in ids] also finds what every object inherits; in lower case, these are [constructor] (a function of one argument,
      so [length] is 1 and [0] undefined) and [__proto__] (which has no [length] and no [forEach]).  Simplified: an id
      [__proto__] in the index. *)
  Definition search (trim : string -> string) (ids : list (string * list string)) (packages : list string) (text : string) : answer :=
    let term := lower (trim text) in
    if existsb (String.eqb term) packages then OpenPage ("packages/" ++ term ++ ".html")
    else match ids_get term ids with
         | Some [id] => OpenPage ("advisories/" ++ id ++ ".html")
         | Some l => ShowResults l
         | None => if String.eqb term "constructor" then OpenPage "advisories/undefined.html"
                   else if String.eqb term "__proto__" then ScriptError else NoResults
         end.
End Site.

(** templates/base.html:11-13, 20, 38-46, menu.html:2-4: the links on every HTML page (a folder stands for its index.html). *)
Definition MENU : list string :=
  ["css/basic.css"; "css/highlight.css"; "css/index.css"; "index.html"; "advisories/index.html"; "contributing.html"; "feed.xml";
   "categories/index.html"; "keywords/index.html"; "packages/index.html"].
(** The links of a page to other files of the site: templates/advisory-content.html:54-92, advisory-list-entry.html:7, 22,
    sublist-index.html:16; web.rs:467. *)
Definition links (p : page) : list string :=
  let adv d := ("advisories/" ++ s_id d ++ ".html")%string in
  match p with
  | PgAdvisory d _ _ _ =>
      MENU
      ++ ("packages/" ++ s_package d ++ ".html")%string
      :: map (fun c => ("categories/" ++ category_name c ++ ".html")%string) (m_categories (f_meta (s_adv d)))
      ++ map (fun k => ("keywords/" ++ safe_keyword k ++ ".html")%string) (m_keywords (f_meta (s_adv d)))
  | PgListing l | PgGroup _ l => MENU ++ map (fun e => adv (e_adv e)) l
  | PgIndex _ l => MENU ++ map (fun i => match strip_prefix "/" (it_url i) with Some u => u | None => it_url i end) l
  | PgFeed _ l => map (fun e => match strip_prefix "https://rustsec.org/" (fe_url e) with Some u => u | None => fe_url e end) l
  | PgStatic | PgOsv _ | PgSearch _ _ => []
  end%list.
