{
 "C05": [
  "proved",
  "Statement describes what the code does (zero-filling); the theorem with suffix _refuted shows that this differs from Cargo's own matching for >, <=, = with omitted components."
 ],
 "C06": [
  "partial",
  "Refuted in general (panics on =x with >x, and on u64::MAX components in debug builds). Away from u64::MAX the crashing lists are characterised exactly (C06_which_lists_crash: all shapes supported, no two ranges share a place of the version line, one range begins at x and another just above x)."
 ],
 "C09": [
  "partial",
  "One direction (accepted => disjoint) proved as stated; the other is refuted at boundary artifacts. The refused, the crashing and the accepted lists are each characterised exactly, for lists of any length, by sharing a place of the version line (a version, the place just above one, or the bottom): C09_which_lists_are_refused / _accepted; and a refused list has two ranges with a common version or a boundary artifact (C09_refused_lists_overlap_or_meet), which supersedes the theorem on pairs named _partial."
 ],
 "C14": [
  "partial",
  "Refuted: leading zeros and '+' are accepted, so the same number has several ids. Proved exactly which texts are the ids of one year and number (C14_ids_of_a_number), and that ids of one width are determined."
 ],
 "C15": [
  "partial",
  "The jiff parser is an arbitrary function. Proved for ISO dates; refuted for other forms jiff accepts (month()/day() panic). For every text at all it is proved exactly what year(), month() and day() answer and which texts are readable (C15_components_of_any_text, C15_which_texts_are_readable)."
 ],
 "C17": [
  "proved",
  "Note C17_file_name_names_the_id_refuted: the draft exemption goes by file name only, so a draft-named file holding a real id is loaded."
 ],
 "C21": [
  "partial",
  "Refuted: the theorem shows packages locked to the sparse index are never matched (unless an advisory itself names that index)."
 ],
 "C33": [
  "partial",
  "Round trip and acceptance of all hex strings proved; 'only hex strings' is refuted ('+f' bytes accepted, and slicing panics inside a multi-byte character)."
 ],
 "C34": [
  "partial",
  "Proved for the escaped form (format 4). For the unescaped form (formats 1-3), C34_unescaped_exactly says exactly which references survive (no # & +, no tab or line end, no % before two hex digits, no trailing blank unless a revision is pinned); refuted for the others, and for local registries and directories. The URL library's treatment of scheme/authority/path is a parameter with the stated laws."
 ],
 "C35": [
  "partial",
  "Reflexive, symmetric, exact meaning of equality proved; transitivity and hash consistency refuted, with the exact triples where transitivity fails (C35_transitivity_fails_exactly)."
 ],
 "C30": [
  "partial",
  "Proved for consistent lockfiles in all four formats, with exactly what survives; the full round trip is refuted: path and registry packages of one name and version, replacements of packages with dependencies, format 1 without checksums or with two sources of one version, the root. Checksum keys: C30_checksum_keys, C30_key_read_back, C30_keys_distinct, C30_other_keys_are_errors; C30_key_of_blank_tag_refuted shows a key that is not read. LockTextModel: C30_text_tells_the_document, C30_text_ends (the written text; TOML quoting is a self-delimiting parameter)."
 ],
 "C31": [
  "partial",
  "Unique abbreviations resolve to the intended package; bare unlisted names are errors; 'name version' of an unlisted package is accepted (refuted part)."
 ],
 "C32": [
  "proved",
  ""
 ],
 "C36": [
  "proved",
  "For lockfiles whose git sources are pinned and that list no package twice (both needed; the second is shown needed)."
 ],
 "C37": [
  "proved",
  "Same assumptions as C36. Stack depth and I/O errors are not modelled."
 ],
 "C26": [
  "partial",
  "Exit status 0/1/2 characterised exactly for loadable inputs; refuted parts: a database failure also exits 1, and a dangling dependency panics in terminal output."
 ],
 "C27": [
  "partial",
  "Proved for unmaintained, unsound and yanked; refuted for notices (--deny warnings reports but does not fail on them)."
 ],
 "C28": [
  "partial",
  "The filter removes exactly what it regards as other platforms; refuted against reality: UEFI/Cygwin on PE, WASI/Emscripten on Wasm, and unknown OS names are dropped."
 ],
 "C29": [
  "partial",
  "Limit exact; '0 means unlimited' from the help text is refuted."
 ],
 "C49": [
  "partial",
  "Arguments characterised exactly; 'only reported packages' refuted: same-named git/path packages are included."
 ],
 "C50": [
  "partial",
  "Commands, dry-run status and the exact status of a real run (C50_real_run_status) proved; refuted for real runs: status 0 even if everything remains vulnerable, crash when the lockfile is unreadable afterwards."
 ],
 "C59": [
  "partial",
  "Soundness for all inputs; completeness for releases, with a bare '>MAJOR' only if MAJOR is not above the installed major version; refuted otherwise and under overflow."
 ],
 "C16": [
  "partial",
  "Splitting proved exact and inverse to assembling; files without fence or title are errors except (refuted, C16_split_error_refuted) text without the opening fence whose byte 20 is inside a character, which panics."
 ],
 "C60": [
  "partial",
  "Proved for every report audit produces; refuted for arbitrary reports (C60_any_report_refuted): a notice warning without advisory refers to an undeclared rule."
 ],
 "C65": [
  "partial",
  "Soundness for all data; completeness unless the text before 'cargo' in its path segment contains a dash (refuted otherwise, C65_every_path_refuted)."
 ],
 "C41": [
  "partial",
  "Refuted (C41_*_refuted): the parser accepts v3 vectors lacking mandatory metrics, every subset of them; the theorems characterise this."
 ],
 "C39": [
  "proved",
  "For every powf within two units in the last place of the correctly rounded value; also for incomplete vectors (missing metrics weigh 0)."
 ],
 "C40": [
  "proved",
  "For complete vectors; same assumption on powf as C39."
 ],
 "C42": [
  "proved",
  "Negative results of the published equations count as 0 (the guide is silent). Also for vectors lacking base metrics, which only hand-built values can."
 ],
 "C44": [
  "partial",
  "Proved for every complete vector, which includes all the parser returns. Refuted for vectors lacking a mandatory metric, such as Vector::default(), which is public: score() panics on unwrap."
 ],
 "C45": [
  "partial",
  "Severity proved. Nomenclature proved for 'which groups are mentioned'; 'set to something other than X' is refuted: E:X counts as a threat metric."
 ],
 "C48": [
  "partial",
  "Proved for repositories whose RUSTSEC ids carry the year of the date (the linter's rule), with room for numbers; the TOML decoder is a parameter. Refuted otherwise: numbers go by the date's year, so a published file can be overwritten (C48_no_overwriting_refuted); an interrupted run repeated assigns twice; a failed run leaves a file the database refuses; drafts without the [advisory] line fail."
 ],
 "C55": [
  "partial",
  "Proved for documents in the layout with an [advisory] header: accepted exactly when clean, whatever loads can be linted (date with a readable year), unknown keys named exactly, line numbers right, drafts exactly the placeholder. The TOML parser is a parameter. Refuted: documents without the header always get errors and can crash the linter; a mention followed by a period is missed; the documented field source is called unknown."
 ],
 "C52": [
  "partial",
  "Latest/earliest over the commits of the walk, any order; tracked files have a time unless a merge added them. Commits, trees (as file lists) and the walk are given; the calendar and date parser are parameters. Refuted: files added by a merge panic; GitPath accepts untracked paths, which then panic; a file's modification date can precede its creation date (time zones)."
 ],
 "C67": [
  "proved",
  "Same verdict as the declared requirements and as the tool, exact condition for export, published date. The calendar, TOML and URL normalisation are parameters. Refuted: for documents with two events at one version the verdict depends on how the consumer orders them; advisories that load can make the export panic (date without dashes, requirements covering every version, a file added by a merge)."
 ],
 "C68": [
  "proved",
  "Round trip for every exported document, and the listed fields are determined by it. Refuted for the rest: keywords are lost (C68_keywords_refuted); source, collection, references' order between url and references, and versions of functions are not exported either."
 ],
 "C69": [
  "proved",
  "Exact set of imported ids and exact panic condition, crates, order independence. Refuted: an id with five digits is read as another id, a reference to the list of advisories panics, and documents allowed by the OSV schema are rejected (optional fields, other reference and event kinds)."
 ],
 "C70": [
  "proved",
  "The statement is proved; theorems with suffix _refuted show that ids with dots or slashes, drafts and hidden files break what one would expect beyond it."
 ],
 "C71": [
  "proved",
  "The statement is proved; _refuted theorems show that a database which opens may fail to lint (missing rust/ directory, hidden file), and that without the index lock unpublished crates pass."
 ],
 "C72": [
  "proved",
  "The statement is proved of runs that end; C72_deleted_crates_refuted: a crate missing from the index is a panic."
 ],
 "C73": [
  "proved",
  "The statement is proved (toml_edit's printing is a hypothesis of the text-level theorem); _refuted theorems show that plain idempotence, the reported count, one report per document and files ending in a comment fail."
 ],
 "C76": [
  "proved",
  "The adjacent expectations that an index page always survives (a package called \"index\" replaces it), that a category names an advisory once (a repeated category lists it twice), and that one bad advisory or an empty database does not stop the site, are refuted in C76_index_refuted, C76_category_twice_refuted, C76_generated_refuted."
 ],
 "C77": [
  "proved",
  "Adjacent expectations are refuted: C77_dead_pages_refuted (a package with a capital letter in its name, the text \"constructor\": a page that does not exist; \"__proto__\": a script error) and C77_once_refuted (an identifier that is both alias and related is listed twice instead of being opened)."
 ],
 "C79": [
  "partial",
  "The reading is exact and unknown keys are errors, but not every entry may be left out: [output] needs quiet and [database] needs stale, and show_tree's documented default (true) holds only if [output] is there (C79_entries_are_optional_refuted)."
 ],
 "C80": [
  "partial",
  "Proved with exact contents, over all histories and crash points; the parts that fail in the real code are stated as the _refuted theorems (removed upstream, URL not used for an existing clone, early interruption, no check without fetching, commit times out of range)."
 ],
 "C81": [
  "partial",
  "Proved: what is listed, counts, exact reading, round trip. Refuted in part: a commit time with an offset of a day or more makes `--json` panic (C81_always_printed_refuted); git branches, tags and revisions with `#`, `%`, `+`, `&` are written unescaped and read back as something else (C81_every_source_refuted). Assumed: the parser of time stamps reads what its printer writes (for requirements this is C91)."
 ],
 "C82": [
  "partial",
  "the property holds for CVSS 3.x and 4.0; for CVSS v2 the claim of a critical band is refuted by the code (C82_v2_refuted)"
 ],
 "C83": [
  "partial",
  "loading does crash on the two kinds of file named in the statement (C83_loading_crashes_refuted); that there are no others is proved"
 ],
 "C84": [
  "proved",
  "that results point at the audited lockfile is refuted (C84_points_at_lockfile_refuted); the statement says what holds instead"
 ],
 "C88": [
  "partial",
  "Everything in the statement is proved; the claims that variants never clash and that files are written all or none are refuted by counterexamples (suffix _refuted)."
 ],
 "C90": [
  "partial",
  "Proved for the base and temporal scores and, without low security requirements, the environmental one; C90_v2_environmental_refuted shows that the environmental score can go down."
 ],
 "C91": [
  "partial",
  "Proved: acceptance is exactly the grammar, unambiguous, reading back. C91_text_kept_refuted and C91_length_refuted show that the text itself is not kept and that more than 32 comparators are not read back."
 ],
 "C92": [
  "partial",
  "Proved: mutual exclusion, no stale lock, no deadlock, only served content, complete clones, and the same database for all while the files served are the same. C92_mixed_database_refuted, C92_vanished_file_refuted (files are read after the lock is released) and C92_paths_in_one_clone_refuted show what does not hold. EmptyDirModel (the removal of an empty directory before the lock): C92_never_all_fail, C92_alone, C92_existing_clone hold; C92_empty_directory_refuted shows one of two first runs failing. WaitModel (the waiting for busy locks): C92_same_start, C92_what_is_said, C92_waits, C92_late_is_as_good, C92_without_index hold; C92_waiting_message_names_wrong_directory_refuted shows the message about cargo's package lock naming the advisory database."
 ],
 "C93": [
  "proved",
  "C93_no_gaps_at_all_refuted shows why 'no gaps' is stated for releases and for pre-releases of the same numbers only."
 ],
 "C94": [
  "partial",
  "For the committed platforms two parts of the claim are false of the code: the environment `nto71_iosock` is wider than its column, and the links of the six `thumbv8m.*` targets name constants that do not exist (C94_alignment_refuted, C94_live_links_refuted)."
 ],
 "C95": [
  "proved",
  "gix itself (what it makes of the server's answer, following of symbolic references up to a limit, edits) is given by its documented effects; the limit is arbitrary in the theorems."
 ],
 "C96": [
  "partial",
  "All parts proved except the last, refuted by C96_fix_of_standard_input_refuted: fix.rs:66 re-reads the lock file with Lockfile::load(\"-\").expect(..), so `cargo audit fix --file -` panics when standard input's lock file has a vulnerability (C96_fix_of_standard_input says exactly what happens)."
 ],
 "C98": [
  "partial",
  "All parts proved except the last sentence: C98_listed_have_patched_versions_refuted (an update that introduces a vulnerability without patched version lists it under 'have patched versions but could not be fixed', and a fixed finding is not counted when another appears). The wording and number forms of the messages are not modelled."
 ],
 "C99": [
  "proved",
  "The stated exception is real: C99_equal_references_refuted. The url library is a parameter with the laws of C34."
 ]
}