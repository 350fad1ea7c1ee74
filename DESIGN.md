# Formal model of rustsec/rustsec in Rocq (Coq 8.16.1)

## How the development is organised

Everything is under `rocq/theories/` (logical name `Verif`).

* `Base*.v`, `StrLib*.v`: ordering combinators, byte strings (Rust `str`/`String` are modelled by Coq
  `string`, i.e. their UTF-8 bytes), the `outcome` type (`Ok`/`Err`/`Panic`).
* `*Model.v`: executable Gallina functions, one per Rust function, each with the file and lines it models.
* `*Spec.v`: small independent specifications the theorems are stated against.
* `*Proofs.v` / `*Facts.v`: lemmas.
* `Props*.v`: only the property theorems (`exact lemma`), `Print Assumptions` under each, and
  non-vacuity `Example`s.

A panic in the Rust code is the explicit value `Panic`; `Result::Err` is `Err`. u64 overflow is modelled
explicitly where it matters (OSV successor/caret bounds, assigner).

## Plan per property

| id | what is modelled | how it is proved |
|----|------------------|------------------|
| C01 | semver versions/comparators, `TryFrom<VersionReq>`, `unaffected_to_osv_ranges`, `increment`, `OsvRange::affects`, `Versions::new/is_vulnerable` | induction over the sorted range list; total-order library |
| C02 | same | same, invariant of the gap computation |
| C03 | `increment`, semver order | order reasoning on pre-release lists |
| C04 | + `VersionReq::matches` (semver crate) | case analysis over operators |
| C05 | same | `_refuted` with witnesses (`>1`, `=1.2` ...), plus the operators that do agree |
| C06 | sort comparator assertion, u64 arithmetic | `_refuted` witness + exact characterisation of the panicking inputs |
| C07 | same as C01 | corollary of C01 + permutation invariance of the checks |
| C08 | same as C01 | order lemma: bounds never carry build metadata |
| C09 | `Bound::less_or_equal`, `overlaps` | order reasoning with the immediate-successor lemma; exact answers for whole lists (`PropsOsvExact.v`, spec `OsvLineSpec.v`: places of the version line) |
| C10 | same as C01 | corollary |
| C11 | `TryFrom<&VersionReq>` | case analysis |
| C12-C14 | `advisory::Id` parser/printer, u32 parsing | string lemmas; C14 `_refuted` |
| C15 | `advisory::Date` over an abstract jiff parser | string lemmas; `_refuted` for non-hyphenated forms |
| C16 | `Parts::parse` | string-search lemmas |
| C17-C18 | `Entries::load_file/insert/get`, `Index`, `Database::query` | invariant over the load history; refinement to a filter |
| C19-C20 | `query_vulnerabilities`, `Query::matches` | refinement to a set comprehension |
| C21 | `Query::matches` source comparison | `_refuted` |
| C22-C25 | `Report::generate`, `find_warnings`, `Settings::query` | list reasoning |
| C26-C27 | `AuditConfig::report_settings`, `Presenter::should_exit_with_failure`, CLI override | decision-logic theorem over all reports; C27 has a `_refuted` part (notice) |
| C28 | `filter_report_by_binary_type` | list reasoning |
| C29 | `set_binary_scan_limits`, `read_binary_with_limit` | arithmetic; `_refuted` for 0 = unlimited |
| C30-C32 | `EncodableLockfile` conversions | induction over packages |
| C33 | `Checksum` | byte-wise codec proof |
| C34-C35 | `SourceId` over an abstract URL type | C35 `_refuted` |
| C36-C37 | `Tree::new`, `roots`, `render` | graph induction, fuel shown sufficient |
| C38-C41 | CVSS v3 | codec proof; exhaustive kernel computation over the finite vector space with `SpecFloat` binary64, lifted to the quantified statement |
| C42 | CVSS v2 | same |
| C43-C45 | CVSS v4 | same, by macro-vector decomposition |
| C46 | `Cvss::from_str` | string lemmas |
| C47 | `PlatformReq` | glob relation |
| C48 | assigner | invariant over assignments |
| C49-C50 | fixer, fix command | list reasoning, `_refuted` |
| C51 | `CachedIndex` over an abstract index | invariant over call histories |
| C52 | `GitModificationTimes` over abstract commit histories | fold invariants |
| C53-C54 | `FunctionPath`, symbol matching | string/list induction |
| C55 | linter | decision procedure characterisation |
| C56 | composition of C01, C19, C22, C26 | corollary |
| C57-C58 | `platforms` attribute tables and platform list (generated from the Rust tables by `tools/gen_platforms.py`) | exhaustive kernel computation over the tables, lifted to all strings |
| C59 | `Presenter::print_vulnerability`, `permits_newer` | soundness; completeness for the proved class, `_refuted` otherwise |
| C60 | `sarif::Run::from_report` | list induction |
| C61 | `AuditCommand::override_config` | case analysis |
| C62 | `binary_deps` conversion | list induction |
| C63 | `Presenter::print_report` | induction with the displayed-packages state |
| C64 | `Auditor::audit_binaries` over an abstract executable parser | induction over the files with an auditor invariant |
| C65 | `quitters::versions` (the regular expression as a matcher written by hand) | induction over the data, segment-by-segment comparison of overlapping matches |
| C66 | `Id::url` | case analysis |
| C67 | `OsvAdvisory::from_rustsec` with the derived serialisation, and an OSV consumer on the JSON (`OsvAdvSpec`) | the C01-C03 range theorems carried through the timeline: sorting the events and scanning them is range membership |
| C68 | the derived Serialize/Deserialize on a JSON tree | every component's print/parse round trip composed field by field; injectivity from the left inverse |
| C69 | `rustsec_refs_imported`, `crates`, the derived Deserialize | sort+dedup as the sorted set; slicing as prefix decomposition |
| C70 | export over a directory tree, documents by path; composition with the database model | theorems over trees of files; the four adjacent expectations (stays in the destination, one file each, drafts are not exported, a database that opens can be exported) are refuted |
| C71 | the linter over a directory tree with the index as a function | theorems over trees; that an opening database lints, and that the index check always happens, are refuted |
| C72 | the lister with the index as a function | theorem by induction over the advisories; a crate deleted from the index makes it panic (refuted theorem) |
| C73 | the run over a repository of TOML tables; front matter text only at the level of fences | invariant relating each file to its original by the set of strings gained; refuted: plain idempotence, the count, one report per document, front matter that ends with a comment |
| C74 | `LockCliModel.cmd_translate` over `LockModel.load`/`save`; `no_paths`, `exact_references`, `no_void_entries`, `consistent` (LockCliSpec, LockSpec) | exact version of the C30 round trip, uniqueness of sorted metadata, then induction over the sequence of options with an invariant preserved by each step; loss of `<none>` entries on a detour and of the root package proved as `_refuted` |
| C75 | `LockCliModel`: `package_matches`, `tree_indices`, `indentation`, `node_text`, `draw_trees`, `cmd_tree`, `cmd_list`; specs `selects`, `first_selected`, `shown` | on top of C36/C37; pigeonhole on ancestor chains for the acyclic case; injectivity of the drawn text by induction on the levels; packages on an unused cycle being invisible proved as `_refuted` |
| C76 | The pages as data: WebModel (every file written, in order, the last write to a path wins); grouping loops as in the code | PropsWeb, PropsWeb3: the set of files is characterised once (files_spec) from which each page's content, absence of other pages and the link theorem follow; sorting is shown stable; C76_renders_exactly gives success exactly |
| C77 | search.js as a function of the index file and the text, including what JavaScript objects inherit; the feed's length as in the code, the calendars as parameters (Calendar.v: the Gregorian calendar, proved to be ordered and invertible for all days, and an ISO parser meeting the hypotheses) | PropsWeb2: exact equation for the search's answer, soundness and completeness in terms of the advisories; the feed from the sortedness of the list and the order of date texts |
| C78 | The decoders of AdvModel; a relational reading of TOML tables as sets of entries (DecodeSpec), in which every field of the result is tied to an entry by name | If and only if between the decoder and the reading, by one lemma per kind of field; functions by induction over the table with injectivity of paths (C53) and uniqueness of sorted maps; order and unknown keys follow from the reading |
| C79 | ConfigModel: derived Deserialize of AuditConfig and its sections, severity/deny/format names, config_path, loading, and the whole command from the file system | equivalence of config_of_table with the order-independent reading config_says (ConfigSpec); totality (no panic); errors; end-to-end exit status by composing with C26 and C61. Refuted part: [output] without quiet and [database] without stale are rejected, and show_tree defaults to false without an [output] section |
| C80 | FetchModel: the disk as places (nothing, a repository with origin, HEAD and working tree, other files); fetch as the list of disk states it goes through and its result; checkout file by file; the directory as Database::open sees it; the part of Auditor::new that obtains the database | exact effect of checkout (C80_what_is_fetched, C80_first_fetch); invariant over arbitrary histories of interrupted runs (C80_only_served_content, C80_next_fetch); freshness exactly (C80_fresh_exactly, C80_stale_database through run_audit). Refuted parts: files removed upstream stay and are still reported; the URL is ignored if the path holds a clone of another; an interruption before the remote is configured is permanent; no freshness check without fetching; a commit dated after 9999 panics |
| C81 | `ReportJsonModel`: the serde implementations of the report and of everything in it, as functions to and from JSON values; the report itself is that of AuditModel with whole advisories put back | written iff the commit time can be (`C81_written_iff`), header (`C81_header`), listing (`C81_lists_exactly`, from the run of the whole command), reading is exactly a declarative document relation (`C81_reads_exactly`), round trip (`C81_reads_back`, `C81_audit_reads_back`, `C81_loses_nothing`) |
| C82 | `SeverityModel` dispatches to the score models of the three versions; the report and audit models are instantiated with that severity | from the exhaustive score theorems (C39, C42, C44, C45), C25's threshold filter and C81's listing theorem; least scores are stated as numbers; the CVSS v2 exception is refuted with a database |
| C83 | the outcome `Panic` of the models `PartsModel`, `AdvModel`, `OsvModel`, `DbModel`, `AdminModel` | panic-freedom of every decoder composed; the exceptional files are described by the texts of C16 and the requirements of C06, and shown to crash (refutation of `never crashes`) |
| C84 | `SarifJsonModel`: the JSON value of the document over the full reports of C81, `{:.1}` as exact rounding of doubles | fold over findings shown equal to one result per finding and one rule per first finding; scores by C82 with a proof that no score is a negative zero, so every text is that of the published score; audit by the audit invariant of C26 |
| C85 | `LintModel` (as C55) with an inductive relation of findings `LintFullSpec` | induction over the entries with the remembered year as the state; NoDup of the keys turns it into the order of id and date |
| C86 | `TermModel`: the sequence of things printed (label and content, tree lines, status lines), over the full reports of C81, `Display for f64` of scores as the shortest decimal; the symbols of an executable as the list of names `object` gives | labelled lines as a fixed shape with optional parts; scores by C82; trees by C37 with the invariant of what was drawn; audit by the audit invariant of C26 |
| C87 | The document of comrak as a tree (`PlatGenModel`: headings, tables, rows, cells, code spans), the lines of rustc's output, the comparison of the two lists | Invariant over the blocks of the page by induction from the end (tier announced last, tables found, first row of each target); last line of each key by induction; agreement as an equivalence of sets |
| C88 | Writers as text written so far with an outcome, so that a crash keeps the partial text (`PlatGenModel`); `tools/validate_platgen.py` shows that the model reproduces the committed files of `platforms` up to rustfmt | Equivalences for each writer with plain text templates (`PlatGenSpec`), composed into the program; names by a squashing function and a character-wise comparison |
| C89 | The scoring of C44 (`Cvss4`, binary64); severity orders written down in `CvssMonoSpec` | By C44 the score is the rounding of a linear function of the severity distances for each MacroVector; monotone steps within one group of metrics are compared at the ends of the ranges of the other distances, for every MacroVector; any number of steps by transitivity |
| C90 | The scores of C42 (`Cvss2`, binary64); severity orders in `CvssMonoSpec` | Inequalities between the published equations over the rationals, rounding is monotone; the sign of the adjusted base equation by evaluating all its inputs |
| C91 | `ReqText`: `VersionReq::from_str` and `Display` of the semver crate, branch by branch; `ReqSpec`: the grammar as inductive relations | Soundness and completeness of each piece of the parser for the grammar, for every remaining input; uniqueness and reading back as consequences; instantiation of C81 and C83 |
| C92 | `ConcModel`: processes as states (starting, waiting, fetching with what is left to write, ready, loading with what is left to read, loaded, stopped, killed), the disk and the locks as shared state, one transition per lock operation, file written and file read; `fetch` is that of C80 | inductive invariants over all reachable states (locks and their holders agree; everything on the disk has been served; what is left to write keeps the files of a fixed tree); refutations by explicit schedules, run by a function shown to follow the transition relation |
| C93 | `SemverModel`: `VersionReq::matches` of the semver crate; `MatchSpec`: the documented ranges, by the order of versions | each comparator equals its range by arithmetic over the three numbers and the sign of the comparison of pre-releases; texts by the grammar of C91; no gaps by transitivity |
| C94 | `TableGenModel`: the text written, with the two assertions and the stable sort; `TableGenSpec`: a reader of Markdown rows and link definitions | stable sorting by tier equals the concatenation of the three filters; the loop over the sorted list written as lines; reading the lines back; `_refuted`: the alignment for the committed platforms, the links of targets with dots |
| C95 | `FetchHeadModel`: write_fetch_head over the mappings gix gives, the hexadecimal encoding, the edit of the reference with its two cases; `FetchHeadSpec`: a reader of FETCH_HEAD and of identifiers, chains of references | exact characterisation of the text by the first symbolic HEAD; reading it back; `ends_at` unique, one update at the end of the chain; iff for success |
| C96 | LocateModel: the machine (what exists, file bytes, standard input, canonical paths), running cargo as a function on machines, lockfile.rs whole, load_lockfile, both commands from the point where the lock file is looked for, composed with AuditModel's auditor. | Case analysis; Path equality with "-" against an inductive definition of the spellings; text by C95_what_is_text; status 2 by C26; the fix run shown equal to run_fix (C49, C50) with each command in the file's directory. Refuted part: `cargo audit fix --file -` crashes if there is a vulnerability (the lock file is re-read from a file named "-"). |
| C97 | CargoLockModel: the three commands as programs of lock, fetch and run-cargo actions with free choices for everything else; any number of them sharing one package lock and one lock per database directory; steps labelled ahead / kill / give up. | Invariant by induction over histories: what a process holds is determined by where it is, and the programs run cargo only without the package lock; size of the rest of the program decreases. C97_the_order_matters shows the reversed order deadlocking. |
| C98 | FixModel: run of commands/audit/fix.rs with its messages as items; the audits, commands and exit codes those of AuditModel (C98_same_run shows the runs equal to run_fix of C49, C50). | Case analysis over the unfolded run; uniqueness of ids in a database (C17) for the last part. Refuted part: a vulnerability introduced by an update is listed among those that "have patched versions" even without one, and offsets the count. |
| C99 | SourceIdModel: the constructors, accessors, display texts and JSON form of SourceId; Url::from_file_path is a parameter (None: error). | Case analysis on the kind against as_url of C34; C35_equality_means for equal sources; C34's roundtrip for JSON. The exception is shown by C99_equal_references_refuted. |

## Trusted base

* Coq 8.16.1's kernel (including its `vm_compute` machine, used for finite tables and examples).
* `Print Assumptions` of every theorem named in MANIFEST.json reports "Closed under the global context": no
  axioms, neither our own nor the standard library's. Each `Props*.v` prints them.
* The correspondence between the Gallina definitions and the Rust source, which is by reading; each definition
  cites the lines. The platform tables are generated from the Rust text by `tools/gen_platforms.py`.

### External code modelled by hand
* `semver`: versions, precedence, total order with build metadata, requirement matching (`SemverModel.v`), version
  text (`VerText.v`) and the text of requirements (`ReqText.v`; the decoders take the reader of requirements as a
  parameter, and C91 instantiates it).
* `url`, `form_urlencoded`: query/fragment handling; scheme, authority and path normalisation is a parameter `norm`
  with stated laws (`UrlModel.v`).
* `petgraph`: a list of nodes and edges (`TreeModel.v`). `BTreeMap`/`BTreeSet`/`HashMap`: association lists.
* `jiff` (dates), `tame_index` (crates.io index) and the network: arbitrary functions.

### What is modelled, file by file
| Model | Source |
|---|---|
| `SemverModel`, `VerText` | external crate `semver` |
| `OsvModel` | rustsec/src/osv/{unaffected_range,ranges_for_advisory,range}.rs, advisory/versions.rs |
| `IdModel` | rustsec/src/advisory/{id,date}.rs |
| `PartsModel`, `AdvModel` | rustsec/src/advisory.rs, advisory/{parts,metadata,category,license,informational,keyword,affected,versions}.rs, collection.rs (decoding from a TOML table; the text of TOML is a parameter) |
| `LintModel` | rustsec/src/advisory/linter.rs |
| `DbModel` | rustsec/src/database.rs, database/*.rs, report.rs, vulnerability.rs, warning.rs |
| `ScanModel` | rustsec/src/advisory/affected.rs, rustsec/src/binary_scanning/*.rs, cargo-audit/src/binary_scanning.rs, quitters/src/lib.rs |
| `IndexModel` | rustsec/src/cached_index.rs (locks, HTTP and the on-disk cache are a parameter) |
| `PkgModel`, `UrlModel`, `SumModel`, `LockModel`, `TreeModel` | cargo-lock/src (library) |
| `AuditModel`, `SarifModel` | cargo-audit/src/{config,auditor,presenter,sarif,lockfile}.rs, commands/audit.rs, commands/audit/*.rs, rustsec/src/fixer.rs |
| `MtimeModel` | rustsec/src/repository/git/{modification_time,gitpath}.rs, git.rs, commit.rs:125-128, repository.rs:252-265 (the history and the walk are given; gix's diff is a list of changed files) |
| `OsvAdvModel` | rustsec/src/osv/advisory.rs, with serde_json's derived (de)serialisers on a JSON tree |
| `AdminModel` | admin/src/{osv_export,linter,list_versions}.rs, commands/lint.rs (the exit status) |
| `SyncModel` | admin/src/commands/sync.rs (toml_edit documents as tables; git, HTTP and the index are given) |
| `LockCliModel` | `cargo-lock/src/main.rs` (list, translate, tree), text of tree lines in `dependency/tree.rs`, `lockfile/version.rs` FromStr/Default; not clap, not file I/O |
| `WebModel` | `admin/src/web.rs` (all of `render_advisories`, `render_index`, `render_feed`, `friendly_date`, `safe_keyword`, `title_type`, `AdvisoryData`), the links and dates of `admin/templates`, `admin/src/web/static/js/search.js`. Paths are texts (names without slashes); of the HTML only lists, links, titles and dates; chrono's and time's calendars, `to_lowercase`, XML escaping and `trim` are parameters |
| `Calendar` | the Gregorian calendar and an ISO parser, as witnesses for the calendar parameters of `MtimeModel` and `WebModel` |
| `ConfigModel` | cargo-audit/src/config.rs (all `Deserialize`), commands.rs (`config_path`), cvss/src/severity.rs (`FromStr`). Not modelled: the array and table forms serde also accepts for structs and unit variants; abscissa itself beyond "a configuration error ends the process with status 1" |
| `FetchModel` | rustsec/src/repository/git/repository.rs:69-220, 267-352, commit.rs:12-14, 43-130, 138-189, database.rs:103-107, cargo-audit/src/auditor.rs:51-114 (gix itself is given: discovery, cloning, fetching and checkout by their documented effects; submodules, symbolic links, signatures, file system errors and FETCH_HEAD left out; locks as whether they are obtained) |
| `ReportJsonModel` (C81) | rustsec/src/{report,vulnerability,warning}.rs and the serde implementations of metadata, versions, affected, package, source, checksum, dependency, severity, settings; cargo-audit/src/presenter.rs:119-126. Not modelled: serde_json's text, the time parser (assumed to read the stamps), `VersionReq`'s printer (assumed to be read back) |
| `SeverityModel` | cvss/src/cvss.rs (`score`, `severity`), advisory.rs (`severity`) |
| `SarifJsonModel` | cargo-audit/src/sarif.rs (whole), presenter.rs:128-138, auditor.rs:217,290; `{:.1}` of the standard library as exact rounding to tenths |
| `TermModel` | cargo-audit/src/presenter.rs:71-80, 109-111, 114-127, 139-300, 328-478, 507-513 (the terminal output; escape codes and streams are abscissa's), binary_scanning.rs:10-43 (parsing of executables, demangling and `syn` are parameters) |
| `PlatGenModel` | platforms-data-gen/src (comrak, rustc and the fixed templates and comments are parameters; writing never fails) |
| `ReqText` | external semver 1.0: `VersionReq::from_str`, `Display for VersionReq` (parse.rs, display.rs; the crate's source is not in /repo) | error values are `None` |
| `ConcModel` (C92) | rustsec/src/repository/git/repository.rs:100-118 (lock), cargo-audit/src/auditor.rs:70-114 (waiting, loading), with the fetch of `FetchModel` as a sequence of files written. Simplified: a file is written and read at once, the paths are listed at one moment, a waiting process takes the lock in any order. The removal of an empty directory before the lock is asked for (93-98), which can make another process's clone fail, is left out here and modelled in `EmptyDirModel`. Not modelled: file systems without locks |
| `EmptyDirModel` (C92) | rustsec/src/repository/git/repository.rs:93-98 with the lock and the directory of the clone, one step per system call. Simplified: no process is killed, every process waits for the lock, a clone's files are one step, a clone whose directory has gone fails |
| `TableGenModel` (C94) | platforms-table-gen/src/main.rs (whole; standard output as a text, widths in bytes) |
| `FetchHeadModel` (C95) | rustsec/src/repository/git/repository.rs:20, 299-352, 390-547 (gix given: the mappings, the store of references; reflog and lock files left out; `fs::write` either succeeds or stops after some bytes) |
| `LocateModel` | cargo-audit/src/lockfile.rs (all), auditor.rs load_lockfile, the lock-file part of commands/audit.rs and commands/audit/fix.rs, cargo-lock `Lockfile::load`. The TOML parse of the text and what running cargo does are parameters; files change only through cargo. |
| `CargoLockModel` | rustsec/src/cached_index.rs (taking the package lock), the order of locks, fetches and cargo runs in cargo-audit/src/{auditor,lockfile}.rs, commands/audit.rs, commands/audit/{fix,binary_scanning}.rs; both locks as exclusive (tame-index, `exclusive(false)`), cargo itself as taking the package lock, waiting as long as it takes |
| `FixModel` | cargo-audit/src/commands/audit/fix.rs: run, with its messages as items (their wording and the cause of a failed start left out) |
| `SourceIdModel` | cargo-lock/src/package/source.rs 44-52, 108-214, 289-304: constructors, accessors, display texts and the JSON form of package sources; `Url::from_file_path` is a parameter |
| `WaitModel` (C92) | cargo-audit/src/auditor.rs:49-200, rustsec/src/error.rs:164-180, rustsec/src/cached_index.rs:285-299, rustsec/src/repository/git/repository.rs:112-118: starting an auditor, its messages (as items, not text), locks that are busy, given up, or fail; simplified: errors before the lock is asked for are counted among those after it |
| `LockTextModel` (C30) | cargo-lock/src/lockfile/encoding.rs:160-250: the text of a saved lockfile; how crate toml quotes strings and keys is a parameter, assumed only to be self-delimiting (a concrete quoting satisfies this) |
| `AssignModel` | admin/src/assigner.rs |
| `CvssText`, `CvssFloat`, `Cvss2`, `Cvss3`, `Cvss4`, `Cvss4Data` | cvss/src |
| `PlatData`, `PlatModel` | platforms/src |

Floating point: `CvssFloat` uses Coq's `SpecFloat` as the meaning of `f64` operators; `powf`/`powi` are modelled as stated in
that file.  `vcheck`'s list of library axioms names fields of `Coq.ssr.ssrunder`'s module types, which come with the
standard library's `ssreflect` files loaded by other libraries; no theorem depends on them.

### Not modelled
* TOML/JSON syntax (serde): models start from the decoded structures.
* Git operations (gix) other than the above, file locking, HTTP, terminal colours, the `cargo` process started by `cargo audit fix`.
* Stack and memory exhaustion, I/O errors while printing.
