{"id": "C01", "title": "Vulnerable exactly when outside every declared safe range", "statement": "Whenever `Versions::new` (or deserialising an advisory) accepts lists of `patched` and `unaffected` requirements, `Versions::is_vulnerable(v)` returns true for a version `v` if and only if `v` lies in none of the intervals those requirements denote.", "quantifier": "all requirement lists accepted by the constructor, all semver versions including pre-releases and build metadata", "why_tests_cant": "The set of versions and of requirement lists is infinite; the claim crosses sorting, gap computation and successor computation.", "anchors": ["rustsec/src/advisory/versions.rs: Versions::new, is_vulnerable", "rustsec/src/osv/ranges_for_advisory.rs: unaffected_to_osv_ranges, increment", "rustsec/src/osv/range.rs: OsvRange::affects"]}
{"id": "C02", "title": "OSV ranges are ordered, disjoint and cover exactly the vulnerable versions", "statement": "The range list exported to OSV for an accepted advisory is in increasing order, every `introduced` is not above its `fixed`, each range ends no later than the next begins, only the first may lack `introduced` and only the last may lack `fixed`, and a version lies in one of the ranges iff it satisfies none of the declared safe requirements. (Ranges may be empty or touch.)", "quantifier": "all accepted requirement lists", "why_tests_cant": "Universally quantified over lists of any length; depends on the pre-condition checks being strong enough.", "anchors": ["rustsec/src/osv/ranges_for_advisory.rs: unaffected_to_osv_ranges"]}
{"id": "C03", "title": "Successor version is immediate", "statement": "The version the tool uses as 'the first version after v' when an inclusive bound has to become exclusive is strictly greater than v and no version (up to build metadata) lies strictly between.", "quantifier": "all semver versions v and all candidate versions in between", "why_tests_cant": "Semver ordering is dense-looking with pre-releases; no finite sample shows there is nothing in between.", "anchors": ["rustsec/src/osv/ranges_for_advisory.rs: increment"]}
{"id": "C04", "title": "A version matching a declared safe requirement is never flagged", "statement": "If `v` satisfies, in Cargo's own requirement semantics, some `patched` or `unaffected` requirement of an accepted advisory, then `is_vulnerable(v)` is false.", "quantifier": "all accepted requirement lists whose comparators give all three version components, all versions", "why_tests_cant": "Relates two independent interpretations (semver matching and interval arithmetic) over infinitely many inputs.", "anchors": ["rustsec/src/advisory/versions.rs", "rustsec/src/osv/unaffected_range.rs: TryFrom<&VersionReq>"]}
{"id": "C05", "title": "Partially specified comparators are read as zero-filled (unlike Cargo)", "statement": "In advisory requirements a comparator `>`, `>=`, `<`, `<=` or `=` that omits minor or patch is treated exactly as if the omitted parts were 0; for `>1`, `<=1.2`, `=1.2` this differs from what Cargo's own requirement matching says.", "quantifier": "all requirements semver accepts", "why_tests_cant": "Needs a search over requirement shapes crossed with versions; the failure is visible only on boundary versions.", "anchors": ["rustsec/src/osv/unaffected_range.rs: comp_to_ver"]}
{"id": "C06", "title": "Constructing version info never panics", "statement": "`Versions::new` on any lists of valid requirements returns Ok or Err and never panics.", "quantifier": "all pairs of requirement lists and all sort schedules", "why_tests_cant": "Panic reachability over all inputs; an assertion inside the sort comparator must be shown unreachable.", "anchors": ["rustsec/src/osv/ranges_for_advisory.rs: assert!(v1 != v2)"]}
{"id": "C07", "title": "Order and placement of safe requirements do not matter", "statement": "Permuting `patched`/`unaffected`, or moving a requirement from one list to the other, changes neither acceptance nor the verdict of `is_vulnerable` on any version.", "quantifier": "all requirement lists, all permutations, all versions", "why_tests_cant": "Factorially many permutations; unstable sorting.", "anchors": ["rustsec/src/osv/ranges_for_advisory.rs"]}
{"id": "C08", "title": "Build metadata never changes the verdict", "statement": "`is_vulnerable` gives the same answer for two versions that differ only in build metadata, although Rust's version order does distinguish them.", "quantifier": "all accepted advisories and all pairs of versions equal up to build metadata", "why_tests_cant": "Ranges over arbitrary build strings.", "anchors": ["rustsec/src/advisory/versions.rs", "rustsec/src/osv/range.rs"]}
{"id": "C09", "title": "Overlapping safe ranges are rejected, and only those", "statement": "Two declared ranges are refused as overlapping if and only if some version belongs to both of them.", "quantifier": "all pairs of well-formed ranges", "why_tests_cant": "Emptiness of an intersection over an infinite order.", "anchors": ["rustsec/src/osv/unaffected_range.rs: overlaps, Bound::less_or_equal"]}
{"id": "C10", "title": "Empty safe lists mean every version is vulnerable", "statement": "With no patched and no unaffected requirement, construction succeeds, every version is vulnerable and the OSV export is the single range from the beginning with no fix.", "quantifier": "all versions; all non-empty accepted lists", "why_tests_cant": "Quantifies over all versions and lists.", "anchors": ["rustsec/src/osv/ranges_for_advisory.rs"]}
{"id": "C11", "title": "Requirement operators denote the documented intervals", "statement": "Converting a requirement to a range accepts exactly the supported shapes (at most one lower and one upper comparator; `=`, `^`, `~` alone) and the resulting interval contains exactly the versions satisfying the comparator bounds (with a pre-release upper end just below the next compatible version for `^` and `~`).", "quantifier": "all requirements", "why_tests_cant": "Infinite input space, many operator shapes.", "anchors": ["rustsec/src/osv/unaffected_range.rs"]}
{"id": "C12", "title": "Advisory ids round-trip and are classified by prefix", "statement": "Parsing a string as an advisory id, when it succeeds, yields an id that prints as exactly that string, whose kind is determined by the string's prefix; the `RUSTSEC-0000-0000` placeholder is the only id reported as placeholder; re-parsing the printed id gives an equal id.", "quantifier": "all strings", "why_tests_cant": "All strings.", "anchors": ["rustsec/src/advisory/id.rs"]}
{"id": "C13", "title": "Advisory id year and number are those written in the id", "statement": "For RUSTSEC, CVE and TALOS ids, parsing succeeds only for exactly three dash-separated parts with a numeric year in 2000..=2100 and a numeric sequence number, and `year()` and `numerical_part()` return these numbers; other ids have no year.", "quantifier": "all strings", "why_tests_cant": "All strings.", "anchors": ["rustsec/src/advisory/id.rs: from_str, parse_year, numerical_part"]}
{"id": "C14", "title": "Distinct advisory numbers give distinct ids", "statement": "Two accepted RUSTSEC ids with the same year and number are the same id.", "quantifier": "all pairs of accepted ids", "why_tests_cant": "Requires injectivity of a parser over all strings.", "anchors": ["rustsec/src/advisory/id.rs"]}
{"id": "C15", "title": "Advisory dates are usable after being accepted", "statement": "Every date accepted by the parser can be asked for its year, month and day without a panic, and these equal the components written; years outside 2000..=2100 are rejected; dates order chronologically.", "quantifier": "all strings", "why_tests_cant": "All strings.", "anchors": ["rustsec/src/advisory/date.rs"]}
{"id": "C16", "title": "Splitting an advisory file is exact", "statement": "For any TOML front matter not containing a closing fence, any single-line title and any description, the assembled markdown file splits back into exactly that front matter, title and description (modulo surrounding whitespace); files without the fence or title are rejected with an error, not accepted with wrong content.", "quantifier": "all advisory texts", "why_tests_cant": "All strings.", "anchors": ["rustsec/src/advisory/parts.rs"]}
{"id": "C17", "title": "Advisory lookup by id", "statement": "After loading a set of advisory files without error, `Database::get(id)` returns the advisory with that id if one non-draft file carried it and none otherwise; two files with the same id are an error; drafts (placeholder id) are never returned by get, iter or query.", "quantifier": "all sequences of advisory files in any directory order", "why_tests_cant": "Quantifies over all load histories.", "anchors": ["rustsec/src/database/entries.rs", "rustsec/src/database.rs"]}
{"id": "C18", "title": "Indexed and linear queries agree", "statement": "`Database::query` returns exactly the loaded advisories that satisfy the query, each once, whichever of the index-based and the linear search strategy is taken.", "quantifier": "all databases, all queries", "why_tests_cant": "Quantifies over all databases and queries; the two strategies are chosen by the query's shape.", "anchors": ["rustsec/src/database.rs: query", "rustsec/src/database/index.rs"]}
{"id": "C19", "title": "Vulnerabilities reported are exactly the matching package/advisory pairs", "statement": "`Database::query_vulnerabilities(lockfile, q)` returns precisely one entry for each package in the lockfile that comes from the crates.io registry and each advisory that matches `q` restricted to that package's name, version and source, in lockfile order; packages without a source or from other registries produce none.", "quantifier": "all lockfiles, databases and queries", "why_tests_cant": "Universally quantified; missing one pair is a silent false negative.", "anchors": ["rustsec/src/database.rs: query_vulnerabilities, vulnerabilities"]}
{"id": "C20", "title": "Query filters mean what they say", "statement": "An advisory matches a query iff: its collection equals the requested one; its package name equals the requested one; it is vulnerable at the requested version; its source matches; its severity is at least the threshold or absent; when both sides list architectures (resp. OSes) they intersect; its year equals the requested year; its withdrawn and informational flags equal the requested ones.", "quantifier": "all advisories and queries", "why_tests_cant": "Cross product of nine filters over unbounded data.", "anchors": ["rustsec/src/database/query.rs: matches"]}
{"id": "C21", "title": "Crates resolved through the sparse crates.io index are audited", "statement": "A package whose lockfile source is the crates.io sparse index is reported for an advisory exactly when the same package with the git index source would be.", "quantifier": "all databases and packages", "why_tests_cant": "Two source representations of the same registry; needs a quantified comparison.", "anchors": ["rustsec/src/database/query.rs", "cargo-lock/src/package/source.rs: is_default_registry"]}
{"id": "C22", "title": "Reports omit exactly the ignored advisories", "statement": "The vulnerability list of `Report::generate` is the query result minus the ids in `ignore`; `count` is its length and `found` says whether it is non-empty; adding an id to `ignore` removes exactly the entries with this id.", "quantifier": "all databases, lockfiles and settings", "why_tests_cant": "Quantified over all inputs.", "anchors": ["rustsec/src/report.rs: generate, VulnerabilityInfo::new"]}
{"id": "C23", "title": "Informational advisories become warnings of the right kind", "statement": "An informational advisory is never in the vulnerability list; it is listed as a warning exactly when its kind is enabled in `informational_warnings`, it is not ignored, and it has a warning kind (notice, unmaintained, unsound), under the map key of that kind.", "quantifier": "all databases, lockfiles and settings", "why_tests_cant": "Quantified over all inputs.", "anchors": ["rustsec/src/report.rs: find_warnings", "rustsec/src/warning.rs", "rustsec/src/advisory/informational.rs"]}
{"id": "C24", "title": "Withdrawn advisories are never reported", "statement": "No withdrawn advisory appears in a report's vulnerabilities or warnings, for any settings.", "quantifier": "all databases, lockfiles and settings", "why_tests_cant": "Quantified over all inputs.", "anchors": ["rustsec/src/database/query.rs", "rustsec/src/report.rs"]}
{"id": "C25", "title": "Raising the severity threshold only removes entries", "statement": "Reports with a higher severity threshold are sub-reports of those with a lower one, and advisories without CVSS are reported at every threshold.", "quantifier": "all databases, lockfiles, settings and pairs of thresholds", "why_tests_cant": "Monotonicity over all inputs.", "anchors": ["rustsec/src/database/query.rs: severity"]}
{"id": "C26", "title": "Audit exit status", "statement": "`cargo audit` exits 1 iff the report has a vulnerability, or a warning of a denied kind, or an advisory about cargo-audit/rustsec itself under `--deny warnings`; otherwise 0, and 2 on load errors.", "quantifier": "all reports and configurations", "why_tests_cant": "Decision logic over all reports.", "anchors": ["cargo-audit/src/presenter.rs: should_exit_with_failure, count_warnings", "cargo-audit/src/commands/audit.rs", "cargo-audit/src/auditor.rs"]}
{"id": "C27", "title": "Denying a warning kind makes it both reported and fatal", "statement": "If the user denies a warning kind, then any matching un-ignored informational advisory (or yanked crate) makes the audit fail whatever `informational_warnings` says; in particular `--deny warnings` makes every warning fatal.", "quantifier": "all configurations, databases and lockfiles", "why_tests_cant": "Cross-module interaction of config, report and presenter.", "anchors": ["cargo-audit/src/config.rs: report_settings, get_warning_kind", "cargo-audit/src/presenter.rs"]}
{"id": "C28", "title": "Binary audits drop only advisories for other platforms", "statement": "Filtering a report by binary format keeps every entry that has no OS restriction or whose OS list includes an OS that can run the format, removes the others, preserves order, and keeps `count`/`found` consistent.", "quantifier": "all reports and formats", "why_tests_cant": "Quantified over all reports.", "anchors": ["rustsec/src/binary_scanning/binary_type_filter.rs"]}
{"id": "C29", "title": "Binary size limit", "statement": "`--max-binary-size N` rejects exactly the files larger than N bytes, with 0 meaning unlimited (as the help text says).", "quantifier": "all file sizes and limits", "why_tests_cant": "Boundary over all u64.", "anchors": ["cargo-audit/src/auditor.rs: read_binary_with_limit, set_binary_scan_limits", "cargo-audit/src/commands/audit/binary_scanning.rs"]}
{"id": "C30", "title": "Lockfiles survive load/save in every format version", "statement": "Encoding a consistent lockfile (unique packages, dependencies pointing at listed packages) in format 1, 2, 3 or 4 and decoding the result yields the same packages, checksums, dependencies (name, version, source) and format version. The key under which format 1 keeps a checksum is read as the dependency it was written for (name, version, and the source as far as its text is read at all), different dependencies have different keys, and every other key is an error. Two lockfiles are written as the same text exactly if they are saved as the same document; the text begins with the @generated marker and ends with exactly one line end.", "quantifier": "all consistent lockfiles, all format versions", "why_tests_cant": "Structures of unbounded size; the compact dependency syntax must stay unambiguous.", "anchors": ["cargo-lock/src/lockfile/encoding.rs"]}
{"id": "C31", "title": "Dependency references resolve to the unique intended package", "statement": "In a compact (v2+) lockfile, a dependency written as a bare name or `name version` resolves to the unique listed package it abbreviates; unresolvable references are errors.", "quantifier": "all package lists", "why_tests_cant": "Uniqueness over all package lists.", "anchors": ["cargo-lock/src/lockfile/encoding.rs: v2_deps, resolve"]}
{"id": "C32", "title": "Lockfile format detection", "statement": "The format version is the explicit one if present (only 1 to 4 accepted), otherwise V1 iff checksum metadata is present and V2 otherwise; checksums in both places is an error.", "quantifier": "all encodable lockfiles", "why_tests_cant": "Quantified over all inputs.", "anchors": ["cargo-lock/src/lockfile/encoding.rs: try_from", "cargo-lock/src/lockfile/version.rs: detect"]}
{"id": "C33", "title": "Checksums round-trip", "statement": "Every 32-byte digest prints as 64 lowercase hex digits that parse back to it, and parsing accepts exactly the 64-digit hex strings.", "quantifier": "all digests and all strings", "why_tests_cant": "2^256 digests, all strings.", "anchors": ["cargo-lock/src/package/checksum.rs"]}
{"id": "C34", "title": "Package sources round-trip", "statement": "Printing a git, registry, sparse or path source and parsing the result gives an equal source (kind, url, reference, precise).", "quantifier": "all sources of these kinds", "why_tests_cant": "All urls/references.", "anchors": ["cargo-lock/src/package/source.rs"]}
{"id": "C35", "title": "Source equality is an equivalence consistent with ordering and hashing", "statement": "Equality of package sources is reflexive, symmetric and transitive, and equal sources have equal hashes.", "quantifier": "all triples of sources", "why_tests_cant": "Laws over all triples.", "anchors": ["cargo-lock/src/package/source.rs: Ord, Hash"]}
{"id": "C36", "title": "Dependency trees mirror the lockfile", "statement": "Building a dependency tree fails iff some listed dependency is missing; otherwise there is an edge from p to q iff p lists q, and the roots are exactly the packages nobody depends on.", "quantifier": "all lockfiles", "why_tests_cant": "Graphs of unbounded size.", "anchors": ["cargo-lock/src/dependency/tree.rs: new, roots"]}
{"id": "C37", "title": "Rendering a tree terminates and shows each package once in full", "statement": "Rendering from any root terminates even on cyclic graphs, prints exactly the packages reachable from the root, and expands each at most once.", "quantifier": "all graphs, including cyclic ones", "why_tests_cant": "Termination and coverage on all graphs.", "anchors": ["cargo-lock/src/dependency/tree.rs: render_with_symbols, print_node"]}
{"id": "C38", "title": "CVSS v3 vectors round-trip", "statement": "Parsing a printed v3 vector gives the same vector; parsing accepts each metric at most once and only with its own values; printing a parsed vector and re-parsing is stable.", "quantifier": "all vectors and all strings", "why_tests_cant": "All strings.", "anchors": ["cvss/src/v3/base.rs"]}
{"id": "C39", "title": "CVSS v3 scores", "statement": "For every complete v3 base vector the score is between 0.0 and 10.0, has at most one decimal, equals the value of the published formula in exact arithmetic with round-up, and is 0 iff there is no impact; its severity is the published band.", "quantifier": "all 2592 complete vectors times the rounding behaviour of powf", "why_tests_cant": "Floating-point rounding near one-decimal boundaries must be shown harmless on every vector.", "anchors": ["cvss/src/v3/base.rs: score, exploitability, impact", "cvss/src/v3/score.rs", "cvss/src/severity.rs"]}
{"id": "C40", "title": "CVSS v3 worsening a metric never lowers the score", "statement": "Replacing one metric value by a more severe one never decreases the base score.", "quantifier": "all pairs of vectors ordered metric-wise", "why_tests_cant": "All pairs.", "anchors": ["cvss/src/v3/base.rs"]}
{"id": "C41", "title": "CVSS v3 mandatory metrics", "statement": "A v3 vector lacking a mandatory base metric is rejected.", "quantifier": "all strings", "why_tests_cant": "All strings.", "anchors": ["cvss/src/v3/base.rs: from_str"]}
{"id": "C42", "title": "CVSS v2 vectors round-trip and scores", "statement": "v2 vectors round-trip through text; base, temporal and environmental scores lie in 0..=10 with at most one decimal and equal the published formulas computed exactly.", "quantifier": "all v2 vectors", "why_tests_cant": "Tens of millions of vectors, floating point.", "anchors": ["cvss/src/v2/vector.rs", "cvss/src/v2/score.rs"]}
{"id": "C43", "title": "CVSS v4 vectors round-trip", "statement": "Every v4 vector prints to text that parses back to the same vector; unknown, duplicate or missing mandatory metrics are rejected.", "quantifier": "all vectors and strings", "why_tests_cant": "Around 10^20 vectors, all strings.", "anchors": ["cvss/src/v4/vector.rs", "cvss/src/v4/metric.rs"]}
{"id": "C44", "title": "CVSS v4 scoring is total", "statement": "Scoring any v4 vector never panics or hits an unreachable/missing table entry, and the score is in 0.0..=10.0 with one decimal; it is 0 when there is no impact.", "quantifier": "all v4 vectors", "why_tests_cant": "Around 10^20 vectors.", "anchors": ["cvss/src/v4/scoring.rs", "cvss/src/v4/score.rs", "cvss/src/v4/lookup.rs"]}
{"id": "C45", "title": "CVSS v4 nomenclature and severity", "statement": "The nomenclature is B, BT, BE or BTE according to which metric groups are set to something other than X, and the severity is the band of the score.", "quantifier": "all v4 vectors", "why_tests_cant": "All vectors.", "anchors": ["cvss/src/v4/score.rs"]}
{"id": "C46", "title": "CVSS version dispatch", "statement": "`Cvss::from_str` hands a string to the version its prefix names, never accepting a vector under another version, and printing the parsed value re-parses to the same value.", "quantifier": "all strings", "why_tests_cant": "All strings.", "anchors": ["cvss/src/cvss.rs"]}
{"id": "C47", "title": "Platform globs", "statement": "A platform requirement matches a target triple iff the triple matches the pattern where a leading/trailing `*` stands for any prefix/suffix; no input panics.", "quantifier": "all patterns and triples", "why_tests_cant": "All strings.", "anchors": ["platforms/src/platform/req.rs"]}
{"id": "C48", "title": "Assigned advisory ids are fresh", "statement": "Running the id assigner gives each draft an id of its year whose number is one more than the highest in use, so that no two advisories share an id and numbers are consecutive.", "quantifier": "all advisory databases and draft lists", "why_tests_cant": "All histories of assignments.", "anchors": ["admin/src/assigner.rs"]}
{"id": "C49", "title": "Fix commands name exactly the vulnerable packages", "statement": "`cargo audit fix` runs `cargo update` for exactly the lockfile packages with the vulnerable crate's name and a vulnerable version, adding --dry-run iff requested.", "quantifier": "all lockfiles and vulnerabilities", "why_tests_cant": "All lockfiles.", "anchors": ["rustsec/src/fixer.rs"]}
{"id": "C50", "title": "Fix command exit status reflects remaining vulnerabilities", "statement": "`cargo audit fix` exits non-zero if vulnerabilities remain after it ran.", "quantifier": "all runs", "why_tests_cant": "All runs of an external tool.", "anchors": ["cargo-audit/src/commands/audit/fix.rs", "cargo-audit/src/commands/audit.rs: run"]}
{"id": "C51", "title": "Yanked check is exact and caches consistently", "statement": "find_yanked reports exactly the packages whose version the index marks yanked, reports an error for unknown crates/versions, and its answer for a package is the same as for a fresh index whatever was asked before.", "quantifier": "all indices, package lists and histories of previous calls", "why_tests_cant": "All call histories.", "anchors": ["rustsec/src/cached_index.rs"]}
{"id": "C52", "title": "File modification times in git", "statement": "For a tracked file touched by some non-merge commit the modification (creation) time is the latest (earliest) time of a non-merge commit touching it, independent of traversal order; looking up any tracked file does not panic.", "quantifier": "all histories", "why_tests_cant": "All git histories.", "anchors": ["rustsec/src/repository/git/modification_time.rs"]}
{"id": "C53", "title": "Affected function paths", "statement": "Function paths parse iff they are at least two `::`-separated valid identifiers, and print back as written; the affected functions of a vulnerability are exactly those having a requirement matching the package version.", "quantifier": "all strings; all advisories", "why_tests_cant": "All strings.", "anchors": ["rustsec/src/advisory/affected.rs", "rustsec/src/vulnerability.rs"]}
{"id": "C54", "title": "Symbol matching in binaries", "statement": "A symbol path matches an affected function path iff first and last segments agree and the middle segments form a subsequence.", "quantifier": "all paths", "why_tests_cant": "All lists.", "anchors": ["cargo-audit/src/binary_scanning.rs"]}
{"id": "C55", "title": "Advisory linter soundness", "statement": "An advisory the linter accepts has a description not mentioning unescaped mentions, an id year consistent with its date, and only recognised keys, categories and informational types; well-formed advisories are accepted.", "quantifier": "all advisories", "why_tests_cant": "All advisories.", "anchors": ["rustsec/src/advisory/linter.rs"]}
{"id": "C56", "title": "End to end: a crates.io dependency outside every safe range makes the audit fail", "statement": "With default settings, auditing a lockfile exits non-zero iff it contains a crates.io package that some active non-ignored vulnerability advisory names and whose version is in none of that advisory's declared safe ranges (or the configuration denies a warning that applies).", "quantifier": "all databases, lockfiles, configurations", "why_tests_cant": "Quantifies over databases, lockfiles and configurations, and composes several modules.", "anchors": ["cargo-audit/src/auditor.rs", "cargo-audit/src/presenter.rs", "rustsec/src/report.rs"]}
{"id": "C57", "title": "Target attribute names round-trip", "statement": "Every architecture, operating system, environment, endianness, pointer width and tier prints a name that parses back to it, and no other name is accepted.", "quantifier": "all strings and all attribute values", "why_tests_cant": "All strings; the tables are generated and change regularly.", "anchors": ["platforms/src/target/arch.rs", "platforms/src/target/os.rs", "platforms/src/target/env.rs"]}
{"id": "C58", "title": "Platform list lookups are exact", "statement": "Looking up a triple finds exactly the listed platform with that triple; using the triple of a listed platform as a requirement selects that platform only.", "quantifier": "all strings and listed platforms", "why_tests_cant": "All strings; generated table.", "anchors": ["platforms/src/platform/platforms.rs", "platforms/src/platform.rs", "platforms/src/platform/req.rs"]}
{"id": "C59", "title": "Upgrade hints only suggest usable versions", "statement": "When an advisory has no patched versions, a hinted unaffected requirement is matched by some version strictly newer than the installed one; requirements matched by a newer release are hinted.", "quantifier": "all versions and requirement lists", "why_tests_cant": "All versions.", "anchors": ["cargo-audit/src/presenter.rs"]}
{"id": "C60", "title": "SARIF output is internally consistent and complete", "statement": "Every vulnerability and warning of the report yields exactly one result, every result refers to a declared rule, and no rule id is declared twice.", "quantifier": "all reports", "why_tests_cant": "All reports.", "anchors": ["cargo-audit/src/sarif.rs"]}
{"id": "C61", "title": "Command line options override the configuration as documented", "statement": "Ignored ids accumulate; target filters given on the command line replace the configured ones; boolean switches only tighten; --deny warnings implies all kinds; an invalid ignored id is an error.", "quantifier": "all configurations and command lines", "why_tests_cant": "All combinations of options.", "anchors": ["cargo-audit/src/commands/audit.rs", "cargo-audit/src/config.rs"]}
{"id": "C62", "title": "Embedded dependency data becomes the same dependency graph", "statement": "The lockfile recovered from a binary's embedded audit data lists exactly the recorded packages, with crates.io sources only for crates.io packages, and each recorded edge; malformed data is rejected without panicking.", "quantifier": "all embedded package lists", "why_tests_cant": "All embedded data.", "anchors": ["cargo-audit/src/binary_deps.rs"]}
{"id": "C63", "title": "Terminal output is complete and its counts are right", "statement": "In the default output format, `cargo audit` shows exactly the report's vulnerabilities in order, every warning (marked denied iff it is fatal), counts equal to what is shown, and the dependency tree of each package with a finding exactly once.", "quantifier": "all lockfiles, databases, index answers and configurations", "why_tests_cant": "All reports; deduplication state across findings.", "anchors": ["cargo-audit/src/presenter.rs: print_report, print_tree", "cargo-audit/src/commands/audit.rs"]}
{"id": "C64", "title": "Exit status of auditing several binaries", "statement": "`cargo audit bin` examines every file; it exits 1 iff some file's dependencies have a finding for its platform, else 2 iff some file could not be examined, else 0.", "quantifier": "all file lists, limits, databases, configurations", "why_tests_cant": "All sequences of files.", "anchors": ["cargo-audit/src/auditor.rs: audit_binaries, audit_binary", "cargo-audit/src/commands/audit/binary_scanning.rs"]}
{"id": "C65", "title": "Crates recovered from panic messages are really in the binary", "statement": "Every crate and version reported from a binary's panic messages occurs in the binary as the registry directory cargo unpacked it to (`cargo/registry/src/<registry>/<crate>-<version>/`, with either kind of path separator); every such directory is reported, Windows paths when there are no Unix ones; crate name and version are split correctly for every publishable name and every semver version; the recovered lockfile has exactly one crates.io package for each.", "quantifier": "all binaries", "why_tests_cant": "All byte strings, all crate names and versions.", "anchors": ["quitters/src/lib.rs: versions, versions_for_regex, parse_capture", "rustsec/src/binary_scanning/binary_deps.rs: deps_from_panic_messages"]}
{"id": "C66", "title": "Advisory links", "statement": "Every RUSTSEC (except the placeholder), CVE, GHSA and TALOS id links to its page, no other id does, and two different ids never have the same link.", "quantifier": "all ids", "why_tests_cant": "All strings.", "anchors": ["rustsec/src/advisory/id.rs: Id::url"]}
{"id": "C67", "title": "The OSV export gives the same verdicts as the tool", "statement": "For every advisory that is exported, a consumer which evaluates the exported JSON document by the OSV rules calls a version of a package affected exactly when it is the advisory's crate on crates.io and no patched or unaffected requirement of the advisory covers the version, which is also what the tool itself reports; the event timeline is ordered, alternates introduced/fixed and starts with an introduction; an advisory is exported exactly when its dates, modification time and version ranges allow, and the published time is noon UTC of the advisory's date.", "quantifier": "all advisories, all versions, all modification times", "why_tests_cant": "All requirement lists and all versions.", "anchors": ["rustsec/src/osv/advisory.rs: OsvAdvisory::from_rustsec, OsvJsonRange::new, rustsec_date_to_rfc3339", "rustsec/src/osv/ranges_for_advisory.rs"]}
{"id": "C68", "title": "Exported OSV documents can be read back and lose nothing", "statement": "Reading the JSON of an exported advisory with the library's own OSV reader gives the document that was written; two advisories with the same document have the same id, package, title, description, aliases, related ids, categories, CVSS, informational kind, license, urls, platforms and functions, both or neither are withdrawn, and the same versions are affected.", "quantifier": "all advisory files that load and export", "why_tests_cant": "All texts and field combinations.", "anchors": ["rustsec/src/osv/advisory.rs: serde derives, OsvAdvisory::from_rustsec", "rustsec/src/advisory/*.rs: Display/FromStr pairs"]}
{"id": "C69", "title": "Importing OSV documents", "statement": "The RustSec ids a document was imported from are exactly those its references name, each once and in an order that does not depend on the order of the references; a document the library exported itself names its own id; the crates of a document are exactly the names of its affected crates.io packages, each once.", "quantifier": "all OSV documents", "why_tests_cant": "All reference lists.", "anchors": ["rustsec/src/osv/advisory.rs: rustsec_refs_imported, crates, Deserialize"]}
{"id": "C70", "title": "Exporting the whole database to OSV", "statement": "When the export of a repository succeeds, every file that was written is the document of an advisory file of the crates collection, and every advisory file of a known kind is written. It succeeds exactly if the collection and its directories can be read, there is at least one file, and every file exports or is of an unknown kind. For a database whose ids contain no dot or slash and have the usual form, and without hidden files: a consumer that evaluates the written documents by OSV's rules is told that a version of a crate is affected by an advisory exactly if the database holds that advisory for that crate and the version is neither patched nor unaffected.", "quantifier": "all repositories, histories and clocks; all crate names and versions", "why_tests_cant": "All repositories; composition of loader, range computation, JSON and file naming.", "anchors": ["admin/src/osv_export.rs: OsvExporter::export_all", "rustsec/src/osv/advisory.rs: OsvAdvisory::from_rustsec", "rustsec/src/database.rs: Database::open"]}
{"id": "C71", "title": "The lint command's exit status", "statement": "The repository linter reports as many invalid advisories as there are files that fail a lint, and it stops with an error exactly if a collection cannot be read, a file is not an advisory, or (with the index locked) an advisory names a crate that is not published under that name. The lint command exits with success exactly if the index is available, the database opens and is not empty, no file has a lint error and every named crate is published.", "quantifier": "all repositories and index contents", "why_tests_cant": "All repositories.", "anchors": ["admin/src/linter.rs: Linter::lint", "admin/src/commands/lint.rs: Runnable", "rustsec/src/advisory/linter.rs"]}
{"id": "C72", "title": "Listing affected versions", "statement": "The list of affected crate versions has one entry for each advisory of the crates collection, in order; each entry lists every version of the crate in the index and marks it vulnerable exactly if it is neither patched nor unaffected.", "quantifier": "all databases and index contents", "why_tests_cant": "All version lists and requirements.", "anchors": ["admin/src/list_versions.rs: AffectedVersionLister::process_all_advisories"]}
{"id": "C73", "title": "Synchronising aliases with another database", "statement": "After a successful synchronisation the file of every advisory holds the same advisory, with the aliases it had plus the CVE and GHSA ids of every OSV document in force that is linked to it (by a reference to its page or by an alias) and names its crate, and nothing else in it or in any other file has changed. The run never fails with an error, and it panics exactly if a document in force refers to an advisory page of no known advisory. It reports that everything is up to date exactly if no advisory gains an alias, and it reports as missing exactly the documents in force linked to no advisory that name a published crate. A second run changes nothing, unless an alias gained in the first links a document that was not linked before. The text written keeps title and description if the printed front matter ends with a line break and contains no fence.", "quantifier": "all repositories and databases read from them, all OSV documents in any order", "why_tests_cant": "All document sets; accumulated edits of one file by several documents.", "anchors": ["admin/src/commands/sync.rs: sync, update_advisory_from_alias, load_osv_export", "rustsec/src/osv/advisory.rs: rustsec_refs_imported, crates"]}
{"id": "C74", "title": "Translating a lockfile keeps its packages, and the route does not matter", "statement": "`cargo lock translate` accepts exactly the options that name one of the formats 1 to 4 (default 3). For every lockfile that was read from a file, whose dependencies are listed packages and which the chosen format can express, the translated file can be read again, has the chosen format, the same packages with the same versions, sources, checksums, dependencies and replacements (a replacement beside dependencies excepted, which no format can hold) and the same unused patches; no legacy root is written. Translating through any sequence of intermediate formats gives exactly the same document as translating directly, provided that, if format 1 is involved, no checksum entry is filed under a package without a checksum.", "quantifier": "all lockfile documents, all sequences of format options, all URL normalisers satisfying the stated laws", "why_tests_cant": "quantifies over all lockfiles and all finite sequences of translations; needs the encoding and decoding of every format to be mutually inverse", "anchors": ["cargo-lock/src/main.rs: TranslateCmd::run", "cargo-lock/src/lockfile/version.rs: FromStr, Default", "cargo-lock/src/lockfile/encoding.rs"]}
{"id": "C75", "title": "`cargo lock list` and `cargo lock tree` show the right packages", "statement": "An argument of `cargo lock tree` selects a package exactly if it is `name@id`, the name, or the id, where the id is the version or, for text that is not a version, the checksum or source commit. The command fails exactly if some dependency is not listed or some argument selects nothing, and never panics; otherwise it draws for each argument, in order, the tree of the first listed package it selects. Without arguments it draws the trees of the packages nobody lists, and if there is no dependency cycle every package appears. Each line determines its place in the tree and the package's name and version. `cargo lock list` prints one line per package of the given name in file order, and the listing with dependencies determines all names, versions and dependencies.", "quantifier": "all lockfiles without duplicate packages and with pinned git sources, all argument lists, both directions", "why_tests_cant": "quantifies over all dependency graphs (including cyclic ones) and all argument texts", "anchors": ["cargo-lock/src/main.rs: ListCmd::run, TreeCmd::run, package_matches", "cargo-lock/src/dependency/tree.rs: print_node"]}
{"id": "C76", "title": "The generated web site shows every advisory once, where it belongs, and has no dead links", "statement": "When `rustsec-admin web` succeeds: the list of advisories shows every advisory of the database exactly once, the newest (by the day its file was first committed) first and those of a day in the database's order; every advisory has a page with its dates; every package, keyword (in its URL form) and category that occurs has a page listing exactly the advisories that have it, in the same order, and a package also a JSON file with their OSV exports; no other name has a page; each of the three index pages lists each name once, by lower-case name, with its link (and, for packages, the number of advisories); and every link from a page of the site to another file of the site leads to a file that was written. Generation succeeds exactly if the database is not empty and every advisory has a history, dates that can be written, and an OSV export.", "quantifier": "all databases, git histories, calendars, names, keywords and categories (names other than \"index\" for the pages that would collide with an index)", "why_tests_cant": "depends on every combination of shared packages, keywords and categories, on ties in the sort and on files that overwrite each other", "anchors": ["admin/src/web.rs: render_advisories, render_list_index, safe_keyword, friendly_date, AdvisoryData::new", "admin/templates/*.html"]}
{"id": "C77", "title": "The web site's search finds what is mentioned, and its feed carries everything recent", "statement": "The search index lists under every identifier (own id, alias or related, in lower case) exactly the advisories that mention it. A search, regardless of case, for text that names no package opens the page of the only advisory mentioning it, or lists all the advisories mentioning it, or says there are none; it never lists or opens an advisory that does not mention it, and the pages exist. A search for a package's name opens the package's page, which exists exactly if the package is so named in lower case. The feed consists of the newest advisories: at least ten (or all), all that were published in the last week, and beyond ten nothing older; each entry links to the advisory's page with the days it was published and changed. Dates on pages name the calendar day.", "quantifier": "all databases, histories, search texts and days of generation", "why_tests_cant": "the interaction of an index built in Rust with a script reading it, for every search text; the feed's length depends on the day and the whole database", "anchors": ["admin/src/web.rs: render_index, render_feed, render_advisories", "admin/src/web/static/js/search.js: search"]}
{"id": "C78", "title": "Loading an advisory yields exactly what its file says", "statement": "Loading an advisory file succeeds with a result if and only if the file has the advisory layout and the result is what it says: every field of the result is the entry of that name in the front matter (required entries present, optional ones absent exactly when the entry is, defaulted ones the documented default when the entry is missing, lists read element by element in order), the safe requirements are the `patched` (obligatory) and `unaffected` lists, the affected functions are exactly the listed paths with their requirements in path order, and title and description come from the Markdown and not from the front matter. Neither the order of tables and entries nor entries with other keys change the result.", "quantifier": "every TOML document (as produced by any TOML parser that keeps keys distinct), every advisory file text, every permutation of entries and every set of additional keys", "why_tests_cant": "tests load a handful of documents in one order; which entry ends up in which field, and that nothing else influences the result, is a statement about all documents", "anchors": ["rustsec/src/advisory.rs: FromStr for Advisory", "rustsec/src/advisory/metadata.rs: Metadata", "rustsec/src/advisory/affected.rs: Affected", "rustsec/src/advisory/versions.rs: RawVersions, Versions", "rustsec/src/collection.rs: FromStr for Collection"]}
{"id": "C79", "title": "The configuration file means what it says and nothing is silently dropped", "statement": "For every audit.toml, `cargo audit` accepts the file exactly if every section and key in it is one of the documented ones with a value of the documented form, and then the configuration it runs with is the one the file states, independent of the order of keys; entries left out have the documented defaults. A misspelt section or key or an ill-formed value is an error that stops the command with status 1 before anything is audited. The project's .cargo/audit.toml takes precedence over the user's, and they are never mixed.", "quantifier": "all TOML documents, all file systems and home directories, all command lines, all lockfiles and databases", "why_tests_cant": "deny_unknown_fields, renames, defaults and untagged enums interact over an unbounded space of documents; a test fixes a handful of files", "anchors": ["cargo-audit/src/config.rs:AuditConfig", "cargo-audit/src/config.rs:DatabaseConfig", "cargo-audit/src/config.rs:OutputConfig", "cargo-audit/src/config.rs:FilterList", "cargo-audit/src/commands.rs:config_path", "cvss/src/severity.rs:FromStr for Severity"]}
{"id": "C80", "title": "Fetching gives the advisories the repository serves, and stale databases are refused", "statement": "For every state of the disk, server and clock and every history of earlier fetches, including failed and interrupted ones: a fetch that succeeds leaves at the directory it returns a clone whose HEAD is the commit the repository serves, with every file of that commit; nothing but content the repository has served under that path is ever in the checkout; the advisories loaded after a first fetch are exactly those of the commit. URLs other than https are refused before anything is touched. With the freshness check, the fetch succeeds exactly if the last commit is less than ninety days old, otherwise `cargo audit` ends with status 1. A fetch that was interrupted can be repeated.", "quantifier": "all disks, URLs, paths, servers, clocks, trees, and all sequences of fetches with failures and crash points anywhere in them", "why_tests_cant": "depends on the order of the updates of HEAD and the working tree at every crash point and on histories of upstream changes; tests fetch once from one repository", "anchors": ["rustsec/src/repository/git/repository.rs:Repository::fetch", "rustsec/src/repository/git/repository.rs:perform_fetch", "rustsec/src/repository/git/commit.rs:from_repo_head", "rustsec/src/repository/git/commit.rs:reset", "rustsec/src/repository/git/commit.rs:is_fresh", "rustsec/src/database.rs:load_from_repo", "cargo-audit/src/auditor.rs:Auditor::new"]}
{"id": "C81", "title": "The JSON report lists the findings, counts them and can be read back", "statement": "`cargo audit --json` prints one JSON report. Its `vulnerabilities.list` has an entry with advisory id i and package n version v exactly if an advisory i of the database that is not informational, withdrawn or ignored concerns the lockfile's package n v; `warnings.<kind>` exactly the informational advisories of that kind that the settings ask for; `warnings.yanked` exactly the crates.io packages the index says are yanked (if it is consulted); `vulnerabilities.count`, `found`, `lockfile.dependency-count` and `database.advisory-count` agree with them. Reading any JSON value with the library's types succeeds exactly on the documents of the stated form and gives what they say; reading the printed report gives the report itself back, so two reports that print the same are the same.", "quantifier": "all advisory databases, lockfiles, configurations, index answers and commit times; for reading, all JSON values", "why_tests_cant": "serialisation is spread over derived and hand-written serde implementations of two dozen types; tests compare a handful of fields of one report and never read one back", "anchors": ["rustsec/src/report.rs: Report, DatabaseInfo, LockfileInfo, VulnerabilityInfo, WarningInfo", "rustsec/src/vulnerability.rs: Vulnerability", "rustsec/src/warning.rs: Warning, WarningKind", "cargo-lock/src/package.rs: Package", "cargo-lock/src/package/source.rs: SourceId (Serialize, Deserialize)", "cargo-audit/src/presenter.rs: print_report (OutputFormat::Json)"]}
{"id": "C82", "title": "A severity threshold is a threshold on the CVSS score", "statement": "Every CVSS vector read from a text, of any version, has a score (the one its standard defines, between 0.0 and 10.0 in tenths) and the severity of the band that score is in, without panicking. So with `severity_threshold` set, the report and `cargo audit --json` list exactly the findings they list without it whose advisory has no score or a score of at least 0.0 (none), 0.1 (low), 4.0 (medium), 7.0 (high), 9.0 (critical). CVSS v2 is the exception: it has no critical band (a threshold of critical drops a v2 score of 10.0) and its low band begins at 0.0.", "quantifier": "all CVSS texts, advisory databases, package lists, settings and thresholds; all rounding of powf within the stated accuracy", "why_tests_cant": "the threshold is applied to an enum computed by three score types in floating point; tests score a few vectors and never run a report with a threshold at a band's boundary", "anchors": ["cvss/src/cvss.rs: Cvss::score, Cvss::severity", "cvss/src/severity.rs: Severity", "rustsec/src/advisory.rs: Advisory::severity", "rustsec/src/database/query.rs: Query::matches", "cargo-audit/src/config.rs: report_settings"]}
{"id": "C83", "title": "Only named files can crash the loader and the repository commands", "statement": "Loading an advisory file never crashes the process, but gives an advisory or an error, except for two kinds of file: text without the opening fence whose byte 20 is inside a character, and a document whose version requirements crash the range computation (one names exactly one version that is the open lower bound of another, or a component is u64::MAX). Opening a database, `rustsec-admin lint` (exit 0 or 1 otherwise) crash only if loading (or linting) one of their files does; `osv` ends with success, with an error for an unreadable directory or file, an untracked file or an empty repository, or crashes for a file that loads badly or cannot be expressed (C67); `list-affected-versions` never exits with an error: it lists everything, or crashes exactly for a crate missing from the index or a version text that is no version.", "quantifier": "all file contents, TOML documents, repositories, index answers and commit times", "why_tests_cant": "fuzzing finds crashes but cannot show there are no others; the commands combine a dozen decoders with unwraps and slices", "anchors": ["rustsec/src/advisory.rs: FromStr, load_file", "rustsec/src/advisory/parts.rs: Parts::parse", "rustsec/src/advisory/versions.rs: Versions::new", "rustsec/src/database.rs: Database::open", "admin/src/linter.rs: lint", "admin/src/osv_export.rs: export_all", "admin/src/list_versions.rs: process_all_advisories"]}
{"id": "C84", "title": "The SARIF document describes every finding, rule by rule", "statement": "Whenever an audit succeeds, `cargo audit --format sarif` writes a document (it never crashes): one run of cargo-audit, with one result for each finding in order (error for a vulnerability, warning otherwise; its rule, its message naming package, version and title, its fingerprint rule:name:version) and one rule for each advisory or kind of warning, declared once, where first used: id, title, description if there is one, help linking to the advisory's URL if there is one, tags, problem severity only for warnings, and as security severity the published CVSS score of the vector with one decimal. A lockfile audit has error results for exactly the advisories without informational kind that concern a package and are not ignored, and warning results for exactly the informational ones asked for and the yanked packages. Results point at `Cargo.lock` for every lockfile, whatever its path, and at the executable for an executable.", "quantifier": "all databases read from files, lockfiles, configurations, index answers, CVSS vectors and accurate powf implementations", "why_tests_cant": "the document is assembled from a hand-written traversal with a set of seen rules, optional members and a float formatter; a test compares a few reports", "anchors": ["cargo-audit/src/sarif.rs: SarifLog::from_report, Run::from_report, ReportingDescriptor::from_advisory, from_warning_kind, SarifResult::from_vulnerability, from_warning, Location::new", "cargo-audit/src/presenter.rs: print_report", "cargo-audit/src/auditor.rs: audit_lockfile, audit_binary"]}
{"id": "C85", "title": "The linter's findings, one by one, and what crashes it", "statement": "Linting an advisory reports outside its text exactly these findings, with these fields and messages: an unknown section or key; `advisory` that is not a table; a draft id that does not fit the file name; an unknown kind of id; an id whose year (RUSTSEC, TALOS) is not that of the date, reported at whichever of the two comes later; an unknown category, informational kind or licence; an explicit collection; a URL without https; `yanked` without `withdrawn`; a function path that does not start with the crate's name; an unknown architecture; an empty operating system. It crashes exactly if loading crashes, or the document has `informational`, `affected.functions/arch/os` where the loaded advisory has none, or the date has no year; with the `[advisory]` header in place, only if the date has no year. It fails exactly if loading fails or the front matter is not TOML.", "quantifier": "all texts, TOML decoders, documents with distinct keys and loaded advisories", "why_tests_cant": "the findings depend on combinations and the order of keys; a test checks one faulty document", "anchors": ["rustsec/src/advisory/linter.rs: Linter::lint_string, lint_advisory, lint_metadata, lint_versions, lint_affected"]}
{"id": "C86", "title": "The terminal report says everything found, with all its particulars", "statement": "With the terminal format an audit prints one block for each finding and nothing else, in the report's order: crate and version; for a warning its kind; for an advisory its title, date, identifier, address (under CC-BY-4.0 its own, otherwise the identifier's page) and, if it has a CVSS vector, the published score with the band's name; for a vulnerability the solution (patched requirements, else the unaffected ones that permit something newer, else none); for an executable exactly the affected functions of the version in use that are among its symbols. Vulnerabilities and denied warnings are red, others yellow. Each package's tree of dependents is drawn once. The last lines state the exact numbers of vulnerabilities, denied and allowed warnings, with the right grammatical number. The symbols considered are exactly those whose name contains a reported package's name with underscores and that can be read. The report about cargo-audit itself and the scanning line are likewise exact.", "quantifier": "all databases, lockfiles, configurations, reports, symbol tables and symbol readers", "why_tests_cant": "blocks depend on combinations of optional fields, on what was drawn before and on scores; a test checks one screen", "anchors": ["cargo-audit/src/presenter.rs: Presenter::print_report, print_vulnerability, print_warning, print_metadata, print_affected, print_tree, print_self_report, before_report, count_warnings", "cargo-audit/src/binary_scanning.rs: SymbolSet::from_file"]}
{"id": "C87", "title": "The platforms generator reads exactly what the support page and rustc say", "statement": "From the platform-support page the generator takes for each target the tier and notes of the first row that names it: a row of a table that follows a `Tier N` heading and has a `target` and a `notes` column, the target being the code span of its cell. A page without such a table crashes the generator; otherwise a target is known exactly if some such row names it. From rustc's output each key has the value of the last line `key=\"value\"` (with further `=` dropped); lines without `=` are ignored and any other line crashes. The generator goes on only if rustc's list and the page name exactly the same targets.", "quantifier": "all documents, all outputs of rustc, all lists of targets", "why_tests_cant": "depends on the order of headings, tables and rows and on duplicates; the unit tests show one page and one output", "anchors": ["platforms-data-gen/src/doc_target_info.rs: parse_file", "platforms-data-gen/src/rustc_target_info.rs: parse_rustc_target_info, targets_info, target_triples", "platforms-data-gen/src/main.rs: ensure_rustc_and_docs_agree"]}
{"id": "C88", "title": "The generated platform tables are complete, and their names clash only in known ways", "statement": "If the generator ends well it has written exactly six files: for each of five keys an enum with one variant per distinct value of any target, in order, with `as_str` and `from_str` made of the same pairs; and the list of all targets with a constant for each, in rustc's order, carrying its own values, tier and notes. It ends well exactly if all targets have all keys with usable values and tier 1, 2 or 3. With exit code 1 nothing is written; a crash leaves the earlier files complete and the later ones untouched. Two values share a variant only if they agree up to case and underscores or are a renamed value; if the variants differ the conversions are inverse. Two targets share a constant exactly if they differ only in case and in `-`, `.`, `_`. (That variants never clash, and that the files are written all or none, is false.)", "quantifier": "all pages, lists of targets, outputs of rustc, templates and comments", "why_tests_cant": "the files depend on all targets at once and on crash points between writes; the unit tests show a dozen names", "anchors": ["platforms-data-gen/src/write.rs: write_targets_file, write_list_of_targets, write_target_struct, write_enum_file, write_enum_definition, write_enum_string_conversions, to_const_variable_name, tier_to_enum_variant", "platforms-data-gen/src/enums.rs: distinct_values, to_enum_variant_name, make_ascii_titlecase", "platforms-data-gen/src/main.rs: main"]}
{"id": "C89", "title": "A more severe CVSS v4 vector never has a lower score", "statement": "If every metric of one CVSS v4.0 vector is at least as severe as that of another (modified metrics taking the place of base metrics, metrics that are not defined counting as their worst value), its score and its qualitative severity are at least as high. In particular raising a single metric, or leaving out exploit maturity or a security requirement, never lowers the score.", "quantifier": "all pairs of v4 vectors with the mandatory metrics, all texts they are read from", "why_tests_cant": "there are more than 10^14 vectors and many more pairs; the score comes from a table of 270 entries and an interpolation between them, so the order holds only because of all entries together", "anchors": ["cvss/src/v4/scoring.rs: score", "cvss/src/v4/score.rs: round_v4", "cvss/src/v4/scoring/lookup.rs: lookup_global", "cvss/src/v4/scoring/max_composed.rs", "cvss/src/v4/scoring/max_severity.rs", "cvss/src/v4/vector.rs: Vector::score"]}
{"id": "C90", "title": "A more severe CVSS v2 vector has no lower base and temporal score", "statement": "If every metric of one CVSS v2 vector is at least as severe as that of another, its base score and its temporal score are at least as high, and so is its environmental score unless the base equation with the adjusted impact is negative for one of them, which needs a low security requirement. (That the environmental score never goes down is false: more impact or a more mature exploit can take it from 5.0 to 4.9.)", "quantifier": "all pairs of v2 vectors", "why_tests_cant": "quantifies over all pairs of vectors; the exception is a corner of the environmental equation that sample vectors do not reach", "anchors": ["cvss/src/v2/vector.rs: Vector::score, temporal_score, environmental_score, temporal_score_internal", "cvss/src/v2/score.rs: Score::roundup"]}
{"id": "C91", "title": "Version requirements as text: one meaning per text, and writing then reading changes nothing", "statement": "A requirement such as `>=1.2.3-rc.1, <2` is accepted exactly when it follows the documented grammar (operator, up to three numbers of 64 bits without leading zeros, wildcards for missing ones, pre-release only after three numbers, at most 32 comparators separated by commas), and then has exactly one meaning; a version alone is the caret requirement. Writing a requirement that was read gives a text with the same meaning, after which the text no longer changes; two requirements are written alike exactly when they are equal. So JSON reports are read back with the same requirements, and the loader never holds a requirement that is not well formed. (That the text itself is kept is false: `1.2.3` is written `^1.2.3`; and requirements of more than 32 comparators are not read back.)", "quantifier": "all texts, all requirements", "why_tests_cant": "ranges over all strings; ambiguity or loss in some combination of operator, wildcard, blank and pre-release is not visible in sample requirements", "anchors": ["rustsec/src/advisory/versions.rs: Versions, RawVersions", "rustsec/src/advisory/affected.rs: FunctionPath versions", "cargo-audit/src/presenter.rs: print_vulnerability (solution)", "Cargo.toml: semver"]}
{"id": "C92", "title": "Audits running at the same time: one writer, no stale lock, one database", "statement": "However the steps of any number of audits (with or without a fresh database, killed at any point) are interleaved: at most one of those with the same path is between obtaining and giving up its lock, and if no path lies below another repository at most one writes to a directory; a lock is never left behind by a process that has ended, so that a new audit can go on at once when none is fetching; a process gives up for lack of the lock only while another one has it; none is stuck. For audits with one URL and path: HEAD, every file of the working tree and every file any of them loads has been served by the URL under that path; when a fetch ends with success the clone has all files of a commit that has been served; and while the URL serves the same files each of them loads exactly these files, although others may be rewriting them. Removing an empty directory before the lock is asked for never removes a file, makes no audit fail that runs alone or finds a clone, and never makes all fail. An audit waits for a lock (five minutes at most, and saying so even when told to be quiet) exactly if somebody else holds the lock it asks for; a lock given up within that time makes no difference to the audit; without cargo's package lock or the index it goes on without looking for yanked crates. (That the message about a busy package lock names the directory that is locked is false, it names the advisory database. That each of them loads the files of a single commit, or that a file it has listed is still there when it is read, is false, as the lock is given up before the files are read; and two paths below one repository have different locks; two first runs at once on an empty directory may make one of them fail.)", "quantifier": "all numbers of processes, all their URLs, paths and options, all interleavings of their steps, all places at which processes are killed, all answers of the servers", "why_tests_cant": "races depend on the schedule; a test runs a handful of schedules, and the ones that break show a mixed database only if the files change between two reads", "anchors": ["rustsec/src/repository/git/repository.rs: Repository::fetch (lock)", "cargo-audit/src/auditor.rs: Auditor::new", "rustsec/src/database.rs: Database::load_from_repo"]}
{"id": "C93", "title": "A version requirement selects exactly the documented ranges", "statement": "A release version is selected by a requirement of an advisory exactly when it lies in the range each comparator stands for in the documentation: `=`, `>`, `>=`, `<`, `<=`, `~`, `^`, none, and wildcards, before one, two or three numbers, as texts and as values. A pre-release is selected only if some comparator names a pre-release of the very same three numbers, and then exactly if it lies in the corresponding ranges of pre-releases; so a requirement that names no pre-release selects none. Build metadata plays no role. A requirement has no gaps among releases, nor among the pre-releases of the same three numbers. The affected functions reported for a package are those with a requirement its version meets in this sense.", "quantifier": "all requirements of any number of comparators, all versions, all numbers", "why_tests_cant": "ranges over all operators, numbers and pre-release identifiers at once; off-by-one bounds and pre-release exceptions hide between sample versions", "anchors": ["rustsec/src/vulnerability.rs: Vulnerability::affected_functions", "cargo-audit/src/presenter.rs: print_vulnerability, permits_newer_release", "rustsec/src/advisory/versions.rs: Versions", "Cargo.toml: semver"]}
{"id": "C94", "title": "The published table of platforms lists every platform once, under its tier", "statement": "The generator of the table of platforms either stops before writing anything, which is exactly if the longest target has not 36 characters or the longest system not 10 (or there are no platforms), or writes a table which, read as Markdown, has under the heading of each tier exactly the platforms of that tier, in their order, each once, with its target, architecture, system and environment. It defines one link for every platform, in order. The link of a target leads to the page of the constant the other generator defines for it exactly if the target has no dot; with a dot it leads to no constant's page. The columns line up exactly if every architecture and environment fits its column. For the platforms of the crate the table is written. That it lines up, and that all its links lead somewhere, is refuted.", "quantifier": "all lists of platforms", "why_tests_cant": "the widths are assumed for targets and systems only, the sorting and the links come from different places, and no test runs the generator; whether the links agree with the other generator's constants concerns every name", "anchors": ["platforms-table-gen/src/main.rs: main, print_platforms_table, print_platform_entry, print_platform_links", "platforms-data-gen/src/write.rs: to_const_variable_name", "platforms/src/platform/tier.rs: Tier"]}
{"id": "C95", "title": "What a fetch records: FETCH_HEAD and HEAD", "statement": "After the objects have been received, a fetch records the commit of the first symbolic HEAD the server gave. The file FETCH_HEAD then reads back, by git's format, as one or two lines for merging, each with the identifier in forty lower-case hexadecimal digits: one with the URL exactly if the remote's HEAD was asked for, one with the branch exactly if HEAD leads to a branch whose name is text; nothing to write is an error. For this program's own refspec the URL's line always comes first, and the recording fails exactly if the server gives no symbolic HEAD or one that is no SHA-1. If the fetch succeeds, HEAD leads to that commit, and no reference has moved except the one HEAD led to; if it fails, no reference has moved. Once the file is written it succeeds exactly if the references from HEAD end soon enough (and, when HEAD leads to a symbolic reference, the end exists).", "quantifier": "all lists of references a server gives, remotes, stores of references, failures of writing", "why_tests_cant": "the tests have no server; the cases (detached HEAD, chains of symbolic references, names that are no text, other hashes) concern every answer of a server and every state of the repository", "anchors": ["rustsec/src/repository/git/repository.rs: write_fetch_head, encode_hex, perform_fetch, REF_SPEC"]}
{"id": "C96", "title": "Which lock file is audited, and where updates are run", "statement": "`cargo audit` reads exactly the lock file at the path named with --file, or Cargo.lock if none was named; the path \"-\" (and \"-/\", \"-/.\", \u2026) is standard input, which is read once. A lock file that was named is never generated. `cargo update --workspace` is run exactly if no lock file was named, Cargo.lock does not exist and Cargo.toml does, and then once; the exit code is 2 exactly if it was run and did not exit with 0 or there is then no readable lock file at the path. `cargo audit fix` acts on the same file and runs every update command in the directory of the named file with links followed (the current directory if none was named), and does to standard input what auditing it would do.", "quantifier": "every command line path, state of the file system and standard input, outcome of running cargo (not started, any exit code, killed), lock file text, database, index, settings and set of commands that can be started", "why_tests_cant": "Tests run with a Cargo.lock present; the cases here range over which files exist, what cargo does when run, and every spelling of the path.", "anchors": ["cargo-audit/src/lockfile.rs: locate_or_generate, generate", "cargo-audit/src/auditor.rs: load_lockfile", "cargo-audit/src/commands/audit.rs: run", "cargo-audit/src/commands/audit/fix.rs: run", "cargo-lock/src/lockfile.rs: load"]}
{"id": "C97", "title": "An audit never deadlocks with the cargo it runs or with other audits", "statement": "An audit that runs cargo (to generate the lock file, or to apply fixes) holds at that moment neither cargo's package lock nor the lock of a database directory, so cargo never waits for the audit that runs it; whatever waits for a lock holds none, so nobody waits for somebody who waits. However many audits, fixes and binary scans run at once, on whichever database directories: every one has ended, or can go on, or waits for one that can go on by itself (no waiting for the five minutes to pass, no kill); each takes boundedly many steps, and when nothing can go on all have ended. A process that has ended holds no lock; the package lock has one holder, an audit or a cargo, and a database directory is locked by the one process that is fetching into it.", "quantifier": "any number of concurrent processes with any settings, database directories and cargo commands, every interleaving, every choice of what succeeds, fails or is killed when", "why_tests_cant": "A deadlock needs one interleaving of at least two processes; the code has a comment about one that was met in practice (commands/audit.rs:286), and no test runs cargo at all.", "anchors": ["cargo-audit/src/commands/audit.rs: run", "cargo-audit/src/commands/audit/fix.rs: run", "cargo-audit/src/auditor.rs: Auditor::new", "cargo-audit/src/lockfile.rs: generate", "rustsec/src/cached_index.rs: acquire_cargo_package_lock, fetch_inner, open_inner"]}
{"id": "C98", "title": "What `cargo audit fix` says", "statement": "Of each vulnerability found, `cargo audit fix` says that no patched version is available exactly if its advisory lists none, and that its update could not be run exactly if that is so. A dry run says that it is one and verifies nothing; a real run says that it verifies exactly if every update command could be started. After verifying it lists the advisories still affecting the lock file, in the report's order, except those first found without a patched version, and nothing if there are none; it says \"fixed n\" if n findings fewer are left and none remain, \"fixed n but m remain\" with m the number left. If the updates introduced no finding, what is listed is exactly what remains and has a patched version, and n is exactly the number of findings gone. The advisories listed have patched versions.", "quantifier": "every database, lock file before and after the updates, settings, set of commands that can be started, dry or real run", "why_tests_cant": "The messages compare two audits with arbitrary cargo runs in between; no test runs `cargo audit fix`.", "anchors": ["cargo-audit/src/commands/audit/fix.rs: run"]}
{"id": "C99", "title": "What a package source answers agrees with the text it is written as", "statement": "A source says it is a path, a git repository, a registry or a remote registry exactly if its text begins with the protocol(s) of that kind; it is crates.io exactly if its text is one of the two crates.io texts, and only then is it shown as \"crates.io index\" and (unnamed) as \"crates.io\", otherwise by its name or url. A source made from a url or an absolute path has the kind and url asked for and no commit; pinning changes the commit only. Sources that count as equal answer alike, except for the git reference followed. In a JSON report a source is null exactly if it is absent or a path; otherwise what is read back equals it, and an unreadable text is an error.", "quantifier": "every source, text, path and url; both spellings of references", "why_tests_cant": "A handful of sources is tested; agreement is over all kinds, urls, references and commits.", "anchors": ["cargo-lock/src/package/source.rs: SourceId accessors and constructors, Serialize, Deserialize"]}
