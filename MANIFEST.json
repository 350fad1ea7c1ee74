{
 "claims": [
  {
   "property": "C01",
   "status": "proved",
   "theorems": [
    "C01_vulnerable_iff_outside_safe_ranges"
   ],
   "note": ""
  },
  {
   "property": "C02",
   "status": "proved",
   "theorems": [
    "C02_osv_ranges_ordered_and_disjoint",
    "C02_osv_ranges_cover_exactly_the_vulnerable_versions",
    "C02_strict_ranges_refuted"
   ],
   "note": ""
  },
  {
   "property": "C03",
   "status": "proved",
   "theorems": [
    "C03_increment_is_immediate_successor",
    "C03_increment_total"
   ],
   "note": ""
  },
  {
   "property": "C04",
   "status": "proved",
   "theorems": [
    "C04_cargo_match_is_not_vulnerable",
    "C04_release_versions_agree_with_cargo"
   ],
   "note": ""
  },
  {
   "property": "C05",
   "status": "proved",
   "theorems": [
    "C05_partial_comparators_agree_with_cargo_refuted",
    "C05_omitted_components_read_as_zero"
   ],
   "note": "Statement describes what the code does (zero-filling); the theorem with suffix _refuted shows that this differs from Cargo's own matching for >, <=, = with omitted components."
  },
  {
   "property": "C06",
   "status": "partial",
   "theorems": [
    "C06_only_panic_is_point_range_at_open_bound",
    "C06_construction_never_panics_refuted",
    "C06_profile_independent",
    "C06_silent_wraparound_refuted",
    "C06_which_lists_crash"
   ],
   "note": "Refuted in general (panics on =x with >x, and on u64::MAX components in debug builds). Away from u64::MAX the crashing lists are characterised exactly (C06_which_lists_crash: all shapes supported, no two ranges share a place of the version line, one range begins at x and another just above x)."
  },
  {
   "property": "C07",
   "status": "proved",
   "theorems": [
    "C07_order_and_placement_irrelevant"
   ],
   "note": ""
  },
  {
   "property": "C08",
   "status": "proved",
   "theorems": [
    "C08_build_metadata_irrelevant"
   ],
   "note": ""
  },
  {
   "property": "C09",
   "status": "partial",
   "theorems": [
    "C09_accepted_ranges_are_disjoint",
    "C09_rejected_pair_overlaps_partial",
    "C09_only_overlaps_rejected_refuted",
    "C09_which_lists_are_refused",
    "C09_which_lists_are_accepted",
    "C09_refused_lists_overlap_or_meet"
   ],
   "note": "One direction (accepted => disjoint) proved as stated; the other is refuted at boundary artifacts. The refused, the crashing and the accepted lists are each characterised exactly, for lists of any length, by sharing a place of the version line (a version, the place just above one, or the bottom): C09_which_lists_are_refused / _accepted; and a refused list has two ranges with a common version or a boundary artifact (C09_refused_lists_overlap_or_meet), which supersedes the theorem on pairs named _partial."
  },
  {
   "property": "C10",
   "status": "proved",
   "theorems": [
    "C10_empty_lists_mean_everything_vulnerable"
   ],
   "note": ""
  },
  {
   "property": "C11",
   "status": "proved",
   "theorems": [
    "C11_supported_requirement_shapes",
    "C11_requirement_denotes_interval"
   ],
   "note": ""
  },
  {
   "property": "C12",
   "status": "proved",
   "theorems": [
    "C12_parsing_never_panics",
    "C12_id_round_trips",
    "C12_kind_is_the_prefix"
   ],
   "note": ""
  },
  {
   "property": "C13",
   "status": "proved",
   "theorems": [
    "C13_dated_ids",
    "C13_year_and_number_are_those_written",
    "C13_other_ids_have_no_year",
    "C13_placeholder_has_no_number",
    "C13_number_of_any_id"
   ],
   "note": ""
  },
  {
   "property": "C14",
   "status": "partial",
   "theorems": [
    "C14_number_determines_id_refuted",
    "C14_same_width_ids_are_determined_partial",
    "C14_ids_of_a_number"
   ],
   "note": "Refuted: leading zeros and '+' are accepted, so the same number has several ids. Proved exactly which texts are the ids of one year and number (C14_ids_of_a_number), and that ids of one width are determined."
  },
  {
   "property": "C15",
   "status": "partial",
   "theorems": [
    "C15_accepted_years",
    "C15_iso_components_are_those_written_partial",
    "C15_iso_dates_order_chronologically",
    "C15_accepted_dates_are_usable_refuted",
    "C15_components_of_any_text",
    "C15_every_text_is_cut_once",
    "C15_which_texts_are_readable"
   ],
   "note": "The jiff parser is an arbitrary function. Proved for ISO dates; refuted for other forms jiff accepts (month()/day() panic). For every text at all it is proved exactly what year(), month() and day() answer and which texts are readable (C15_components_of_any_text, C15_which_texts_are_readable)."
  },
  {
   "property": "C16",
   "status": "partial",
   "theorems": [
    "C16_split_complete",
    "C16_split_sound",
    "C16_trim_unique",
    "C16_split_rejects",
    "C16_split_error_refuted",
    "C16_advisory_text"
   ],
   "note": "Splitting proved exact and inverse to assembling; files without fence or title are errors except (refuted, C16_split_error_refuted) text without the opening fence whose byte 20 is inside a character, which panics."
  },
  {
   "property": "C17",
   "status": "proved",
   "theorems": [
    "C17_files_considered",
    "C17_open_loads_exactly_the_files",
    "C17_open_succeeds_iff",
    "C17_get_by_id",
    "C17_drafts_are_never_listed",
    "C17_open_never_panics",
    "C17_file_name_names_the_id_refuted"
   ],
   "note": "Note C17_file_name_names_the_id_refuted: the draft exemption goes by file name only, so a draft-named file holding a real id is loaded."
  },
  {
   "property": "C18",
   "status": "proved",
   "theorems": [
    "C18_query_returns_the_matching_advisories"
   ],
   "note": ""
  },
  {
   "property": "C19",
   "status": "proved",
   "theorems": [
    "C19_vulnerabilities_are_the_matching_pairs",
    "C19_crates_io_packages"
   ],
   "note": ""
  },
  {
   "property": "C20",
   "status": "proved",
   "theorems": [
    "C20_query_filters"
   ],
   "note": ""
  },
  {
   "property": "C21",
   "status": "partial",
   "theorems": [
    "C21_sparse_packages_are_audited_refuted"
   ],
   "note": "Refuted: the theorem shows packages locked to the sparse index are never matched (unless an advisory itself names that index)."
  },
  {
   "property": "C22",
   "status": "proved",
   "theorems": [
    "C22_report_lists_the_unignored_findings",
    "C22_report_total_and_counts",
    "C22_ignoring_removes_exactly_that_id"
   ],
   "note": ""
  },
  {
   "property": "C23",
   "status": "proved",
   "theorems": [
    "C23_warnings_are_the_enabled_informational_findings",
    "C23_informational_never_in_vulnerabilities",
    "C23_warning_map_is_well_formed"
   ],
   "note": ""
  },
  {
   "property": "C24",
   "status": "proved",
   "theorems": [
    "C24_withdrawn_never_reported"
   ],
   "note": ""
  },
  {
   "property": "C25",
   "status": "proved",
   "theorems": [
    "C25_raising_the_threshold_filters"
   ],
   "note": ""
  },
  {
   "property": "C26",
   "status": "partial",
   "theorems": [
    "C26_exit_status",
    "C26_status_2_iff_no_lockfile",
    "C26_status_1_without_findings_refuted",
    "C26_dangling_dependency_refuted"
   ],
   "note": "Exit status 0/1/2 characterised exactly for loadable inputs; refuted parts: a database failure also exits 1, and a dangling dependency panics in terminal output."
  },
  {
   "property": "C27",
   "status": "partial",
   "theorems": [
    "C27_denied_kind_is_reported_and_fatal",
    "C27_denied_yanked_is_fatal",
    "C27_deny_warnings_reports_notices",
    "C27_deny_warnings_covers_notices_refuted"
   ],
   "note": "Proved for unmaintained, unsound and yanked; refuted for notices (--deny warnings reports but does not fail on them)."
  },
  {
   "property": "C28",
   "status": "partial",
   "theorems": [
    "C28_filter_removes_exactly_other_platforms",
    "C28_kept",
    "C28_unrestricted_kept",
    "C28_drops_advisories_of_the_own_platform_refuted"
   ],
   "note": "The filter removes exactly what it regards as other platforms; refuted against reality: UEFI/Cygwin on PE, WASI/Emscripten on Wasm, and unknown OS names are dropped."
  },
  {
   "property": "C29",
   "status": "partial",
   "theorems": [
    "C29_limit_is_exact",
    "C29_unreadable_is_error",
    "C29_zero_is_unlimited_refuted"
   ],
   "note": "Limit exact; '0 means unlimited' from the help text is refuted."
  },
  {
   "property": "C30",
   "status": "partial",
   "theorems": [
    "C30_lockfile_roundtrip",
    "C30_stored_source_is_equal",
    "C30_full_roundtrip_refuted",
    "C30_text_tells_the_document",
    "C30_text_ends",
    "C30_checksum_keys",
    "C30_other_keys_are_errors",
    "C30_key_read_back",
    "C30_keys_distinct",
    "C30_key_of_blank_tag_refuted"
   ],
   "note": "Proved for consistent lockfiles in all four formats, with exactly what survives; the full round trip is refuted: path and registry packages of one name and version, replacements of packages with dependencies, format 1 without checksums or with two sources of one version, the root. Checksum keys: C30_checksum_keys, C30_key_read_back, C30_keys_distinct, C30_other_keys_are_errors; C30_key_of_blank_tag_refuted shows a key that is not read. LockTextModel: C30_text_tells_the_document, C30_text_ends (the written text; TOML quoting is a self-delimiting parameter)."
  },
  {
   "property": "C31",
   "status": "partial",
   "theorems": [
    "C31_bare_name",
    "C31_name_and_version",
    "C31_unique_abbreviation",
    "C31_reference_shape",
    "C31_unresolvable_is_an_error_refuted",
    "C31_words",
    "C31_reference_texts"
   ],
   "note": "Unique abbreviations resolve to the intended package; bare unlisted names are errors; 'name version' of an unlisted package is accepted (refuted part)."
  },
  {
   "property": "C32",
   "status": "proved",
   "theorems": [
    "C32_explicit_version",
    "C32_detected_version",
    "C32_conflict_is_rejected"
   ],
   "note": ""
  },
  {
   "property": "C33",
   "status": "partial",
   "theorems": [
    "C33_accepted_exactly",
    "C33_crashes_exactly",
    "C33_checksum_roundtrip",
    "C33_hex_strings_are_accepted",
    "C33_accepted_strings",
    "C33_only_hex_strings_are_accepted_refuted",
    "C33_ascii_never_panics"
   ],
   "note": "Round trip and acceptance of all hex strings proved; 'only hex strings' is refuted ('+f' bytes accepted, and slicing panics inside a multi-byte character)."
  },
  {
   "property": "C34",
   "status": "partial",
   "theorems": [
    "C34_source_roundtrip",
    "C34_read_write_read",
    "C34_accepted_protocols",
    "C34_unescaped_roundtrip_refuted",
    "C34_git_urls",
    "C34_text",
    "C34_blanks",
    "C34_line_ends",
    "C34_escapes",
    "C34_escapes_unique",
    "C34_escapes_nonvacuous",
    "C34_unescaped_exactly",
    "C34_other_kinds_exactly"
   ],
   "note": "Proved for the escaped form (format 4). For the unescaped form (formats 1-3), C34_unescaped_exactly says exactly which references survive (no # & +, no tab or line end, no % before two hex digits, no trailing blank unless a revision is pinned); refuted for the others, and for local registries and directories. The URL library's treatment of scheme/authority/path is a parameter with the stated laws."
  },
  {
   "property": "C35",
   "status": "partial",
   "theorems": [
    "C35_transitivity_fails_exactly",
    "C35_equality_means",
    "C35_reflexive_symmetric",
    "C35_transitive_partial",
    "C35_transitive_refuted",
    "C35_hash_consistent_refuted",
    "C35_order",
    "C35_kind_order"
   ],
   "note": "Reflexive, symmetric, exact meaning of equality proved; transitivity and hash consistency refuted, with the exact triples where transitivity fails (C35_transitivity_fails_exactly)."
  },
  {
   "property": "C36",
   "status": "proved",
   "theorems": [
    "C36_built_iff_resolvable",
    "C36_edges_are_the_listed_dependencies",
    "C36_roots_are_the_packages_nobody_lists",
    "C36_duplicate_packages_refuted"
   ],
   "note": "For lockfiles whose git sources are pinned and that list no package twice (both needed; the second is shown needed)."
  },
  {
   "property": "C37",
   "status": "proved",
   "theorems": [
    "C37_render_terminates_and_expands_once",
    "C37_prints_exactly_the_reachable_packages",
    "C37_neighbours"
   ],
   "note": "Same assumptions as C36. Stack depth and I/O errors are not modelled."
  },
  {
   "property": "C38",
   "status": "proved",
   "theorems": [
    "C38_accepted_texts",
    "C38_round_trip",
    "C38_stable",
    "C38_printed_form"
   ],
   "note": ""
  },
  {
   "property": "C39",
   "status": "proved",
   "theorems": [
    "C39_score",
    "C39_range",
    "C39_zero_iff_no_impact",
    "C39_severity",
    "C39_parsed"
   ],
   "note": "For every powf within two units in the last place of the correctly rounded value; also for incomplete vectors (missing metrics weigh 0)."
  },
  {
   "property": "C40",
   "status": "proved",
   "theorems": [
    "C40_monotone",
    "C40_one_metric"
   ],
   "note": "For complete vectors; same assumption on powf as C39."
  },
  {
   "property": "C41",
   "status": "partial",
   "theorems": [
    "C41_missing_metrics_refuted",
    "C41_every_subset_accepted_refuted"
   ],
   "note": "Refuted (C41_*_refuted): the parser accepts v3 vectors lacking mandatory metrics, every subset of them; the theorems characterise this."
  },
  {
   "property": "C42",
   "status": "proved",
   "theorems": [
    "C42_base_score",
    "C42_temporal_score",
    "C42_environmental_score",
    "C42_range",
    "C42_severity",
    "C42_accepted_texts",
    "C42_round_trip",
    "C42_stable",
    "C42_printed_form"
   ],
   "note": "Negative results of the published equations count as 0 (the guide is silent). Also for vectors lacking base metrics, which only hand-built values can."
  },
  {
   "property": "C43",
   "status": "proved",
   "theorems": [
    "C43_accepted_texts",
    "C43_round_trip",
    "C43_stable",
    "C43_printed_form"
   ],
   "note": ""
  },
  {
   "property": "C44",
   "status": "partial",
   "theorems": [
    "C44_score",
    "C44_zero_iff_no_impact",
    "C44_parsed",
    "C44_total_refuted"
   ],
   "note": "Proved for every complete vector, which includes all the parser returns. Refuted for vectors lacking a mandatory metric, such as Vector::default(), which is public: score() panics on unwrap."
  },
  {
   "property": "C45",
   "status": "partial",
   "theorems": [
    "C45_severity",
    "C45_nomenclature",
    "C45_defined_metrics_refuted",
    "C45_nomenclature_text",
    "C45_nomenclature_refused"
   ],
   "note": "Severity proved. Nomenclature proved for 'which groups are mentioned'; 'set to something other than X' is refuted: E:X counts as a threat metric."
  },
  {
   "property": "C46",
   "status": "proved",
   "theorems": [
    "C46_dispatch",
    "C46_prefix",
    "C46_round_trip",
    "C46_exclusive"
   ],
   "note": ""
  },
  {
   "property": "C47",
   "status": "proved",
   "theorems": [
    "C47_glob_semantics",
    "C47_matching_platforms",
    "C47_requirement_accepted_iff"
   ],
   "note": ""
  },
  {
   "property": "C48",
   "status": "partial",
   "theorems": [
    "C48_new_id_reads_back",
    "C48_numbers_are_consecutive",
    "C48_ids_are_fresh",
    "C48_drafts_become_files",
    "C48_interruption_loses_nothing",
    "C48_nothing_to_do",
    "C48_database_afterwards",
    "C48_title",
    "C48_no_overwriting_refuted",
    "C48_rerun_after_interruption_refuted",
    "C48_failed_run_refuted",
    "C48_every_loadable_draft_refuted",
    "C48_text_has_lines",
    "C48_lines_filled_in",
    "C48_without_a_database",
    "C48_succeeds_iff",
    "C48_crashes_iff",
    "C48_only_dates_crash"
   ],
   "note": "Proved for repositories whose RUSTSEC ids carry the year of the date (the linter's rule), with room for numbers; the TOML decoder is a parameter. Refuted otherwise: numbers go by the date's year, so a published file can be overwritten (C48_no_overwriting_refuted); an interrupted run repeated assigns twice; a failed run leaves a file the database refuses; drafts without the [advisory] line fail."
  },
  {
   "property": "C49",
   "status": "partial",
   "theorems": [
    "C49_arguments",
    "C49_reported_package_is_updated",
    "C49_package_id",
    "C49_package_id_is_unambiguous",
    "C49_only_reported_packages_refuted"
   ],
   "note": "Arguments characterised exactly; 'only reported packages' refuted: same-named git/path packages are included."
  },
  {
   "property": "C50",
   "status": "partial",
   "theorems": [
    "C50_commands_run",
    "C50_dry_run_status",
    "C50_nothing_run_without_input",
    "C50_status_after_fixing_refuted",
    "C50_verification_crash_refuted",
    "C50_real_run_status"
   ],
   "note": "Commands, dry-run status and the exact status of a real run (C50_real_run_status) proved; refuted for real runs: status 0 even if everything remains vulnerable, crash when the lockfile is unreadable afterwards."
  },
  {
   "property": "C51",
   "status": "proved",
   "theorems": [
    "C51_yanked_exact",
    "C51_history_irrelevant",
    "C51_verdicts_stable",
    "C51_never_panics",
    "C51_failed_download_reported"
   ],
   "note": ""
  },
  {
   "property": "C52",
   "status": "partial",
   "theorems": [
    "C52_latest",
    "C52_earliest",
    "C52_order_independent",
    "C52_missing_commits",
    "C52_tracked_files_have_times",
    "C52_dates",
    "C52_days_ordered",
    "C52_tracked_lookup_refuted",
    "C52_git_path_refuted",
    "C52_dates_ordered_refuted",
    "C52_fresh",
    "C52_untouched_crashes"
   ],
   "note": "Latest/earliest over the commits of the walk, any order; tracked files have a time unless a merge added them. Commits, trees (as file lists) and the walk are given; the calendar and date parser are parameters. Refuted: files added by a merge panic; GitPath accepts untracked paths, which then panic; a file's modification date can precede its creation date (time zones)."
  },
  {
   "property": "C53",
   "status": "proved",
   "theorems": [
    "C53_parse_iff",
    "C53_parse_otherwise_error",
    "C53_print_parse",
    "C53_parse_print",
    "C53_affected_functions"
   ],
   "note": ""
  },
  {
   "property": "C54",
   "status": "proved",
   "theorems": [
    "C54_filter_exact",
    "C54_filter_order",
    "C54_flatten"
   ],
   "note": ""
  },
  {
   "property": "C55",
   "status": "partial",
   "theorems": [
    "C55_accepts_exactly",
    "C55_lints_what_loads",
    "C55_unknown_keys_are_named",
    "C55_line_numbers",
    "C55_files",
    "C55_headerless_refuted",
    "C55_no_panic_refuted",
    "C55_every_mention_refuted",
    "C55_source_refuted"
   ],
   "note": "Proved for documents in the layout with an [advisory] header: accepted exactly when clean, whatever loads can be linted (date with a readable year), unknown keys named exactly, line numbers right, drafts exactly the placeholder. The TOML parser is a parameter. Refuted: documents without the header always get errors and can crash the linter; a mention followed by a period is missed; the documented field source is called unknown."
  },
  {
   "property": "C56",
   "status": "proved",
   "theorems": [
    "C56_end_to_end"
   ],
   "note": ""
  },
  {
   "property": "C57",
   "status": "proved",
   "theorems": [
    "C57_target_names_round_trip"
   ],
   "note": ""
  },
  {
   "property": "C58",
   "status": "proved",
   "theorems": [
    "C58_find_is_exact",
    "C58_triple_as_requirement_selects_that_platform"
   ],
   "note": ""
  },
  {
   "property": "C59",
   "status": "partial",
   "theorems": [
    "C59_hint_is_satisfiable",
    "C59_newer_release_is_hinted",
    "C59_solution_shown",
    "C59_every_satisfiable_hint_shown_refuted",
    "C59_overflow_panics_refuted"
   ],
   "note": "Soundness for all inputs; completeness for releases, with a bare '>MAJOR' only if MAJOR is not above the installed major version; refuted otherwise and under overflow."
  },
  {
   "property": "C60",
   "status": "partial",
   "theorems": [
    "C60_one_result_per_finding",
    "C60_rules_unique",
    "C60_rules_are_those_used",
    "C60_rule_describes_first_finding",
    "C60_audit_reports_coherent",
    "C60_written_by_audit",
    "C60_any_report_refuted",
    "C60_fingerprint_identifies"
   ],
   "note": "Proved for every report audit produces; refuted for arbitrary reports (C60_any_report_refuted): a notice warning without advisory refers to an undeclared rule."
  },
  {
   "property": "C61",
   "status": "proved",
   "theorems": [
    "C61_options_override_config",
    "C61_rejected_iff_invalid_id",
    "C61_deny_words"
   ],
   "note": ""
  },
  {
   "property": "C62",
   "status": "proved",
   "theorems": [
    "C62_accepts_iff_well_formed",
    "C62_rejects",
    "C62_packages",
    "C62_tree_has_the_recorded_edges",
    "C62_load",
    "C62_nothing_else",
    "C62_format"
   ],
   "note": ""
  },
  {
   "property": "C63",
   "status": "proved",
   "theorems": [
    "C63_terminal_output"
   ],
   "note": ""
  },
  {
   "property": "C64",
   "status": "proved",
   "theorems": [
    "C64_bin_exit_status"
   ],
   "note": ""
  },
  {
   "property": "C65",
   "status": "partial",
   "theorems": [
    "C65_sound",
    "C65_complete_unix",
    "C65_complete_windows",
    "C65_every_path_refuted",
    "C65_lockfile"
   ],
   "note": "Soundness for all data; completeness unless the text before 'cargo' in its path segment contains a dash (refuted otherwise, C65_every_path_refuted)."
  },
  {
   "property": "C66",
   "status": "proved",
   "theorems": [
    "C66_links",
    "C66_links_are_distinct"
   ],
   "note": ""
  },
  {
   "property": "C67",
   "status": "proved",
   "theorems": [
    "C67_same_verdict",
    "C67_same_verdict_as_the_tool",
    "C67_timeline",
    "C67_tie_order_refuted",
    "C67_exported_exactly",
    "C67_published",
    "C67_never_panics_refuted"
   ],
   "note": "Same verdict as the declared requirements and as the tool, exact condition for export, published date. The calendar, TOML and URL normalisation are parameters. Refuted: for documents with two events at one version the verdict depends on how the consumer orders them; advisories that load can make the export panic (date without dashes, requirements covering every version, a file added by a merge)."
  },
  {
   "property": "C68",
   "status": "proved",
   "theorems": [
    "C68_export_reads_back",
    "C68_export_loses_nothing",
    "C68_keywords_refuted",
    "C68_content",
    "C68_modified"
   ],
   "note": "Round trip for every exported document, and the listed fields are determined by it. Refuted for the rest: keywords are lost (C68_keywords_refuted); source, collection, references' order between url and references, and versions of functions are not exported either."
  },
  {
   "property": "C69",
   "status": "proved",
   "theorems": [
    "C69_document",
    "C69_other_members",
    "C69_member_order",
    "C69_no_duplicates",
    "C69_reading_never_crashes",
    "C69_imported_ids",
    "C69_import_panics",
    "C69_import_order",
    "C69_crates",
    "C69_export_names_itself",
    "C69_import_is_safe_refuted",
    "C69_reads_osv_refuted"
   ],
   "note": "Exact set of imported ids and exact panic condition, crates, order independence. Refuted: an id with five digits is read as another id, a reference to the list of advisories panics, and documents allowed by the OSV schema are rejected (optional fields, other reference and event kinds)."
  },
  {
   "property": "C70",
   "status": "proved",
   "theorems": [
    "C70_written_documents",
    "C70_everything_is_written",
    "C70_succeeds_iff",
    "C70_paths",
    "C70_consumers_see_the_database",
    "C70_stays_in_destination_refuted",
    "C70_one_file_each_refuted",
    "C70_drafts_refuted",
    "C70_database_opens_refuted"
   ],
   "note": "The statement is proved; theorems with suffix _refuted show that ids with dots or slashes, drafts and hidden files break what one would expect beyond it."
  },
  {
   "property": "C71",
   "status": "proved",
   "theorems": [
    "C71_count",
    "C71_exit_zero",
    "C71_database_opens_refuted",
    "C71_unpublished_refuted"
   ],
   "note": "The statement is proved; _refuted theorems show that a database which opens may fail to lint (missing rust/ directory, hidden file), and that without the index lock unpublished crates pass."
  },
  {
   "property": "C72",
   "status": "proved",
   "theorems": [
    "C72_listed_versions",
    "C72_deleted_crates_refuted"
   ],
   "note": "The statement is proved of runs that end; C72_deleted_crates_refuted: a crate missing from the index is a panic."
  },
  {
   "property": "C73",
   "status": "proved",
   "theorems": [
    "C73_outcome",
    "C73_aliases_are_added",
    "C73_up_to_date",
    "C73_missing",
    "C73_second_run",
    "C73_written_text",
    "C73_written_text_refuted",
    "C73_documents",
    "C73_documents_refuted",
    "C73_idempotent_refuted",
    "C73_count_refuted"
   ],
   "note": "The statement is proved (toml_edit's printing is a hypothesis of the text-level theorem); _refuted theorems show that plain idempotence, the reported count, one report per document and files ending in a comment fail."
  },
  {
   "property": "C74",
   "status": "proved",
   "theorems": [
    "C74_format_option",
    "C74_translate_never_crashes",
    "C74_translation_keeps_the_packages",
    "C74_route_does_not_matter",
    "C74_detours_and_roots_refuted"
   ],
   "note": ""
  },
  {
   "property": "C75",
   "status": "proved",
   "theorems": [
    "C75_which_packages_an_argument_selects",
    "C75_tree_command",
    "C75_tree_without_arguments",
    "C75_a_line_tells_place_and_package",
    "C75_list",
    "C75_list_in_full",
    "C75_exact_lines",
    "C75_list_is_unambiguous",
    "C75_every_package_shown_refuted"
   ],
   "note": ""
  },
  {
   "property": "C76",
   "status": "proved",
   "theorems": [
    "C76_listing",
    "C76_data",
    "C76_advisory_pages",
    "C76_package_pages",
    "C76_keyword_pages",
    "C76_category_pages",
    "C76_category_pages_once",
    "C76_package_index",
    "C76_keyword_index",
    "C76_category_index",
    "C76_no_dead_links",
    "C76_renders_exactly",
    "C76_index_refuted",
    "C76_category_twice_refuted",
    "C76_generated_refuted",
    "C76_titles",
    "C76_keyword_file_names"
   ],
   "note": "The adjacent expectations that an index page always survives (a package called \"index\" replaces it), that a category names an advisory once (a repeated category lists it twice), and that one bad advisory or an empty database does not stop the site, are refuted in C76_index_refuted, C76_category_twice_refuted, C76_generated_refuted."
  },
  {
   "property": "C77",
   "status": "proved",
   "theorems": [
    "C77_index",
    "C77_found",
    "C77_search",
    "C77_complete",
    "C77_sound",
    "C77_package_page",
    "C77_feed",
    "C77_friendly_dates",
    "C77_dead_pages_refuted",
    "C77_once_refuted",
    "C77_which_dates",
    "C77_other_dates_crash",
    "C77_accepted_dates_can_crash"
   ],
   "note": "Adjacent expectations are refuted: C77_dead_pages_refuted (a package with a capital letter in its name, the text \"constructor\": a page that does not exist; \"__proto__\": a script error) and C77_once_refuted (an identifier that is both alias and related is listed twice instead of being opened)."
  },
  {
   "property": "C78",
   "status": "proved",
   "theorems": [
    "C78_document",
    "C78_file",
    "C78_order_and_other_keys",
    "C78_any_order"
   ],
   "note": ""
  },
  {
   "property": "C79",
   "status": "partial",
   "theorems": [
    "C79_file_is_read_as_written",
    "C79_anything_else_is_an_error",
    "C79_unknown_key_is_an_error",
    "C79_which_file",
    "C79_empty_file",
    "C79_broken_file_stops",
    "C79_exit_status",
    "C79_entries_are_optional_refuted"
   ],
   "note": "The reading is exact and unknown keys are errors, but not every entry may be left out: [output] needs quiet and [database] needs stale, and show_tree's documented default (true) holds only if [output] is there (C79_entries_are_optional_refuted)."
  },
  {
   "property": "C80",
   "status": "partial",
   "theorems": [
    "C80_requires_https",
    "C80_requires_parent",
    "C80_locked",
    "C80_what_is_fetched",
    "C80_first_fetch",
    "C80_fresh_exactly",
    "C80_only_served_content",
    "C80_next_fetch",
    "C80_advisories_of_first_fetch",
    "C80_stale_database",
    "C80_removed_upstream_refuted",
    "C80_url_is_used_refuted",
    "C80_interrupted_clone_refuted",
    "C80_stale_without_fetch_refuted",
    "C80_far_future_commit_refuted"
   ],
   "note": "Proved with exact contents, over all histories and crash points; the parts that fail in the real code are stated as the _refuted theorems (removed upstream, URL not used for an existing clone, early interruption, no check without fetching, commit times out of range)."
  },
  {
   "property": "C81",
   "status": "partial",
   "theorems": [
    "C81_reads_exactly",
    "C81_written_iff",
    "C81_header",
    "C81_reads_back",
    "C81_loses_nothing",
    "C81_lists_exactly",
    "C81_audit_reads_back",
    "C81_always_printed_refuted",
    "C81_every_source_refuted",
    "C81_reading_crashes_only_through_checksums_and_versions",
    "C81_reading_never_crashes_refuted"
   ],
   "note": "Proved: what is listed, counts, exact reading, round trip. Refuted in part: a commit time with an offset of a day or more makes `--json` panic (C81_always_printed_refuted); git branches, tags and revisions with `#`, `%`, `+`, `&` are written unescaped and read back as something else (C81_every_source_refuted). Assumed: the parser of time stamps reads what its printer writes (for requirements this is C91)."
  },
  {
   "property": "C82",
   "status": "partial",
   "theorems": [
    "C82_score_and_severity",
    "C82_threshold",
    "C82_audit",
    "C82_v2_refuted"
   ],
   "note": "the property holds for CVSS 3.x and 4.0; for CVSS v2 the claim of a critical band is refuted by the code (C82_v2_refuted)"
  },
  {
   "property": "C83",
   "status": "partial",
   "theorems": [
    "C83_loading",
    "C83_loading_crashes_refuted",
    "C83_clashing_versions",
    "C83_database",
    "C83_lint",
    "C83_export",
    "C83_list_versions"
   ],
   "note": "loading does crash on the two kinds of file named in the statement (C83_loading_crashes_refuted); that there are no others is proved"
  },
  {
   "property": "C84",
   "status": "proved",
   "theorems": [
    "C84_document",
    "C84_rule_ids",
    "C84_location",
    "C84_points_at_lockfile_refuted",
    "C84_audit",
    "C84_any_report"
   ],
   "note": "that results point at the audited lockfile is refuted (C84_points_at_lockfile_refuted); the statement says what holds instead"
  },
  {
   "property": "C85",
   "status": "proved",
   "theorems": [
    "C85_findings",
    "C85_outcome",
    "C85_headed_crashes",
    "C85_file"
   ],
   "note": ""
  },
  {
   "property": "C86",
   "status": "proved",
   "theorems": [
    "C86_report",
    "C86_audit",
    "C86_symbols",
    "C86_underscores",
    "C86_executable",
    "C86_self",
    "C86_scanning"
   ],
   "note": ""
  },
  {
   "property": "C87",
   "status": "proved",
   "theorems": [
    "C87_documented",
    "C87_undocumented",
    "C87_page_accepted_iff",
    "C87_rustc_values",
    "C87_rustc_understood_iff",
    "C87_agreement",
    "C87_nonvacuous",
    "C87_notes"
   ],
   "note": ""
  },
  {
   "property": "C88",
   "status": "partial",
   "theorems": [
    "C88_enum_file",
    "C88_targets_file",
    "C88_program",
    "C88_error_writes_nothing",
    "C88_crash_point",
    "C88_variant_collisions",
    "C88_simple_variants_distinct",
    "C88_variants_distinct_refuted",
    "C88_conversions_inverse",
    "C88_constant_names",
    "C88_nonvacuous",
    "C88_all_or_nothing_refuted",
    "C88_variant_names",
    "C88_marked_variants",
    "C88_marked_values",
    "C88_enumeration_names",
    "C88_names_nonvacuous"
   ],
   "note": "Everything in the statement is proved; the claims that variants never clash and that files are written all or none are refuted by counterexamples (suffix _refuted)."
  },
  {
   "property": "C89",
   "status": "proved",
   "theorems": [
    "C89_v4_monotone",
    "C89_v4_texts",
    "C89_v4_severity",
    "C89_v4_one_metric",
    "C89_v4_not_defined",
    "C89_nonvacuous"
   ],
   "note": ""
  },
  {
   "property": "C90",
   "status": "partial",
   "theorems": [
    "C90_v2_base",
    "C90_v2_temporal",
    "C90_v2_environmental",
    "C90_v2_not_negative",
    "C90_v2_environmental_no_low",
    "C90_v2_environmental_refuted",
    "C90_nonvacuous"
   ],
   "note": "Proved for the base and temporal scores and, without low security requirements, the environmental one; C90_v2_environmental_refuted shows that the environmental score can go down."
  },
  {
   "property": "C91",
   "status": "partial",
   "theorems": [
    "C91_accepted_texts",
    "C91_unambiguous",
    "C91_reads_back",
    "C91_what_is_read",
    "C91_every_requirement",
    "C91_rewriting",
    "C91_written_alike",
    "C91_version_texts",
    "C91_text_kept_refuted",
    "C91_length_refuted",
    "C91_reports_read_back",
    "C91_clashing_versions",
    "C91_audit_reads_back"
   ],
   "note": "Proved: acceptance is exactly the grammar, unambiguous, reading back. C91_text_kept_refuted and C91_length_refuted show that the text itself is not kept and that more than 32 comparators are not read back."
  },
  {
   "property": "C92",
   "status": "partial",
   "theorems": [
    "C92_one_at_a_time",
    "C92_no_stale_lock",
    "C92_killed",
    "C92_gives_up_only_if_locked",
    "C92_one_writer",
    "C92_never_stuck",
    "C92_only_served_content",
    "C92_success_is_complete",
    "C92_same_files_same_database",
    "C92_mixed_database_refuted",
    "C92_vanished_file_refuted",
    "C92_paths_in_one_clone_refuted",
    "C92_content_is_not_removed",
    "C92_existing_clone",
    "C92_alone",
    "C92_empty_directory_refuted",
    "C92_never_all_fail",
    "C92_one_clones",
    "C92_first_steps_go_on",
    "C92_busy_is_told",
    "C92_same_start",
    "C92_what_is_said",
    "C92_waits",
    "C92_late_is_as_good",
    "C92_without_index",
    "C92_waiting_message_names_wrong_directory_refuted"
   ],
   "note": "Proved: mutual exclusion, no stale lock, no deadlock, only served content, complete clones, and the same database for all while the files served are the same. C92_mixed_database_refuted, C92_vanished_file_refuted (files are read after the lock is released) and C92_paths_in_one_clone_refuted show what does not hold. EmptyDirModel (the removal of an empty directory before the lock): C92_never_all_fail, C92_alone, C92_existing_clone hold; C92_empty_directory_refuted shows one of two first runs failing. WaitModel (the waiting for busy locks): C92_same_start, C92_what_is_said, C92_waits, C92_late_is_as_good, C92_without_index hold; C92_waiting_message_names_wrong_directory_refuted shows the message about cargo's package lock naming the advisory database."
  },
  {
   "property": "C93",
   "status": "proved",
   "theorems": [
    "C93_releases",
    "C93_prereleases",
    "C93_meets",
    "C93_prereleases_must_be_named",
    "C93_build_plays_no_role",
    "C93_no_gaps",
    "C93_as_written",
    "C93_short_forms",
    "C93_affected_functions",
    "C93_no_gaps_at_all_refuted"
   ],
   "note": "C93_no_gaps_at_all_refuted shows why 'no gaps' is stated for releases and for pre-releases of the same numbers only."
  },
  {
   "property": "C94",
   "status": "partial",
   "theorems": [
    "C94_runs",
    "C94_rows",
    "C94_every_platform_once",
    "C94_links",
    "C94_link_target",
    "C94_dotted_links",
    "C94_aligned",
    "C94_committed",
    "C94_alignment_refuted",
    "C94_live_links_refuted",
    "C94_text"
   ],
   "note": "For the committed platforms two parts of the claim are false of the code: the environment `nto71_iosock` is wider than its column, and the links of the six `thumbv8m.*` targets name constants that do not exist (C94_alignment_refuted, C94_live_links_refuted)."
  },
  {
   "property": "C95",
   "status": "proved",
   "theorems": [
    "C95_what_is_text",
    "C95_recorded_exactly",
    "C95_reads_back",
    "C95_first_line",
    "C95_which_fetches_record",
    "C95_which_fetches_panic",
    "C95_head_moves",
    "C95_failure_moves_nothing",
    "C95_when_head_moves"
   ],
   "note": "gix itself (what it makes of the server's answer, following of symbolic references up to a limit, edits) is given by its documented effects; the limit is arbitrary in the theorems."
  },
  {
   "property": "C96",
   "status": "partial",
   "theorems": [
    "C96_what_is_standard_input",
    "C96_named_file_as_given",
    "C96_when_generated",
    "C96_located",
    "C96_what_is_loaded",
    "C96_standard_input_once",
    "C96_reading_a_file_changes_nothing",
    "C96_audit_runs",
    "C96_audits_that_file",
    "C96_status_2_exactly",
    "C96_fix_runs",
    "C96_fix_not_located",
    "C96_fix_of_standard_input",
    "C96_fix_of_standard_input_refuted"
   ],
   "note": "All parts proved except the last, refuted by C96_fix_of_standard_input_refuted: fix.rs:66 re-reads the lock file with Lockfile::load(\"-\").expect(..), so `cargo audit fix --file -` panics when standard input's lock file has a vulnerability (C96_fix_of_standard_input says exactly what happens)."
  },
  {
   "property": "C97",
   "status": "proved",
   "theorems": [
    "C97_waits_empty_handed",
    "C97_nobody_waits_for_who_waits",
    "C97_the_locks",
    "C97_no_deadlock",
    "C97_each_ends",
    "C97_all_end"
   ],
   "note": ""
  },
  {
   "property": "C98",
   "status": "partial",
   "theorems": [
    "C98_same_run",
    "C98_about_each",
    "C98_afterwards",
    "C98_if_nothing_new",
    "C98_listed_have_patched_versions_refuted"
   ],
   "note": "All parts proved except the last sentence: C98_listed_have_patched_versions_refuted (an update that introduces a vulnerability without patched version lists it under 'have patched versions but could not be fixed', and a fixed finding is not counted when another appears). The wording and number forms of the messages are not modelled."
  },
  {
   "property": "C99",
   "status": "proved",
   "theorems": [
    "C99_path",
    "C99_git",
    "C99_remote_registry",
    "C99_registry",
    "C99_reference",
    "C99_crates_io",
    "C99_kinds",
    "C99_index_words",
    "C99_index_crates_io",
    "C99_name_words",
    "C99_named",
    "C99_read",
    "C99_read_crates_io",
    "C99_made",
    "C99_made_default",
    "C99_pinned",
    "C99_equal_answers",
    "C99_equal_references_refuted",
    "C99_json",
    "C99_json_read",
    "C99_no_crash"
   ],
   "note": "The stated exception is real: C99_equal_references_refuted. The url library is a parameter with the laws of C34."
  }
 ]
}