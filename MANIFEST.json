{
 "claims": [
  {
   "property": "C01",
   "status": "proved",
   "theorems": [
    "C01_reflexive",
    "C01_reflexive_up_to_beta_deps"
   ],
   "note": ""
  },
  {
   "property": "C02",
   "status": "proved",
   "theorems": [
    "C02_transitive"
   ],
   "note": ""
  },
  {
   "property": "C03",
   "status": "proved",
   "theorems": [
    "C03_additions",
    "C03_additions_up_to_beta_deps"
   ],
   "note": ""
  },
  {
   "property": "C04",
   "status": "proved",
   "theorems": [
    "C04_runs",
    "C04_deletions"
   ],
   "note": ""
  },
  {
   "property": "C05",
   "status": "proved",
   "theorems": [
    "C05_changes_only",
    "C05_changes_reported",
    "C05_complete_list"
   ],
   "note": ""
  },
  {
   "property": "C06",
   "status": "proved",
   "theorems": [
    "C06_beta_ignored",
    "C06_beta_deps"
   ],
   "note": ""
  },
  {
   "property": "C07",
   "status": "partial",
   "theorems": [
    "C07_rename_reported_partial",
    "C07_alias_rename_refuted",
    "C07_alias_reorder_reported_refuted"
   ],
   "note": "Proved when value numbers are distinct in both versions; refuted with allow_alias: only the last value of a number is compared, so renaming an earlier alias is missed and reordering aliases is reported as a rename."
  },
  {
   "property": "C08",
   "status": "proved",
   "theorems": [
    "C08_inverse",
    "C08_all_listed_exist"
   ],
   "note": ""
  },
  {
   "property": "C09",
   "status": "proved",
   "theorems": [
    "C09_contents",
    "C09_moves",
    "C09_moves_not_breaking",
    "C09_valid",
    "C09_named",
    "C09_said",
    "C09_refuses"
   ],
   "note": ""
  },
  {
   "property": "C10",
   "status": "proved",
   "theorems": [
    "C10_said",
    "C10_merge",
    "C10_merge_succeeds",
    "C10_merge_order"
   ],
   "note": ""
  },
  {
   "property": "C11",
   "status": "proved",
   "theorems": [
    "C11_said",
    "C11_sort"
   ],
   "note": ""
  },
  {
   "property": "C12",
   "status": "proved",
   "theorems": [
    "C12_selection",
    "C12_run"
   ],
   "note": ""
  },
  {
   "property": "C13",
   "status": "partial",
   "theorems": [
    "C13_ignores_partial",
    "C13_files",
    "C13_config_directory_refuted",
    "C13_directory_rules_refuted"
   ],
   "note": "Exact for every rule that looks at one file at a time. Refuted for entries that name the directory of the configuration (never match) and, for rules about directories, ignoring one file also changes what is reported for its siblings; for those rules the result is that of the rule on the remaining files."
  },
  {
   "property": "C14",
   "status": "proved",
   "theorems": [
    "C14_suppression",
    "C14_http_option"
   ],
   "note": ""
  },
  {
   "property": "C15",
   "status": "proved",
   "theorems": [
    "C15_deterministic"
   ],
   "note": ""
  },
  {
   "property": "C16",
   "status": "partial",
   "theorems": [
    "C16_naming_partial",
    "C16_groups_refuted"
   ],
   "note": "Exact outside groups; refuted inside groups, which the visitors do not enter."
  },
  {
   "property": "C17",
   "status": "partial",
   "theorems": [
    "C17_golang_comments",
    "C17_sentence_comments_partial",
    "C17_golang_comments_except",
    "C17_sentence_comments_except_partial",
    "C17_accents_refuted"
   ],
   "note": "Exact outside groups; sentence rules for ASCII comments only, refuted for UTF-8 comments whose first byte is an upper case letter in Latin-1."
  },
  {
   "property": "C18",
   "status": "proved",
   "theorems": [
    "C18_required",
    "C18_values"
   ],
   "note": ""
  },
  {
   "property": "C19",
   "status": "partial",
   "theorems": [
    "C19_packages",
    "C19_options_partial",
    "C19_empty_value_refuted"
   ],
   "note": "Exact unless an option is set to the empty string, which the code treats as not set (refuted)."
  },
  {
   "property": "C20",
   "status": "partial",
   "theorems": [
    "C20_request_response",
    "C20_layout",
    "C20_extend_refuted"
   ],
   "note": "Exact, with extend blocks counted as declarations; the stricter reading is refuted."
  },
  {
   "property": "C21",
   "status": "partial",
   "theorems": [
    "C21_no_crash_partial",
    "C21_http_option_refuted"
   ],
   "note": "Proved for files without an option (.google.api.http) at file or service level; refuted for those."
  },
  {
   "property": "C22",
   "status": "partial",
   "theorems": [
    "C22_directory_partial",
    "C22_sibling_refuted"
   ],
   "note": "Directories are matched by string prefix: proved in that form, refuted for sibling directories."
  },
  {
   "property": "C23",
   "status": "proved",
   "theorems": [
    "C23_shape",
    "C23_empty",
    "C23_empty_header_refuted"
   ],
   "note": "For every file whose strings contain no newline (as the grammar requires). An empty file stays empty unless --fix adds a header (C23_empty_header_refuted shows the header is then written)."
  },
  {
   "property": "C24",
   "status": "partial",
   "theorems": [
    "C24_tokens",
    "C24_canonical",
    "C24_layout",
    "C24_stable_partial",
    "C24_option_comment_refuted",
    "C24_empty_option_refuted",
    "C24_rpc_comment_refuted",
    "C24_label_refuted",
    "C24_group_option_refuted",
    "C24_fix_stable_partial"
   ],
   "note": "Token-for-token for every file the formatter keeps; the excluded shapes (comments of a lone field option, comments in an rpc body, empty aggregate options, proto3 optional, options in groups) are refuted. Stability (the same text, and still no failures) is proved for any file that has the contents of what was written, without --fix and with it (C24_fix_stable_partial); the external parser is not modelled."
  },
  {
   "property": "C25",
   "status": "partial",
   "theorems": [
    "C25_written",
    "C25_uber2",
    "C25_uber1_partial",
    "C25_uber1_prefix_refuted"
   ],
   "note": "uber2 in full; uber1 when java_package_prefix is empty or com. Refuted otherwise: --fix writes the configured prefix and the uber1 rule demands com."
  },
  {
   "property": "C26",
   "status": "partial",
   "theorems": [
    "C26_unmanaged",
    "C26_managed_v2",
    "C26_no_package_refuted",
    "C26_uber1_refuted",
    "C26_comments_refuted"
   ],
   "note": "Unmanaged options are kept exactly; managed options are kept by the uber2 fixes with a package. Refuted without a package and for uber1 (csharp/objc/php options are dropped); a header drops the comments at the top."
  },
  {
   "property": "C27",
   "status": "proved",
   "theorems": [
    "C27_flags",
    "C27_reads",
    "C27_writes",
    "C27_formatted",
    "C27_status",
    "C27_output"
   ],
   "note": "For files that compile (format compiles first) and sets with each file once, which discovery guarantees. A mode is one of none, overwrite, diff, lint; more than one is refused without doing anything."
  },
  {
   "property": "C28",
   "status": "proved",
   "theorems": [
    "C28_nothing_written",
    "C28_only_empty_changed",
    "C28_written",
    "C28_all_or_nothing_refuted"
   ],
   "note": "Nothing is written if any path is unsuitable; only paths asked for that held nothing change, also when writing fails half way. Creation of several files is not all or nothing (C28_all_or_nothing_refuted, not claimed)."
  },
  {
   "property": "C29",
   "status": "partial",
   "theorems": [
    "C29_package_partial",
    "C29_determined",
    "C29_rules_partial",
    "C29_sibling_refuted",
    "C29_config_data_refuted"
   ],
   "note": "Exact when no configured directory has a name that is a proper beginning of the name of a directory on the way to the file; refuted otherwise (string prefixes), and the documented meaning of configuration data is refuted."
  },
  {
   "property": "C30",
   "status": "partial",
   "theorems": [
    "C30_format",
    "C30_reads",
    "C30_lint_partial",
    "C30_uber1_prefix_refuted"
   ],
   "note": "The text Create writes is proved to be read as the header and the declarations of the group, to be only given a final newline by format --fix under the same configuration, and to be reported by no rule of its lint group other than those about names the user chose and those that compare files. The parser is external (its result is a hypothesis tied to the tokens by C30_reads); a lint group other than uber2 with a java_package_prefix other than com is refuted."
  },
  {
   "property": "C31",
   "status": "partial",
   "theorems": [
    "C31_csharp_plain",
    "C31_csharp_beta",
    "C31_csharp_beta_large_refuted",
    "C31_php_agrees_with_csharp",
    "C31_go_package",
    "C31_go_package_v2",
    "C31_go_package_v2_unversioned",
    "C31_objc_prefix",
    "C31_java_outer_classname",
    "C31_java_package"
   ],
   "note": "Proved for all packages; the csharp/php beta form needs version numbers below 2^63, refuted beyond because the code converts uint64 to int."
  },
  {
   "property": "C32",
   "status": "proved",
   "theorems": [
    "C32_version_parsing",
    "C32_version_roundtrip"
   ],
   "note": ""
  },
  {
   "property": "C33",
   "status": "partial",
   "theorems": [
    "C33_checks_are_shapes",
    "C33_snake_of_camel",
    "C33_snake_words",
    "C33_upper_camel_words",
    "C33_lower_snake_idempotent",
    "C33_upper_snake_idempotent_refuted",
    "C33_upper_camel_of_snake",
    "C33_split_camel_words"
   ],
   "note": "Idempotence holds for lower snake case and is refuted for upper snake case (FOO_BAR becomes FO_O_BAR); everything else is proved."
  },
  {
   "property": "C34",
   "status": "proved",
   "theorems": [
    "C34_sort_uniq",
    "C34_sort_uniq_modify",
    "C34_intersection",
    "C34_map_order"
   ],
   "note": ""
  },
  {
   "property": "C35",
   "status": "proved",
   "theorems": [
    "C35_total_order",
    "C35_sorted",
    "C35_sorted_with_nil",
    "C35_deterministic"
   ],
   "note": ""
  },
  {
   "property": "C36",
   "status": "proved",
   "theorems": [
    "C36_line",
    "C36_text",
    "C36_recover",
    "C36_numbers_recoverable",
    "C36_fields_parsed",
    "C36_accepted_fields_print",
    "C36_unknown_rejected"
   ],
   "note": ""
  },
  {
   "property": "C37",
   "status": "proved",
   "theorems": [
    "C37_nearest",
    "C37_two_files",
    "C37_local",
    "C37_used"
   ],
   "note": ""
  },
  {
   "property": "C38",
   "status": "partial",
   "theorems": [
    "C38_accepted",
    "C38_normalised",
    "C38_file",
    "C38_duplicates_refuted",
    "C38_default_directory_refuted"
   ],
   "note": "Acceptance is exact and the result is characterised in full; duplicates in and order of the resolved exclude and include lists are refuted (entries are compared before they are made absolute), and so is a clean directory for the default configuration."
  },
  {
   "property": "C39",
   "status": "partial",
   "theorems": [
    "C39_hides",
    "C39_accepted_partial",
    "C39_rejected",
    "C39_sibling_refuted"
   ],
   "note": "Hiding is exact; rejection of entries outside the directory is exact up to siblings whose name extends the name of the directory, which are accepted and do hide files (refuted)."
  },
  {
   "property": "C40",
   "status": "partial",
   "theorems": [
    "C40_header",
    "C40_commented_refuted"
   ],
   "note": "Exact for headers that are not declared as commented; a header declared as commented is used unchecked (refuted)."
  },
  {
   "property": "C41",
   "status": "partial",
   "theorems": [
    "C41_discovery_partial",
    "C41_data",
    "C41_data_ignores_files",
    "C41_total",
    "C41_grouped",
    "C41_sibling_refuted",
    "C41_dotdot_refuted"
   ],
   "note": "Exact for trees whose configurations exclude nothing outside their own directory, and for configuration data; refuted otherwise, and refuted for file names that start with two dots."
  },
  {
   "property": "C42",
   "status": "proved",
   "theorems": [
    "C42_one_configuration",
    "C42_accepted",
    "C42_two_configurations",
    "C42_order",
    "C42_data",
    "C42_relative"
   ],
   "note": ""
  },
  {
   "property": "C43",
   "status": "proved",
   "theorems": [
    "C43_display"
   ],
   "note": ""
  },
  {
   "property": "C44",
   "status": "proved",
   "theorems": [
    "C44_complete",
    "C44_late",
    "C44_terminates"
   ],
   "note": ""
  },
  {
   "property": "C45",
   "status": "partial",
   "theorems": [
    "C45_commands",
    "C45_below_partial",
    "C45_run",
    "C45_printed",
    "C45_sibling_refuted"
   ],
   "note": "Exact for the directories whose names begin with the name of the requested one; these are the directories below it when no sibling has a longer name with that beginning, refuted otherwise (C45_sibling_refuted)."
  },
  {
   "property": "C46",
   "status": "partial",
   "theorems": [
    "C46_includes",
    "C46_below_partial",
    "C46_sibling_refuted"
   ],
   "note": "The include paths are exact; that the files lie below one is proved when no include path is the beginning of the name of a sibling, refuted otherwise."
  },
  {
   "property": "C47",
   "status": "proved",
   "theorems": [
    "C47_parameters",
    "C47_flags"
   ],
   "note": ""
  },
  {
   "property": "C48",
   "status": "partial",
   "theorems": [
    "C48_success",
    "C48_run",
    "C48_compile",
    "C48_reported",
    "C48_lines",
    "C48_standard",
    "C48_unused_placed",
    "C48_unused_old",
    "C48_not_found",
    "C48_import_errors",
    "C48_interrupted_refuted",
    "C48_import_errors_refuted"
   ],
   "note": "Every line is reported or silent as documented, and a failed run is a failure or an error. Refuted: a run that is interrupted counts as a success, and the redundant line about an import is reported when it comes with a position."
  },
  {
   "property": "C49",
   "status": "proved",
   "theorems": [
    "C49_same_result",
    "C49_error",
    "C49_failures",
    "C49_schedules",
    "C49_bounded",
    "C49_progress",
    "C49_terminates",
    "C49_returns",
    "C49_error_text_refuted"
   ],
   "note": "All interleavings of the goroutines are covered. The order of the messages in the text of an error, which is not part of the claim, does depend on the schedule (C49_error_text_refuted)."
  },
  {
   "property": "C50",
   "status": "proved",
   "theorems": [
    "C50_cleans",
    "C50_commands",
    "C50_crash_refuted"
   ],
   "note": "For every return. An interrupt before protoc has started makes the program panic instead, and leaves the files (C50_crash_refuted)."
  },
  {
   "property": "C51",
   "status": "partial",
   "theorems": [
    "C51_complete_partial",
    "C51_program_last",
    "C51_written",
    "C51_recovers",
    "C51_order_refuted",
    "C51_delete_refuted"
   ],
   "note": "Proved for every schedule and crash point: the program and everything before it in the archive is complete whenever a call succeeds, and a new call can always succeed. Missing: files that come after the program in the archive (C51_order_refuted), and a cache that is being deleted (C51_delete_refuted)."
  },
  {
   "property": "C52",
   "status": "partial",
   "theorems": [
    "C52_exclusion_partial",
    "C52_quiet_partial",
    "C52_delete_refuted"
   ],
   "note": "For every interleaving of calls and crashes as long as the cache is not deleted; cache delete unlinks the lock file and then two calls can write (C52_delete_refuted)."
  },
  {
   "property": "C53",
   "status": "partial",
   "theorems": [
    "C53_default_partial",
    "C53_removes",
    "C53_custom_refuted",
    "C53_said"
   ],
   "note": "Without PROTOTOOL_CACHE_PATH exactly the default cache is removed. With it, the claim is false of the code: the custom directory is removed (C53_custom_refuted)."
  },
  {
   "property": "C54",
   "status": "partial",
   "theorems": [
    "C54_compile",
    "C54_gen",
    "C54_lint",
    "C54_status_refuted"
   ],
   "note": "Output: exact, for every failure list. Exit status: exact for all failures of the run; refuted for the claim that it only reflects those of the file asked for (C54_status_refuted)."
  },
  {
   "property": "C55",
   "status": "proved",
   "theorems": [
    "C55_silent",
    "C55_succeeds",
    "C55_command"
   ],
   "note": "Over the lint rules of the model and all map orders. Writing and reading the YAML is outside the model: the second run has a configuration whose ignores are the ones the printed entries stand for (Settings_Spec.ignores_of)."
  },
  {
   "property": "C56",
   "status": "proved",
   "theorems": [
    "C56_diff",
    "C56_swap",
    "C56_error"
   ],
   "note": "All pairs of groups, any letter case, anything else is an error; the text of an unknown group error is not specified."
  },
  {
   "property": "C57",
   "status": "proved",
   "theorems": [
    "C57_refused",
    "C57_accepted",
    "C57_malformed",
    "C57_connection",
    "C57_headers_refuted",
    "C57_said"
   ],
   "note": "Flags that do not fit are refused before anything is done, others are not; headers and times that cannot be read are errors; the connection and the call are those the flags ask for. Finding: repeated header names collapse to the last value (C57_headers_refuted)."
  },
  {
   "property": "C58",
   "status": "partial",
   "theorems": [
    "C58_service",
    "C58_missing",
    "C58_found_partial",
    "C58_package_refuted",
    "C58_said"
   ],
   "note": "Proved: every call is about the unique service of that name in the first descriptor set having it, anything else is an error and no connection is made. Converse only where all files have a package: a file without one makes every call fail (C58_package_refuted). Decoding inside grpcurl is not modelled."
  },
  {
   "property": "C59",
   "status": "partial",
   "theorems": [
    "C59_files",
    "C59_tree_partial",
    "C59_sibling_refuted"
   ],
   "note": "Exact, sorted and each file once, with directories matched by string prefix; refuted for sibling directories whose name extends the name of the one asked for (C59_sibling_refuted)."
  },
  {
   "property": "C60",
   "status": "partial",
   "theorems": [
    "C60_element_rules",
    "C60_empty_messages_partial",
    "C60_group_field_refuted"
   ],
   "note": "Exact outside groups; a message whose only field is a group is reported as empty (refuted)."
  },
  {
   "property": "C61",
   "status": "proved",
   "theorems": [
    "C61_file_rules",
    "C61_file_name",
    "C61_all_rules_specified"
   ],
   "note": ""
  },
  {
   "property": "C62",
   "status": "proved",
   "theorems": [
    "C62_directories"
   ],
   "note": ""
  },
  {
   "property": "C63",
   "status": "partial",
   "theorems": [
    "C63_location",
    "C63_distinct",
    "C63_version_refuted",
    "C63_said"
   ],
   "note": "For versions that are the name of a directory; others lead out of the cache (C63_version_refuted)."
  },
  {
   "property": "C64",
   "status": "partial",
   "theorems": [
    "C64_url",
    "C64_custom",
    "C64_data_partial",
    "C64_found",
    "C64_status_refuted",
    "C64_said",
    "C64_system"
   ],
   "note": "Except that with a custom URL a status other than 200 is not an error but an empty archive (C64_status_refuted), which is then no zip file."
  },
  {
   "property": "C65",
   "status": "proved",
   "theorems": [
    "C65_options",
    "C65_kept",
    "C65_environment",
    "C65_local",
    "C65_cached",
    "C65_error_refuted",
    "C65_said"
   ],
   "note": "Exactly which options are accepted, and what is used. When os.Stat fails for another reason than that there is no file, the program panics instead of refusing (C65_error_refuted)."
  },
  {
   "property": "C66",
   "status": "partial",
   "theorems": [
    "C66_within_partial",
    "C66_named",
    "C66_slip_refuted"
   ],
   "note": "For names without a .. element; with one, files are written elsewhere (C66_slip_refuted)."
  },
  {
   "property": "C67",
   "status": "proved",
   "theorems": [
    "C67_success",
    "C67_order",
    "C67_writes"
   ],
   "note": "For every compiler, formatter, lint runner and file system."
  },
  {
   "property": "C68",
   "status": "proved",
   "theorems": [
    "C68_killed",
    "C68_failed",
    "C68_atomic_refuted"
   ],
   "note": "Up to the one file that is being written when the process is killed or a write fails: that one can be cut short (C68_atomic_refuted), as the statement allows."
  },
  {
   "property": "C69",
   "status": "proved",
   "theorems": [
    "C69_dry_run"
   ],
   "note": "For both commands; an empty command would print nothing."
  },
  {
   "property": "C70",
   "status": "proved",
   "theorems": [
    "C70_flags",
    "C70_linters",
    "C70_all_linters",
    "C70_group",
    "C70_groups"
   ],
   "note": "The purpose of a rule is an argument (one line without tabs); the tab writer is modelled by its effect on two columns."
  },
  {
   "property": "C71",
   "status": "proved",
   "theorems": [
    "C71_set",
    "C71_flags",
    "C71_inconsistent",
    "C71_failures",
    "C71_writes",
    "C71_break"
   ],
   "note": "For every hash that tells the files of the sets apart (SHA-256 in the code); the encodings are arguments. On a write error the destination may be left cut short."
  },
  {
   "property": "C72",
   "status": "partial",
   "theorems": [
    "C72_baseline",
    "C72_unchanged",
    "C72_same_compilation",
    "C72_json_refuted"
   ],
   "note": "Proved for sets stored in binary, given that the wire format of the one set stored can be read back. C72_same_compilation: both commands compile alike. Refuted for sets stored with --json (C72_json_refuted): break check cannot read them."
  },
  {
   "property": "C73",
   "status": "proved",
   "theorems": [
    "C73_packages",
    "C73_deps",
    "C73_importers",
    "C73_unknown",
    "C73_no_name"
   ],
   "note": "For files as protoc makes them (distinct, valid descriptors); the empty package, which the compiler of descriptor sets accepts, is an error of the package model (see C09)."
  },
  {
   "property": "C74",
   "status": "partial",
   "theorems": [
    "C74_flags",
    "C74_stored",
    "C74_git",
    "C74_absolute",
    "C74_outside_partial",
    "C74_said",
    "C74_reads",
    "C74_cleanup_partial",
    "C74_cleanup_refuted",
    "C74_outside_refuted"
   ],
   "note": "Refuted in two places: the directory for the clone is left behind when git fails (C74_cleanup_refuted; proved in every other case), and a directory beside the working directory whose name begins with its name is accepted, its baseline is then outside of the clone (C74_outside_refuted; all others are refused)."
  },
  {
   "property": "C75",
   "status": "partial",
   "theorems": [
    "C75_output",
    "C75_silent",
    "C75_empty_refuted"
   ],
   "note": "Proved for all message sequences. Responses that are empty objects print no line (C75_empty_refuted), so the lines are those of the non-empty ones. grpcurl itself (dialing, marshalling) is an argument of the model."
  },
  {
   "property": "C76",
   "status": "partial",
   "theorems": [
    "C76_status",
    "C76_mistyped_refuted",
    "C76_other_system"
   ],
   "note": "Proved for all command lines, with one exception to what a user expects: a mistyped word after break, cache, config or x prints help and ends with 0 (C76_mistyped_refuted). The texts of help and usage, and what the runner does, are arguments of the model."
  },
  {
   "property": "C77",
   "status": "partial",
   "theorems": [
    "C77_meaning",
    "C77_bad_time",
    "C77_order",
    "C77_unknown_flag",
    "C77_unknown_letter",
    "C77_number",
    "C77_no_value",
    "C77_help",
    "C77_header_comma_refuted",
    "C77_cluster",
    "C77_attached",
    "C77_words",
    "C77_bad_word",
    "C77_letter_equals_refuted",
    "C77_first",
    "C77_switch_first_refuted",
    "C77_value_first_refuted",
    "C77_said"
   ],
   "note": "Proved for all commands and all sequences of flags and arguments: six spellings directly, letters written together, values attached to letters, the words for on and off and flags with values before the command by equality with those. Four expectations are refuted: --header splits its value at commas (C77_header_comma_refuted), -o= is -o \"=\" and not an empty value (C77_letter_equals_refuted), a switch before the command (C77_switch_first_refuted), and a value before the command that is the name of the command (C77_value_first_refuted)."
  },
  {
   "property": "C78",
   "status": "proved",
   "theorems": [
    "C78_no_other",
    "C78_flag_wins",
    "C78_variable"
   ],
   "note": "Non-interference is for all command lines; precedence for all lines of C77."
  },
  {
   "property": "C79",
   "status": "partial",
   "theorems": [
    "C79_configures",
    "C79_uncomment",
    "C79_settings",
    "C79_uncomment_refuted",
    "C79_never_overwrites",
    "C79_writes"
   ],
   "note": "Proved for all disks, flags and versions of letters, digits, dots and hyphens. YAML is read by a small reader in Init_Spec (block style only) that a decoder is assumed to agree with. The file of --uncomment is refused by the settings (C79_uncomment_refuted)."
  },
  {
   "property": "C80",
   "status": "proved",
   "theorems": [
    "C80_names",
    "C80_short",
    "C80_leaves_nothing",
    "C80_result"
   ],
   "note": "Temporary files and the program diff are arguments of the model."
  },
  {
   "property": "C81",
   "status": "proved",
   "theorems": [
    "C81_effects",
    "C81_files",
    "C81_untouched",
    "C81_only_reads"
   ],
   "note": "For every list of words, with every answer of the world. The temporary files and output directories that protoc is given are in C50 and C62, the effects of generators are outside of the model and stand as one event."
  },
  {
   "property": "C82",
   "status": "proved",
   "theorems": [
    "C82_same_files",
    "C82_history"
   ],
   "note": "For all histories and command lines; the answers of the outside world other than the contents of files do not change between the runs."
  },
  {
   "property": "C83",
   "status": "partial",
   "theorems": [
    "C83_update_then_use",
    "C83_downloads_refuted",
    "C83_delete_refuted"
   ],
   "note": "Proved that the commands run what cache update downloads, with one configuration in force for all directories. Two expectations are refuted: cache update downloads nothing when the environment names a protoc (C83_downloads_refuted), and cache delete removes nothing where the configuration is broken (C83_delete_refuted)."
  },
  {
   "property": "C84",
   "status": "proved",
   "theorems": [
    "C84_in_turn"
   ],
   "note": "For all command lines with the same arguments and common flags. The file header is not taken from a .proto file (formatting would change it between the runs), and lint is compared where its own run of protoc ends with 0."
  },
  {
   "property": "C85",
   "status": "proved",
   "theorems": [
    "C85_listed"
   ],
   "note": "For ordinary systems: an absolute working directory, entries of directories with distinct names, and no file without a name."
  },
  {
   "property": "C86",
   "status": "proved",
   "theorems": [
    "C86_modes",
    "C86_zero",
    "C86_silent",
    "C86_checks"
   ],
   "note": "On the systems protoc exists for."
  },
  {
   "property": "C87",
   "status": "partial",
   "theorems": [
    "C87_fix_settled_partial",
    "C87_settled_partial",
    "C87_fix_refuted"
   ],
   "note": "Proved for an ordinary system, when protoc accepts what was written, the external parser reads it as what was printed, and the configured file header is not kept in a .proto file. Without --fix: C87_settled_partial. With --fix: C87_fix_settled_partial, for files that have a package or no managed options, and, if a file header is configured, no comment attached to syntax; with a file header and such a comment it is refuted: the second run drops a comment the first one detached from syntax (C87_fix_refuted)."
  },
  {
   "property": "C88",
   "status": "proved",
   "theorems": [
    "C88_rejected",
    "C88_accepted"
   ],
   "note": "On the systems protoc exists for; lint with a flag that only lists is left out, as it does not compile."
  },
  {
   "property": "C89",
   "status": "proved",
   "theorems": [
    "C89_lint"
   ],
   "note": "For ordinary systems and parsers that return well formed trees. What some rules presuppose of a file (distinct names of messages, ASCII comments and the like; see presupposed in Main_Spec2) is a hypothesis, as in the theorems about the single rules."
  },
  {
   "property": "C90",
   "status": "proved",
   "theorems": [
    "C90_written"
   ],
   "note": "For ordinary systems and every file of the shapes the formatter keeps (the others are findings of C24). With --fix the package name, the path and the Java prefix are free of quotes."
  },
  {
   "property": "C91",
   "status": "proved",
   "theorems": [
    "C91_run"
   ],
   "note": "For ordinary systems. Warnings that protoc reports for paths with colons may be kept or dropped (see C19), so that protoc accepted is weaker than said nothing."
  },
  {
   "property": "C92",
   "status": "proved",
   "theorems": [
    "C92_create",
    "C92_newline_refuted",
    "C92_said"
   ],
   "note": "End to end through main: the in-the-way half needs no further hypotheses; the success half speaks about pairwise different places (a name given twice would be in the way of itself only after its first writing). C92_newline_refuted records that what create writes lacks the final newline format wants."
  },
  {
   "property": "C93",
   "status": "proved",
   "theorems": [
    "C93_version"
   ],
   "note": "End to end through main."
  },
  {
   "property": "C94",
   "status": "proved",
   "theorems": [
    "C94_delete"
   ],
   "note": "End to end through main; os.RemoveAll itself is an input of the world."
  },
  {
   "property": "C95",
   "status": "proved",
   "theorems": [
    "C95_set"
   ],
   "note": "End to end through main, for ordinary systems; that the sets are merged without loss needs a hash that tells the files apart, as in C71. The commands are those of some run of protoc for each directory; there is no dry run to show them."
  },
  {
   "property": "C96",
   "status": "proved",
   "theorems": [
    "C96_inspect"
   ],
   "note": "End to end through main; about sets whose files are as protoc makes them (distinct_files, faithful, valid_files), as in C73."
  },
  {
   "property": "C97",
   "status": "proved",
   "theorems": [
    "C97_stored",
    "C97_flags",
    "C97_baseline",
    "C97_git",
    "C97_outside",
    "C97_outside_refuted"
   ],
   "note": "End to end through main, for stored sets, for the round trip with break descriptor-set and for git. For git the files of the clone are given by the discovery of the model (tree), for the stored set by the set itself. C97_outside: a path that does not begin with that of the working directory is refused; that every directory outside of it is refused is not true (C97_outside_refuted)."
  },
  {
   "property": "C98",
   "status": "proved",
   "theorems": [
    "C98_grpc"
   ],
   "note": "End to end through main. The error that is printed last is not compared to that of the server, only its effect on the status; grpcurl and the connection are inputs."
  },
  {
   "property": "C99",
   "status": "proved",
   "theorems": [
    "C99_modes",
    "C99_groups",
    "C99_diff",
    "C99_listings"
   ],
   "note": "End to end through main, on top of C56 and C70."
  },
  {
   "property": "C100",
   "status": "proved",
   "theorems": [
    "C100_update",
    "C100_init",
    "C100_used"
   ],
   "note": "End to end through main. The release must be a plain name (ok_comp); C100_used is about config init in the working directory, as a relative argument names the same file in another way than the search for configurations does."
  },
  {
   "property": "C101",
   "status": "proved",
   "theorems": [
    "C101_silenced"
   ],
   "note": "End to end through main. The YAML decoder is an input: that the printed text, put into the file, decodes to the list is a hypothesis (decoded). No listed file lies on the path to the working directory (a file named as a directory above it), which no file system allows. The file header must not be read from the configuration file itself."
  },
  {
   "property": "C102",
   "status": "proved",
   "theorems": [
    "C102_said",
    "C102_output",
    "C102_colons_refuted"
   ],
   "note": "About the wordings of Protoc_Spec2.said. A line with exactly three colons that has no position is told whole and without its file (C102_colons_refuted)."
  },
  {
   "property": "C103",
   "status": "proved",
   "theorems": [
    "C103_every_rule",
    "C103_texts",
    "C103_exact",
    "C103_after_service",
    "C103_run"
   ],
   "note": "For all 96 rules: soundness of every text; for nine rules that may say several things of one place, exactness. What %v prints of the first of several package, syntax or option statements (addresses of structures) is left open. Which places are reported is C16-C20, C60, C61."
  },
  {
   "property": "C104",
   "status": "proved",
   "theorems": [
    "C104_data",
    "C104_dir",
    "C104_provider",
    "C104_run"
   ],
   "note": "What is said of a rejected configuration (the first part at fault, naming the entry), of a directory whose files cannot be listed, and, for the whole program, that files and every command that looks for files first print exactly that text and stop with status 1."
  },
  {
   "property": "C105",
   "status": "proved",
   "theorems": [
    "C105_refused"
   ],
   "note": "For every refusal of the runner itself; those of the flag parser are C75-C80."
  },
  {
   "property": "C106",
   "status": "proved",
   "theorems": [
    "C106_described",
    "C106_one_line"
   ],
   "note": "The tables themselves are C70 and C99. The fourteen rules that docs/lint.md describes in other words are listed in Lint_Purpose_Spec with what is printed of them."
  },
  {
   "property": "C107",
   "status": "proved",
   "theorems": [
    "C107_finding",
    "C107_exact",
    "C107_distinct",
    "C107_one_line",
    "C107_listing",
    "C107_bytes_refuted",
    "C107_version"
   ],
   "note": "For texts in UTF-8 C107_exact; for all texts C107_finding; that the text itself can always be read back is refuted by C107_bytes_refuted. encoding/json is modelled as far as these values need it."
  },
  {
   "property": "C108",
   "status": "proved",
   "theorems": [
    "C108_line",
    "C108_rules",
    "C108_error_format",
    "C108_error_formats",
    "C108_syntax",
    "C108_groups"
   ],
   "note": "C108_line is about whole command lines; the other theorems are about the parts of the program that look at the value. The texts of the parser of protobuf files are inputs."
  },
  {
   "property": "C109",
   "status": "proved",
   "theorems": [
    "C109_same",
    "C109_reordered",
    "C109_output_refuted",
    "C109_failed_refuted"
   ],
   "note": "C109_same for the commands with the same output, C109_reordered for format and compile --dry-run. Not covered: generate and all (the modifiers of a plugin are a map, so that protoc is given other arguments), and the commands that work on descriptor sets (temporary files are named in the order in which directories are visited). That format reports in the same order is refuted by C109_output_refuted, that a failing format leaves the same files by C109_failed_refuted."
  },
  {
   "property": "C110",
   "status": "proved",
   "theorems": [
    "C110_spelling",
    "C110_break_refuted"
   ],
   "note": "Which place a path names is Place_Spec.place, a walk over its parts; symbolic links are not modelled, so .. leads to the parent by name, and that os.Stat answers the same for both spellings is a hypothesis. That break check against the repository does the same for an absolute path is refuted by C110_break_refuted."
  },
  {
   "property": "C111",
   "status": "proved",
   "theorems": [
    "C111_local",
    "C111_files"
   ],
   "note": "C111_local is about the contents of files; C111_files is about which files are in the tree as well. Directories must be the same in both trees: each is looked at for a configuration. create, config init and break check against the repository are not covered: create looks at whatever is at the path of the new file."
  },
  {
   "property": "C112",
   "status": "proved",
   "theorems": [
    "C112_given",
    "C112_instead"
   ],
   "note": "C112_given compares --config-data with a file; C112_instead says that no configuration file is looked at. Outside the working directory the two differ: with --config-data everything below the working directory is walked, whatever path is asked for."
  },
  {
   "property": "C113",
   "status": "proved",
   "theorems": [
    "C113_excluded",
    "C113_configuration_refuted"
   ],
   "note": "C113_excluded. C113_configuration_refuted shows that the condition on configuration files is needed: one in the excluded directory that cannot be used makes every command fail. Excluded single files are covered by C41."
  },
  {
   "property": "C114",
   "status": "proved",
   "theorems": [
    "C114_file",
    "C114_silent_refuted"
   ],
   "note": "C114_file. With C110 the directory can be written in any way. C114_silent_refuted: a lint that prints nothing may end with 255."
  },
  {
   "property": "C115",
   "status": "proved",
   "theorems": [
    "C115_killed",
    "C115_atomic_refuted"
   ],
   "note": "C115_killed; the last of the moments is that in which all is written. C115_atomic_refuted: files are truncated and then written, not replaced."
  },
  {
   "property": "C116",
   "status": "proved",
   "theorems": [
    "C116_fewer",
    "C116_same"
   ],
   "note": "C116_fewer, C116_same. Both runs range over maps in the same order; that the order makes no difference to what is found is C15."
  },
  {
   "property": "C117",
   "status": "proved",
   "theorems": [
    "C117_directory",
    "C117_file"
   ],
   "note": "C117_directory, C117_file. Names of files are assumed to be distinct, as they are for files that were found."
  },
  {
   "property": "C118",
   "status": "proved",
   "theorems": [
    "C118_packages",
    "C118_parts",
    "C118_unchanged"
   ],
   "note": "C118_packages, C118_parts, C118_unchanged. The condition on oneofs, that a field is in at most one, holds for what protoc makes (C09)."
  },
  {
   "property": "C119",
   "status": "proved",
   "theorems": [
    "C119_killed",
    "C119_again_refuted"
   ],
   "note": "C119_killed; the last of the moments is that in which all is written. C119_again_refuted: after a kill the same command can fail, since the file that was begun is not empty."
  },
  {
   "property": "C120",
   "status": "proved",
   "theorems": [
    "C120_clean",
    "C120_exact",
    "C120_both",
    "C120_main",
    "C120_git"
   ],
   "note": "C120_clean needs only that packages have names; C120_exact is the equivalence for valid sets, C120_main that for the whole program and a stored set; C120_both: clean in both directions means the same contents. If an enum has several values with a number, the last one counts (declares; see C07)."
  },
  {
   "property": "C121",
   "status": "proved",
   "theorems": [
    "C121_killed",
    "C121_baseline_refuted"
   ],
   "note": "C121_killed. C121_baseline_refuted: a later break check against the file that was cut short can pass although it would not with the old or with the new contents."
  },
  {
   "property": "C122",
   "status": "proved",
   "theorems": [
    "C122_again",
    "C122_init_refuted"
   ],
   "note": "C122_again. What the disk does with a failed write is assumed to depend on the path and the data only. C122_init_refuted: config init that was killed fails when it is run again."
  },
  {
   "property": "C123",
   "status": "proved",
   "theorems": [
    "C123_releases"
   ],
   "note": "C123_releases. That no name is declared twice in a package (unique_definitions) holds for what protoc accepts."
  },
  {
   "property": "C124",
   "status": "proved",
   "theorems": [
    "C124_same_baseline"
   ],
   "note": "C124_same_baseline, for trees and branches that compile. git itself is an input: what the clone holds is a hypothesis."
  }
 ]
}