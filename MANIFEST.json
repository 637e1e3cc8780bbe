{
 "claims": [
  {
   "property": "C01",
   "status": "proved",
   "theorems": [
    "C01_expression_meaning"
   ],
   "note": "Every derivation of the expression grammar is accepted and evaluated to its boolean meaning, after optimisation."
  },
  {
   "property": "C02",
   "status": "partial",
   "theorems": [
    "C02_malformed_rejected_refuted",
    "C02_malformed_matches_everything",
    "C02_malformed_rejected_partial",
    "C02_accepted_language"
   ],
   "note": "False as stated: '{{ or a }}' is accepted and matches everything (refuted with witness). Proved for token lists without brackets; the exact accepted language is characterised."
  },
  {
   "property": "C03",
   "status": "proved",
   "theorems": [
    "C03_optimizer_preserves_result",
    "C03_optimized_equals_unoptimized",
    "C03_optimizer_sorts"
   ],
   "note": "Independent of the scores when no test raises; sortedness of every nested sequence."
  },
  {
   "property": "C04",
   "status": "proved",
   "theorems": [
    "C04_missing_is_false",
    "C04_empty_matches_all"
   ],
   "note": "Also when other tests raise exceptions."
  },
  {
   "property": "C05",
   "status": "proved",
   "theorems": [
    "C05_exclude_union",
    "C05_exclude_order_irrelevant",
    "C05_not_crashes"
   ],
   "note": "Additionally: a NOT inside -e crashes with AttributeError (finding)."
  },
  {
   "property": "C06",
   "status": "proved",
   "theorems": [
    "C06_read_back",
    "C06_rejected",
    "C06_sound",
    "C06_rejected_error"
   ],
   "note": "written tests are read back; accepted exactly the strings that have a reading"
  },
  {
   "property": "C07",
   "status": "proved",
   "theorems": [
    "C07_compare",
    "C07_other_operators"
   ],
   "note": "comparison operators over all integers, other operators rejected"
  },
  {
   "property": "C08",
   "status": "proved",
   "theorems": [
    "C08_mode"
   ],
   "note": "bitwise"
  },
  {
   "property": "C09",
   "status": "partial",
   "theorems": [
    "C09_same_who_partial",
    "C09_octal",
    "C09_refuted",
    "C09_junk_refuted"
   ],
   "note": "false for clauses with different who (refuted); proved for clauses with the same who and for octal numbers"
  },
  {
   "property": "C10",
   "status": "proved",
   "theorems": [
    "C10_sensitive",
    "C10_ignore",
    "C10_smart"
   ],
   "note": "for = and : in the three modes"
  },
  {
   "property": "C11",
   "status": "proved",
   "theorems": [
    "C11_type",
    "C11_unknown"
   ],
   "note": "All values of the file type attribute."
  },
  {
   "property": "C12",
   "status": "partial",
   "theorems": [
    "C12_value",
    "C12_strict_partial",
    "C12_strict_refuted"
   ],
   "note": "accepted values proved; rejection only without -O, refuted with -O"
  },
  {
   "property": "C13",
   "status": "proved",
   "theorems": [
    "C13_any",
    "C13_raises"
   ],
   "note": "Every combination of operator and case mode."
  },
  {
   "property": "C14",
   "status": "proved",
   "theorems": [
    "C14_duration_roundtrip"
   ],
   "note": "All non-negative integers."
  },
  {
   "property": "C15",
   "status": "partial",
   "theorems": [
    "C15_duration_value",
    "C15_minutes",
    "C15_others_rejected_refuted",
    "C15_accepted_exactly",
    "C15_others_rejected_partial"
   ],
   "note": "Well-formed durations are accepted with the right value and so are plain numbers. False in the other direction: '12x' and '' are accepted (refuted with witness); the accepted language is characterised exactly, and rejection is proved for strings over digits and unit letters."
  },
  {
   "property": "C16",
   "status": "partial",
   "theorems": [
    "C16_bytes",
    "C16_bytes_b",
    "C16_units_refuted",
    "C16_binary_units_partial",
    "C16_decimal_units_partial",
    "C16_fractions_partial",
    "C16_rejects_partial",
    "C16_errors",
    "C16_newline_refuted"
   ],
   "note": "Accepted strings are characterised exactly (a trailing newline is accepted: refuted). Values go through a double: '1YB' is off (refuted); exact below 2^53 for binary units, decimal units and fractions."
  },
  {
   "property": "C17",
   "status": "partial",
   "theorems": [
    "C17_path_partial",
    "C17_path_exact",
    "C17_name_partial",
    "C17_name_exact",
    "C17_negation",
    "C17_newline_refuted"
   ],
   "note": "Proved in both directions for all well-formed patterns (literals, ?, *, sets, ** as a whole component, leading slash, trailing slash, !): component by component if no set can match a slash, for all paths without newline (C17_path_partial); for patterns without slash exactly, for all names (C17_name_exact: a newline at the end of the name is not looked at); for patterns with slash exactly, for all paths and all sets (C17_path_exact: which texts are matched, also if a set matches a slash). False with newlines (pattern f matches the name 'f\\n'), see C17_newline_refuted."
  },
  {
   "property": "C18",
   "status": "partial",
   "theorems": [
    "C18_partial",
    "C18_refuted"
   ],
   "note": "Proved for patterns whose sets are not negated and do not contain the slash: the path is split into components without slash that match the components of the pattern; false for negated sets (x/a[!b]c matches x/a/c), see C18_refuted."
  },
  {
   "property": "C19",
   "status": "partial",
   "theorems": [
    "C19_partial",
    "C19_unique",
    "C19_tree",
    "C19_refuted"
   ],
   "note": "Proved for all lists of files whose single patterns compile (C19_partial), and, in terms of path components only, for files of well-formed patterns (C19_tree). False for patterns that are broken on their own but compile together (C19_refuted)."
  },
  {
   "property": "C20",
   "status": "partial",
   "theorems": [
    "C20_refuted",
    "C20_single_partial",
    "C20_positive_partial"
   ],
   "note": "False: two ignore files in one directory that contradict each other (C20_refuted). Proved for at most one ignore file per directory and for any number of files without negated patterns."
  },
  {
   "property": "C21",
   "status": "partial",
   "theorems": [
    "C21_refuted",
    "C21_dot_partial",
    "C21_slash_partial",
    "C21_absolute_partial",
    "C21_relative_partial",
    "C21_order_partial"
   ],
   "note": "False: the parent of a start directory written without trailing slash is missed (C21_refuted). Proved exactly which files are honoured for '.', absolute paths with and without trailing slash, and plain relative names."
  },
  {
   "property": "C22",
   "status": "proved",
   "theorems": [
    "C22_split_then_join",
    "C22_join_then_split",
    "C22_split_is_os_path_split",
    "C22_join_is_os_path_join",
    "C22_splitext",
    "C22_splitext_unique"
   ],
   "note": "Round trips and agreement with posixpath for all paths without empty components; splitext characterised for every string."
  },
  {
   "property": "C23",
   "status": "proved",
   "theorems": [
    "C23_entry_paths",
    "C23_dir_is_parent_path"
   ],
   "note": "For every non-empty spelling of the start directory. 'foo.' has pathx 'foo' and an empty ext, as with os.path.splitext; the dot is the part x of the theorem."
  },
  {
   "property": "C24",
   "status": "partial",
   "theorems": [
    "C24_hide",
    "C24_hidden_refuted",
    "C24_hidden_partial",
    "C24_hidden_exact"
   ],
   "note": "hide proved. hidden is false as stated: below '..' or './x' everything is hidden (refuted with witness). Proved for '.' and start directories without dot components; exact meaning given for all."
  },
  {
   "property": "C25",
   "status": "proved",
   "theorems": [
    "C25_mode_types"
   ],
   "note": "Linux: S_ISDOOR, S_ISPORT and S_ISWHT are constantly false."
  },
  {
   "property": "C26",
   "status": "partial",
   "theorems": [
    "C26_attributes_partial",
    "C26_mountpoint_refuted",
    "C26_stacked_refuted",
    "C26_nearest_partial"
   ],
   "note": "False for an entry that is itself a mountpoint and for stacked mounts (two witnesses). Proved for all other entries, also for the attributes with pseudofs (C26_attributes_partial); mountpoints with octal escapes in /proc/mounts are taken literally."
  },
  {
   "property": "C27",
   "status": "proved",
   "theorems": [
    "C27_total",
    "C27_sound",
    "C27_complete",
    "C27_once"
   ],
   "note": "the parser terminates on every argument vector; its result is characterised by a relation in both directions"
  },
  {
   "property": "C28",
   "status": "proved",
   "theorems": [
    "C28_spelled"
   ],
   "note": "all spellings of an option lead to the same result"
  },
  {
   "property": "C29",
   "status": "proved",
   "theorems": [
    "C29_command",
    "C29_names",
    "C29_missing"
   ],
   "note": "for the real option table"
  },
  {
   "property": "C30",
   "status": "partial",
   "theorems": [
    "C30_last",
    "C30_default",
    "C30_collect",
    "C30_environment_partial",
    "C30_environment_refuted"
   ],
   "note": "last occurrence and accumulation proved; false for an option with optional value at the end of FF_OPTIONS (refuted)"
  },
  {
   "property": "C31",
   "status": "partial",
   "theorems": [
    "C31_depth",
    "C31_limit",
    "C31_errors_partial",
    "C31_bad_types_partial",
    "C31_jobs_refuted",
    "C31_depth_refuted",
    "C31_choices_refuted"
   ],
   "note": "choices are not enforced and bad --jobs/--depth values raise ValueError (refuted); proved: all errors of the parser are usage errors except those of the value types, which are characterised"
  },
  {
   "property": "C32",
   "status": "proved",
   "theorems": [
    "C32_jobs",
    "C32_bounds",
    "C32_option"
   ],
   "note": "1 <= jobs"
  },
  {
   "property": "C33",
   "status": "proved",
   "theorems": [
    "C33_selected",
    "C33_excluded",
    "C33_text"
   ],
   "note": "Selection and exclusion as tests; that excluded directories are not entered is part of the walk model."
  },
  {
   "property": "C34",
   "status": "proved",
   "theorems": [
    "C34_limit",
    "C34_unlimited",
    "C34_only"
   ],
   "note": "All limits and all lists of results."
  },
  {
   "property": "C35",
   "status": "proved",
   "theorems": [
    "C35_page",
    "C35_all"
   ],
   "note": "All page sizes and result lists."
  },
  {
   "property": "C36",
   "status": "partial",
   "theorems": [
    "C36_taken",
    "C36_disabled",
    "C36_none",
    "C36_front_partial",
    "C36_back_partial",
    "C36_both_refuted",
    "C36_middle_refuted"
   ],
   "note": "Leading directories are always recognised; trailing ones only without leading ones, and a second copy elsewhere is removed, too (refuted witnesses)."
  },
  {
   "property": "C37",
   "status": "partial",
   "theorems": [
    "C37_partial",
    "C37_accepted",
    "C37_error",
    "C37_twice_refuted",
    "C37_slashes_refuted"
   ],
   "note": "Refused except for identical spellings and paths beginning with two slashes (refuted witnesses); symbolic links not considered."
  },
  {
   "property": "C38",
   "status": "proved",
   "theorems": [
    "C38_safe"
   ],
   "note": "Every reachable state of every interleaving, including crashes and interrupts; distinct occurrences: results are distinct if the entries of the tree are."
  },
  {
   "property": "C39",
   "status": "partial",
   "theorems": [
    "C39_complete_partial",
    "C39_errors_partial",
    "C39_refuted_early",
    "C39_refuted_error"
   ],
   "note": "Holds if queue.Empty is raised only for an empty queue, for every match on whose way no directory contains an entry whose tests raise an exception, whatever happens elsewhere; refuted without either (C39_refuted_early, C39_refuted_error). multiprocessing does not promise the former."
  },
  {
   "property": "C40",
   "status": "proved",
   "theorems": [
    "C40_bounded",
    "C40_ends"
   ],
   "note": "A bound on the number of work steps that depends on the tree only, and the end can be reached from every state without a stop."
  },
  {
   "property": "C41",
   "status": "partial",
   "theorems": [
    "C41_collected_partial",
    "C41_complete_partial",
    "C41_errors_partial",
    "C41_refuted"
   ],
   "note": "Holds if queue.Empty is raised only for an empty queue and timeouts are exact, also with exceptions in other directories; refuted if they are not (C41_refuted)."
  },
  {
   "property": "C42",
   "status": "proved",
   "theorems": [
    "C42_scan"
   ],
   "note": "Every scan, every choice of moments to give entries away."
  },
  {
   "property": "C43",
   "status": "proved",
   "theorems": [
    "C43_sorted",
    "C43_total",
    "C43_lexicographic",
    "C43_numbers",
    "C43_texts",
    "C43_truths",
    "C43_missing"
   ],
   "note": "Order, stability, -R; what numbers, texts, truth values and missing values are compared by."
  },
  {
   "property": "C44",
   "status": "partial",
   "theorems": [
    "C44_schedule_partial"
   ],
   "note": "Under the conditions under which C41 holds: no errors, prompt queues, exact timeouts."
  },
  {
   "property": "C45",
   "status": "partial",
   "theorems": [
    "C45_refuted_path",
    "C45_refuted_extension",
    "C45_refuted_superscript",
    "C45_refuted_missing",
    "C45_refuted_number",
    "C45_names_partial",
    "C45_paths_partial",
    "C45_keys_partial",
    "C45_numbers_partial"
   ],
   "note": "Refuted for paths, missing attributes, numbers and superscripts; proved for names and for paths with at most one dot per component, order of numbers for names."
  },
  {
   "property": "C46",
   "status": "partial",
   "theorems": [
    "C46_json_partial",
    "C46_lines_partial",
    "C46_add_up",
    "C46_order",
    "C46_distinguishable",
    "C46_refuted_twice",
    "C46_refuted_hidden",
    "C46_refuted_nothing"
   ],
   "note": "Refuted for fields given twice, for two fields of one name and for no results; proved for different fields of different names."
  },
  {
   "property": "C47",
   "status": "partial",
   "theorems": [
    "C47_iff_partial",
    "C47_numbers",
    "C47_truths",
    "C47_countable",
    "C47_refuted_text",
    "C47_refuted_hexadecimal",
    "C47_refuted_negative",
    "C47_refuted_superscript"
   ],
   "note": "False in general (C47_refuted_text, _hexadecimal, _negative, _superscript). Proved: for fields with distinct names the counts can be printed just if, for every field that is counted, all texts are numerals or none is (C47_iff_partial); numbers that are not negative and truth values are like that; lists are refused."
  },
  {
   "property": "C48",
   "status": "partial",
   "theorems": [
    "C48_ends",
    "C48_passed_partial",
    "C48_errors",
    "C48_exit",
    "C48_refuted"
   ],
   "note": "proved: the loop ends, what is passed is a prefix in order, complete unless a single result is too long or the command cannot be run; refuted in general: a single result that is too long silently drops the rest"
  },
  {
   "property": "C49",
   "status": "partial",
   "theorems": [
    "C49_halt",
    "C49_go_on",
    "C49_once_partial",
    "C49_pool_once",
    "C49_pool_safe",
    "C49_pool_halt",
    "C49_pool_ends"
   ],
   "note": "Halting and the thread pool are proved without restriction; that the workers run every command holds under the conditions of C39."
  },
  {
   "property": "C50",
   "status": "partial",
   "theorems": [
    "C50_zero",
    "C50_cases",
    "C50_status",
    "C50_refuted"
   ],
   "note": "Exit status 4 is possible although no worker crashed (C50_refuted). The counters are not part of the state; they are the lengths of lists in the model."
  },
  {
   "property": "C51",
   "status": "partial",
   "theorems": [
    "C51_free_partial",
    "C51_refuted"
   ],
   "note": "Refuted for every number of jobs (C51_refuted); true if there are not more callers than jobs."
  },
  {
   "property": "C52",
   "status": "proved",
   "theorems": [
    "C52_reads",
    "C52_literal",
    "C52_accepted",
    "C52_rejected",
    "C52_expanded"
   ],
   "note": "reading of templates is total and unique; accepted iff every placeholder names a field; arguments are the expanded templates; no call iff a value is missing. Values are assumed to be of the declared type"
  },
  {
   "property": "C53",
   "status": "proved",
   "theorems": [
    "C53_expanded",
    "C53_unique",
    "C53_command"
   ],
   "note": "per template one argument for each result with all values, other arguments once; a placeholder in the command is a usage error"
  },
  {
   "property": "C54",
   "status": "partial",
   "theorems": [
    "C54_lines_partial",
    "C54_cell_unique",
    "C54_records",
    "C54_refuted"
   ],
   "note": "Proved: lines without colours, and with colours if LS_COLORS is set, are printed iff not suppressed, and consist of the cells; records contain all attributes. Missing: colours with LS_COLORS unset, where the claim is false (C54_refuted); files in the root directory (C68)."
  },
  {
   "property": "C55",
   "status": "partial",
   "theorems": [
    "C55_padding",
    "C55_fields_partial",
    "C55_missing_refuted"
   ],
   "note": "Proved for every string that is rendered and every field with a value, coloured or not. An empty cell for a missing attribute is not padded (C55_missing_refuted)."
  },
  {
   "property": "C56",
   "status": "proved",
   "theorems": [
    "C56_array",
    "C56_lines",
    "C56_collected"
   ],
   "note": "Text and meaning of the output: a reader of JSON reads back the list of all records; only the collecting process writes it."
  },
  {
   "property": "C57",
   "status": "partial",
   "theorems": [
    "C57_found_partial",
    "C57_errors",
    "C57_tables",
    "C57_refuted",
    "C57_unsteady_refuted"
   ],
   "note": "Any number of processes, any history: a value found is the plugin's own if entries are up to date, data is a function of path and tag and pickling is faithful; errors only for three stated reasons. False in general: another version of the plugin drops the table in use (C57_refuted); a change between lstat and reading (C57_unsteady_refuted)."
  },
  {
   "property": "C58",
   "status": "partial",
   "theorems": [
    "C58_current_partial",
    "C58_refuted"
   ],
   "note": "Proved if no file has two contents within one second (and keys are distinct, C60); refuted otherwise."
  },
  {
   "property": "C59",
   "status": "proved",
   "theorems": [
    "C59_rows"
   ],
   "note": "Every history with processes ending at any point, also within a commit: each row is the outcome of a completed computation, one row per path; later runs are covered by C57, whose histories include crashes."
  },
  {
   "property": "C60",
   "status": "partial",
   "theorems": [
    "C60_keys_partial",
    "C60_refuted"
   ],
   "note": "Injective on decodable paths and on paths without a backslash; refuted in general."
  },
  {
   "property": "C61",
   "status": "partial",
   "theorems": [
    "C61_partial",
    "C61_fails",
    "C61_refuted",
    "C61_undecodable_refuted"
   ],
   "note": "False whenever there is a stale row (C61_refuted, C61_fails); proved when there is none."
  },
  {
   "property": "C62",
   "status": "partial",
   "theorems": [
    "C62_own",
    "C62_dropped",
    "C62_others_partial",
    "C62_refuted"
   ],
   "note": "Exactly which tables are dropped is proved; only older versions of the same plugin if the name is not a prefix of another (C62_others_partial); refuted in general."
  },
  {
   "property": "C63",
   "status": "partial",
   "theorems": [
    "C63_resolve",
    "C63_error",
    "C63_order_partial",
    "C63_order_refuted"
   ],
   "note": "resolution proved; order irrelevant only for distinct plugin names, refuted otherwise"
  },
  {
   "property": "C64",
   "status": "partial",
   "theorems": [
    "C64_rejected",
    "C64_number",
    "C64_mode",
    "C64_string",
    "C64_classes_partial",
    "C64_classes_refuted"
   ],
   "note": "proved for the built-in types; for arbitrary class hierarchies refuted with mixins, proved without"
  },
  {
   "property": "C65",
   "status": "partial",
   "theorems": [
    "C65_meaning_partial",
    "C65_independent_partial",
    "C65_ignore_unnoticed",
    "C65_cache_refuted",
    "C65_other_cache_refuted",
    "C65_broken_refuted",
    "C65_ignore_refuted",
    "C65_setup_refuted"
   ],
   "note": "Proved: in an unchanged world, after any queries (also failed ones) with the same cache file, a query gives its stateless meaning. Refuted in general in five ways: no cache or other cache file before, a broken plugin file, changed ignore files, a setup that failed once."
  },
  {
   "property": "C66",
   "status": "proved",
   "theorems": [
    "C66_refused",
    "C66_error",
    "C66_warnings"
   ],
   "note": "All parsed command lines: refused iff one of the listed combinations, the exact list of warnings and the options left otherwise."
  },
  {
   "property": "C67",
   "status": "proved",
   "theorems": [
    "C67_hexadecimal",
    "C67_octal",
    "C67_unique"
   ],
   "note": "Uniqueness of numerals included."
  },
  {
   "property": "C68",
   "status": "partial",
   "theorems": [
    "C68_text_partial",
    "C68_same_text",
    "C68_refuted"
   ],
   "note": "Proved for all entries but files directly in the root directory, whose path is printed with two slashes (C68_refuted)."
  },
  {
   "property": "C69",
   "status": "proved",
   "theorems": [
    "C69_accepted",
    "C69_refused",
    "C69_unique",
    "C69_width"
   ],
   "note": "All texts; digits are those of ASCII."
  },
  {
   "property": "C70",
   "status": "partial",
   "theorems": [
    "C70_moment",
    "C70_documented_partial",
    "C70_digits",
    "C70_number",
    "C70_fraction",
    "C70_exponent",
    "C70_compact_refuted",
    "C70_ago",
    "C70_accepted",
    "C70_rejected_refuted"
   ],
   "note": "The forms with dashes and colons, digits, signed numbers, decimal fractions and numbers with an exponent, durations and the set of accepted texts are proved; refuted for the three forms without separators and for the rejection of other texts."
  },
  {
   "property": "C71",
   "status": "partial",
   "theorems": [
    "C71_roundtrip_partial",
    "C71_twice_refuted",
    "C71_early_refuted"
   ],
   "note": "Proved for local times with a four digit year that happen once; refuted otherwise."
  },
  {
   "property": "C72",
   "status": "partial",
   "theorems": [
    "C72_last_partial",
    "C72_last_refuted"
   ],
   "note": "Proved in zones with a fixed offset; refuted when the clock is put forward."
  },
  {
   "property": "C73",
   "status": "proved",
   "theorems": [
    "C73_shown",
    "C73_read",
    "C73_huge_refuted"
   ],
   "note": "Proved for sizes up to (base - 1) * base^8; from base^9 on it fails (C73_huge_refuted)."
  },
  {
   "property": "C74",
   "status": "proved",
   "theorems": [
    "C74_order",
    "C74_huge_refuted"
   ],
   "note": "Proved for sizes up to (base - 1) * base^8; from base^9 on it fails (C74_huge_refuted)."
  },
  {
   "property": "C75",
   "status": "proved",
   "theorems": [
    "C75_sound"
   ],
   "note": "For all trees, arguments and schedules, if the plugins provide values of the types they declare and the values of the tests can be parsed. Covers tests with references to other files (C75_deep_example) and % with patterns for strings and for paths; tests with values that cannot be parsed are outside of Legal. That -I excludes what has ignored=yes is part of it, what ignored means is not (C19-C21, C99)."
  },
  {
   "property": "C76",
   "status": "partial",
   "theorems": [
    "C76_complete_partial",
    "C76_ends",
    "C76_refuted"
   ],
   "note": "C76_complete_partial: everything is reported if queue.Empty is not raised while something is in the queue and the main process is not late at the barrier; C76_ends: the search can always end normally as long as nothing has gone wrong. False in general (C76_refuted), for the same reason as C39."
  },
  {
   "property": "C77",
   "status": "partial",
   "theorems": [
    "C77_names",
    "C77_walk_partial",
    "C77_outside",
    "C77_bare",
    "C77_refuted"
   ],
   "note": "False for a bare name outside of the search directories (C77_bare) and for the search directory / (C77_refuted); C77_names holds always, C77_walk_partial below other directories and without -a, C77_outside elsewhere."
  },
  {
   "property": "C78",
   "status": "partial",
   "theorems": [
    "C78_self_partial",
    "C78_rejected",
    "C78_lists"
   ],
   "note": "Without ~ and % (a value is then a pattern) and below directories other than /; false for lists of strings (C78_lists)."
  },
  {
   "property": "C79",
   "status": "partial",
   "theorems": [
    "C79_target_partial",
    "C79_others",
    "C79_absolute",
    "C79_refuted"
   ],
   "note": "False for absolute links in most directories (C79_absolute, C79_refuted); proved for relative links and for the current and the root directory."
  },
  {
   "property": "C80",
   "status": "proved",
   "theorems": [
    "C80_nearest",
    "C80_two_slashes"
   ],
   "note": "C80_nearest; C80_two_slashes shows why paths with two slashes at the beginning are left out."
  },
  {
   "property": "C81",
   "status": "partial",
   "theorems": [
    "C81_listed_partial",
    "C81_refuted"
   ],
   "note": "False for names that git quotes and for renamed files (C81_refuted); proved for all others."
  },
  {
   "property": "C82",
   "status": "partial",
   "theorems": [
    "C82_collected_partial",
    "C82_immediate_partial",
    "C82_json_partial",
    "C82_count_partial"
   ],
   "note": "Proved for searches that end normally where queue.Empty is not raised early and the main process is not late (as C76), for sort fields without the modifier v (C45), if no start directory is given twice, LS_COLORS is not empty when colours are used and nothing but directories is reported directly in the root directory (C68)."
  },
  {
   "property": "C83",
   "status": "partial",
   "theorems": [
    "C83_same_partial"
   ],
   "note": "Proved for searches that end normally where queue.Empty is not raised early and the main process is not late (as C76)."
  },
  {
   "property": "C84",
   "status": "proved",
   "theorems": [
    "C84_file"
   ],
   "note": "Only the first file is replaced; a second one is an unknown attribute."
  },
  {
   "property": "C85",
   "status": "proved",
   "theorems": [
    "C85_types",
    "C85_search"
   ],
   "note": "For every entry; values of the operating system are arguments."
  },
  {
   "property": "C86",
   "status": "partial",
   "theorems": [
    "C86_refuted",
    "C86_before_refuted",
    "C86_partial",
    "C86_near_partial",
    "C86_defined"
   ],
   "note": "False in the last nanosecond of a second and before 1970 (C86_refuted, C86_before_refuted); C86_partial: from 1970 to 2242 if the fraction is below .999999 or so; C86_near_partial: never more than one second off."
  },
  {
   "property": "C87",
   "status": "proved",
   "theorems": [
    "C87_names",
    "C87_attributes"
   ],
   "note": "An invariant of the memo tables."
  },
  {
   "property": "C88",
   "status": "partial",
   "theorems": [
    "C88_count",
    "C88_contains",
    "C88_equal_refuted",
    "C88_equal_partial"
   ],
   "note": "linecount and lines:v are right (C88_count, C88_contains); lines=v is true only for a last line without an end (C88_equal_refuted, C88_equal_partial)."
  },
  {
   "property": "C89",
   "status": "partial",
   "theorems": [
    "C89_refuted",
    "C89_partial",
    "C89_none_partial"
   ],
   "note": "Any line that starts with #! is taken (C89_refuted); right if the first line starts with #! or no line does."
  },
  {
   "property": "C90",
   "status": "partial",
   "theorems": [
    "C90_names_refuted",
    "C90_package_refuted",
    "C90_relative_refuted",
    "C90_partial"
   ],
   "note": "Three forms of imports are wrong (C90_names_refuted, C90_package_refuted, C90_relative_refuted); C90_partial: right without them."
  },
  {
   "property": "C91",
   "status": "partial",
   "theorems": [
    "C91_path_refuted",
    "C91_blank_refuted",
    "C91_partial",
    "C91_name_partial"
   ],
   "note": "Relative paths and names that end with a blank are not found; C91_partial, C91_name_partial: all others."
  },
  {
   "property": "C92",
   "status": "partial",
   "theorems": [
    "C92_grep_partial",
    "C92_shebang_partial",
    "C92_pacman_partial",
    "C92_tar_refuted",
    "C92_hash_refuted",
    "C92_py_refuted"
   ],
   "note": "Proved for grep, shebang and pacman; refuted for tar, shake hashes and py."
  },
  {
   "property": "C93",
   "status": "proved",
   "theorems": [
    "C93_sum"
   ],
   "note": "The contract of hashlib is a hypothesis."
  },
  {
   "property": "C94",
   "status": "proved",
   "theorems": [
    "C94_mime",
    "C94_members",
    "C94_other"
   ],
   "note": "The type has a slash; results of libmagic and tarfile are arguments."
  },
  {
   "property": "C95",
   "status": "proved",
   "theorems": [
    "C95_text",
    "C95_wrong",
    "C95_decimal"
   ],
   "note": "Durations in human readable form for values that are not negative; the human readable forms of times, sizes and modes are a parameter (C73, C74)."
  },
  {
   "property": "C96",
   "status": "partial",
   "theorems": [
    "C96_immediate_partial",
    "C96_collected_partial",
    "C96_refuted"
   ],
   "note": "Proved for searches that end normally where queue.Empty is not raised early (C96_refuted) and, with --sort or --limit, the main process is not late (as C76), for sort fields without the modifier v (C45)."
  },
  {
   "property": "C97",
   "status": "partial",
   "theorems": [
    "C97_batch_partial"
   ],
   "note": "Proved for searches that end normally where queue.Empty is not raised early and the main process is not late (as C76), for sort fields without the modifier v (C45)."
  },
  {
   "property": "C98",
   "status": "partial",
   "theorems": [
    "C98_records_partial",
    "C98_modifiers",
    "C98_refused"
   ],
   "note": "Proved for searches that end normally where queue.Empty is not raised early and the main process is not late (as C76), for sort fields without the modifier v (C45)."
  },
  {
   "property": "C99",
   "status": "partial",
   "theorems": [
    "C99_sound",
    "C99_complete_partial",
    "C99_ends",
    "C99_meaning",
    "C99_none",
    "C99_exactly",
    "C99_where",
    "C99_refuted"
   ],
   "note": "The walk with lists of ignore files, composed with C75/C76 and C19 (C99_sound, C99_meaning, C99_none, C99_exactly). Completeness needs that queue.Empty is not raised while something is in the queue and that the main process is not late (C99_complete_partial, C99_refuted). Which files above the start directory count is C21; patterns are well-formed ones, names have no newline."
  },
  {
   "property": "C100",
   "status": "proved",
   "theorems": [
    "C100_tag",
    "C100_size",
    "C100_format",
    "C100_duration",
    "C100_other"
   ],
   "note": "for tracks whose durations are not negative numbers (numbers or texts that float() reads); tags, size, format and duration as equivalences"
  },
  {
   "property": "C101",
   "status": "partial",
   "theorems": [
    "C101_partial",
    "C101_remote",
    "C101_refuted"
   ],
   "note": "refuted: with .. after a symbolic link the directory asked for may not exist and the search fails; partial: without symbolic links on the way; the relation of type and remote holds in general"
  },
  {
   "property": "C102",
   "status": "partial",
   "theorems": [
    "C102_lists",
    "C102_missing_refuted",
    "C102_determines_partial",
    "C102_refuted"
   ],
   "note": "refuted: keys after one that cannot be read are missing, and keys with = make the list ambiguous; lists_ holds if all can be read, determines_partial for keys without ="
  },
  {
   "property": "C103",
   "status": "proved",
   "theorems": [
    "C103_empty",
    "C103_tests"
   ],
   "note": "for every answer of os.scandir; a directory that cannot be listed is not empty"
  },
  {
   "property": "C104",
   "status": "partial",
   "theorems": [
    "C104_mount_partial",
    "C104_crossing",
    "C104_search",
    "C104_refuted"
   ],
   "note": "a directory bound to another place of the same file system is not recognised (C104_refuted); proved exactly for changes of device"
  },
  {
   "property": "C105",
   "status": "partial",
   "theorems": [
    "C105_names_partial",
    "C105_paths_partial",
    "C105_unique",
    "C105_suffix_refuted",
    "C105_hidden_refuted",
    "C105_directory_refuted"
   ],
   "note": "proved for rules of two letters and suffixes *.x, for names of files and for paths; false for *.tar.gz, .c, and names of directories (refuted)"
  },
  {
   "property": "C106",
   "status": "proved",
   "theorems": [
    "C106_separator"
   ],
   "note": "the two replacements together are one pass from left to right"
  },
  {
   "property": "C107",
   "status": "partial",
   "theorems": [
    "C107_partial",
    "C107_refuted"
   ],
   "note": "--color=always overrides NO_COLOR (C107_refuted), contrary to the manual page; proved if --color is not given"
  },
  {
   "property": "C108",
   "status": "proved",
   "theorems": [
    "C108_presentation",
    "C108_unique",
    "C108_waits"
   ],
   "note": "json is None, json or jsonl, the only values the options set"
  },
  {
   "property": "C109",
   "status": "partial",
   "theorems": [
    "C109_partial",
    "C109_plain",
    "C109_refuted",
    "C109_wrong_refuted"
   ],
   "note": "false for patterns without a slash of attributes such as dir, namex, link (refuted); proved for all other tests"
  },
  {
   "property": "C110",
   "status": "proved",
   "theorems": [
    "C110_words",
    "C110_unique",
    "C110_error",
    "C110_quoted"
   ],
   "note": "Words is the grammar of a shell's words; the only error is the uncaught ValueError for unbalanced quotes or a backslash at the end"
  },
  {
   "property": "C111",
   "status": "proved",
   "theorems": [
    "C111_initial",
    "C111_switch",
    "C111_value",
    "C111_refused",
    "C111_bare",
    "C111_optional",
    "C111_several"
   ],
   "note": "the tables of OptionSpec are written from the manual (help texts), not from the model"
  },
  {
   "property": "C112",
   "status": "partial",
   "theorems": [
    "C112_exits",
    "C112_traceback_partial",
    "C112_search",
    "C112_refuted",
    "C112_refuted_expressions"
   ],
   "note": "Refuted in general by four kinds of wrong arguments; proved that there are no other tracebacks, which exit statuses occur and why"
  },
  {
   "property": "C113",
   "status": "partial",
   "theorems": [
    "C113_directories",
    "C113_first",
    "C113_all",
    "C113_builtin",
    "C113_error",
    "C113_broken",
    "C113_full_names",
    "C113_file_names",
    "C113_order_partial",
    "C113_short_refuted",
    "C113_order_refuted"
   ],
   "note": "Directories, precedence, errors, full names and names of file attributes proved; no plugin can replace one that comes with ff (C113_builtin); false for other short names (C113_short_refuted) and for two plugins of one name in one directory (C113_order_refuted, otherwise C113_order_partial)"
  },
  {
   "property": "C114",
   "status": "partial",
   "theorems": [
    "C114_program",
    "C114_lines_partial",
    "C114_immediate_partial",
    "C114_json_partial",
    "C114_jsonl_partial",
    "C114_jsonl_immediate_partial",
    "C114_count_partial",
    "C114_commands_partial",
    "C114_commands_after_partial",
    "C114_batch_partial",
    "C114_case"
   ],
   "note": "Proved for all presentations, -x and -X under the assumptions of C82, C96 and C97 (known meaning of the tests, directories that do not change, waiting that does not end early, LS_COLORS set for colours)"
  },
  {
   "property": "C115",
   "status": "partial",
   "theorems": [
    "C115_wrap",
    "C115_text_refuted",
    "C115_text_partial",
    "C115_template_partial",
    "C115_plain_partial",
    "C115_marker",
    "C115_attributes_partial",
    "C115_no_docstring",
    "C115_plugin_partial",
    "C115_unknown",
    "C115_types_partial",
    "C115_plugins_partial"
   ],
   "note": "False for texts that begin with a dot or a single quote or contain a backslash, and for plugins without a docstring (C115_text_refuted, C115_no_docstring); proved for all others, and C115_wrap and C115_marker without restriction."
  },
  {
   "property": "C116",
   "status": "partial",
   "theorems": [
    "C116_fill",
    "C116_whole",
    "C116_long",
    "C116_narrow_refuted",
    "C116_narrow",
    "C116_narrow_raises",
    "C116_messages_partial",
    "C116_exit_partial",
    "C116_once_refuted",
    "C116_processes_partial"
   ],
   "note": "False on screens of one or two columns and for tags across processes (C116_narrow_refuted, C116_once_refuted); proved for every wider screen and within each process (C116_messages_partial, C116_exit_partial, C116_processes_partial). Words that fit are kept whole if the only white space are blanks (C116_whole); where a single long word is broken: C116_long."
  },
  {
   "property": "C117",
   "status": "partial",
   "theorems": [
    "C117_options",
    "C117_narrow_refuted",
    "C117_help_partial",
    "C117_help_ff_partial",
    "C117_gap_refuted",
    "C117_gap_partial",
    "C117_manual_partial",
    "C117_manual_ff",
    "C117_manual_words",
    "C117_usage"
   ],
   "note": "False on screens of one or two columns and, for options that ff does not have, where the names fill their column or are capitals (C117_narrow_refuted, C117_gap_refuted); proved for every wider screen and for the whole table of ff (C117_help_ff_partial, C117_manual_ff, C117_manual_words)."
  },
  {
   "property": "C118",
   "status": "partial",
   "theorems": [
    "C118_codes",
    "C118_exit_codes",
    "C118_exit_codes_ff",
    "C118_time_patterns",
    "C118_pattern",
    "C118_time_patterns_ff",
    "C118_include",
    "C118_year_refuted"
   ],
   "note": "C118_year_refuted: the pattern YY of the page is not a year that is understood; the lists themselves are proved"
  },
  {
   "property": "C119",
   "status": "partial",
   "theorems": [
    "C119_sonames_partial",
    "C119_other",
    "C119_damaged",
    "C119_total_refuted"
   ],
   "note": "C119_total_refuted: exceptions of pyelftools other than ELFError are not caught; the values themselves are proved"
  },
  {
   "property": "C120",
   "status": "partial",
   "theorems": [
    "C120_spelling",
    "C120_regular",
    "C120_hidden",
    "C120_glob",
    "C120_perm_700",
    "C120_perm_ux",
    "C120_exec",
    "C120_executable_partial",
    "C120_executable_refuted",
    "C120_big_partial",
    "C120_big_refuted",
    "C120_links",
    "C120_newer_partial",
    "C120_newer_refuted",
    "C120_members_partial",
    "C120_sonames",
    "C120_recent",
    "C120_members_refuted"
   ],
   "note": "Each example is characterised exactly. False for four of them (C120_executable_refuted, C120_big_refuted, C120_newer_refuted, C120_members_refuted); what these do find is in the _partial theorems. The examples with --sort, --output, -x, lines, text, mime.type and git.tracked are covered by other properties or depend on values of plugins."
  },
  {
   "property": "C121",
   "status": "partial",
   "theorems": [
    "C121_same_result",
    "C121_once",
    "C121_conjunction",
    "C121_fast_first",
    "C121_exclude",
    "C121_operands",
    "C121_alternatives",
    "C121_operands_partial",
    "C121_alternatives_partial",
    "C121_operands_refuted"
   ],
   "note": "Proved for tests, operands, alternatives and -e ordered by their score (C121_conjunction, _fast_first, _operands, _alternatives, _exclude, _once) and for fast operands and alternatives against all others. Refuted in general (C121_operands_refuted): the score of a group is a sum, so three tests of normal speed in brackets come after a slow test."
  },
  {
   "property": "C122",
   "status": "partial",
   "theorems": [
    "C122_exists_partial",
    "C122_or_partial",
    "C122_and_partial",
    "C122_not_partial",
    "C122_directories_partial",
    "C122_depth_partial",
    "C122_exclude_partial",
    "C122_stricter_partial"
   ],
   "note": "All laws proved for searches that end normally and in which queue.Empty is not raised while something is in the queue and the main process is not late at the barrier; C76_refuted shows that results can be missing otherwise. C122_exists_partial: such searches exist for all arguments."
  },
  {
   "property": "C123",
   "status": "partial",
   "theorems": [
    "C123_conjunction_partial",
    "C123_within_partial",
    "C123_language_partial",
    "C123_one_reading",
    "C123_balanced",
    "C123_refuted"
   ],
   "note": "False as stated: C123_refuted. Proved: C123_conjunction_partial (every accepted expression that is not only ANDs), C123_within_partial and C123_language_partial (every list of words whose brackets belong together); C123_one_reading and C123_balanced hold without restriction. Missing: words with brackets that do not belong together."
  },
  {
   "property": "C124",
   "status": "partial",
   "theorems": [
    "C124_local_partial",
    "C124_exclude_partial",
    "C124_shorthand",
    "C124_unlimited_partial"
   ],
   "note": "Proved for searches that end normally and in which queue.Empty is not raised while something is in the queue and the main process is not late at the barrier (as C122; C76_refuted shows that results can be missing otherwise); C124_shorthand without restriction. Attributes other than those of lstat and the name are taken to be the same functions of the entry in both trees."
  },
  {
   "property": "C125",
   "status": "partial",
   "theorems": [
    "C125_whole_partial",
    "C125_all_partial",
    "C125_records",
    "C125_long_refuted",
    "C125_terminal_refuted"
   ],
   "note": "Proved for lines that fit into the buffer and, on a terminal, have no line breaks in them, for all numbers of processes, interleavings and moments; refuted for longer lines and for names with line breaks on a terminal."
  },
  {
   "property": "C126",
   "status": "partial",
   "theorems": [
    "C126_escaped_partial",
    "C126_one",
    "C126_unchanged",
    "C126_refuted",
    "C126_distinct_refuted",
    "C126_distinct_partial"
   ],
   "note": "Every line is printed, with exactly the unencodable characters escaped, if standard output and the file system have the same characters; refuted for different encodings, where the exception is raised again. Distinct lines are printed differently if they have no backslashes; refuted otherwise."
  },
  {
   "property": "C127",
   "status": "partial",
   "theorems": [
    "C127_equivalent_partial",
    "C127_replaced_partial",
    "C127_written",
    "C127_de_morgan_partial",
    "C127_swapped_partial",
    "C127_distributed_partial"
   ],
   "note": "Proved for schedules in which no process overlooks its work (C76 shows that this is needed) and for plugins that keep their types: equivalent expressions, the same tests for -e and reordered directories yield the same multiset of results, whatever the speed scores; a test may be replaced by one that is true of the same entries; De Morgan, commutativity and distributivity as instances."
  },
  {
   "property": "C128",
   "status": "partial",
   "theorems": [
    "C128_ends",
    "C128_tree",
    "C128_once",
    "C128_warnings",
    "C128_found_partial",
    "C128_broken_refuted",
    "C128_once_refuted"
   ],
   "note": "Proved: going down ends (C128_ends), the tree is exactly what names lead to (C128_tree), warnings (C128_warnings), without -L every directory is entered once (C128_once). With -L two parts of the statement are false: broken links are not seen (C128_broken_refuted) and files can be seen 2^limit times (C128_once_refuted). C128_found_partial combines the tree with the search of C76 and C122: for runs that overlook no work (prompt) and arguments that are sensible; what the attributes of other plugins say is a parameter."
  },
  {
   "property": "C129",
   "status": "partial",
   "theorems": [
    "C129_within_partial",
    "C129_link_refuted"
   ],
   "note": "C129_within_partial: exactly, if no start directory is itself a link or -L is given, for runs as in C122. C129_link_refuted: without -L a start directory that is a link to another file system is searched but nothing in it is reported."
  },
  {
   "property": "C130",
   "status": "partial",
   "theorems": [
    "C130_beginning",
    "C130_whole",
    "C130_read",
    "C130_ends",
    "C130_console",
    "C130_failed_refuted",
    "C130_flush_refuted"
   ],
   "note": "Proved: at every moment a beginning of the array (C130_beginning), the whole array at a normal end (C130_whole, C130_console), a reader accepts nothing less (C130_read), the end can be reached (C130_ends). False that the output can be read whatever happens: after an exception a lone bracket is left (C130_failed_refuted). C130_flush_refuted shows that the flush by multiprocessing is needed."
  },
  {
   "property": "C131",
   "status": "partial",
   "theorems": [
    "C131_immediate",
    "C131_immediate_part",
    "C131_stops",
    "C131_goes_on",
    "C131_ends",
    "C131_immediate_read",
    "C131_collected_partial",
    "C131_collected_part",
    "C131_collected_read",
    "C131_json",
    "C131_count",
    "C131_unflushed_read",
    "C131_long_refuted",
    "C131_quiet_immediate_refuted",
    "C131_quiet_collected_refuted"
   ],
   "note": "Proved for processes that print, for --json and --count; for lines printed by the main process if none is longer than the buffer. Refuted: longer lines, and that a reader that goes away causes no complaints."
  },
  {
   "property": "C132",
   "status": "partial",
   "theorems": [
    "C132_sound",
    "C132_complete_partial",
    "C132_remain",
    "C132_polls",
    "C132_silent_refuted",
    "C132_given_up_refuted"
   ],
   "note": "False in general: an iteration that ends without an exception may have lost results because a process failed (C132_silent_refuted), and leaving the loop does not end the search (C132_given_up_refuted, C132_remain, C132_polls). Proved: only results are yielded, none twice (C132_sound); every result, if the exit code stays 0, under the conditions of C41 (C132_complete_partial)."
  },
  {
   "property": "C133",
   "status": "partial",
   "theorems": [
    "C133_one_partial",
    "C133_none",
    "C133_stops",
    "C133_refuted"
   ],
   "note": "False in general: an interrupted ff has exit status 1, too (C133_refuted). Proved: status 1 means an interrupt or --fail without results (C133_one_partial); with --fail a search that comes to its end has status 1 just if nothing matches (C133_none); an interrupt stops all processes (C133_stops)."
  },
  {
   "property": "C134",
   "status": "partial",
   "theorems": [
    "C134_unchanged_partial",
    "C134_list",
    "C134_search",
    "C134_unsplit",
    "C134_refuted",
    "C134_again_refuted"
   ],
   "note": "False for a list with directories at its ends (C134_refuted, C134_again_refuted); proved for every other query, and that only names of directories are removed."
  }
 ]
}