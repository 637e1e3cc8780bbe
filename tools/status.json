{
"C01": [
"proved",
"Every derivation of the expression grammar is accepted and evaluated to its boolean meaning, after optimisation."
],
"C02": [
"partial",
"False as stated: '{{ or a }}' is accepted and matches everything (refuted with witness). Proved for token lists without brackets; the exact accepted language is characterised."
],
"C03": [
"proved",
"Independent of the scores when no test raises; sortedness of every nested sequence."
],
"C04": [
"proved",
"Also when other tests raise exceptions."
],
"C05": [
"proved",
"Additionally: a NOT inside -e crashes with AttributeError (finding)."
],
"C06": [
"proved",
"written tests are read back; accepted exactly the strings that have a reading"
],
"C07": [
"proved",
"comparison operators over all integers, other operators rejected"
],
"C08": [
"proved",
"bitwise"
],
"C09": [
"partial",
"false for clauses with different who (refuted); proved for clauses with the same who and for octal numbers"
],
"C10": [
"proved",
"for = and : in the three modes"
],
"C11": [
"proved",
"All values of the file type attribute."
],
"C12": [
"partial",
"accepted values proved; rejection only without -O, refuted with -O"
],
"C13": [
"proved",
"Every combination of operator and case mode."
],
"C14": [
"proved",
"All non-negative integers."
],
"C15": [
"partial",
"Well-formed durations are accepted with the right value and so are plain numbers. False in the other direction: '12x' and '' are accepted (refuted with witness); the accepted language is characterised exactly, and rejection is proved for strings over digits and unit letters."
],
"C16": [
"partial",
"Accepted strings are characterised exactly (a trailing newline is accepted: refuted). Values go through a double: '1YB' is off (refuted); exact below 2^53 for binary units, decimal units and fractions."
],
"C17": [
"partial",
"Proved in both directions for all well-formed patterns (literals, ?, *, sets, ** as a whole component, leading slash, trailing slash, !): component by component if no set can match a slash, for all paths without newline (C17_path_partial); for patterns without slash exactly, for all names (C17_name_exact: a newline at the end of the name is not looked at); for patterns with slash exactly, for all paths and all sets (C17_path_exact: which texts are matched, also if a set matches a slash). False with newlines (pattern f matches the name 'f\\n'), see C17_newline_refuted."
],
"C18": [
"partial",
"Proved for patterns whose sets are not negated and do not contain the slash: the path is split into components without slash that match the components of the pattern; false for negated sets (x/a[!b]c matches x/a/c), see C18_refuted."
],
"C19": [
"partial",
"Proved for all lists of files whose single patterns compile (C19_partial), and, in terms of path components only, for files of well-formed patterns (C19_tree). False for patterns that are broken on their own but compile together (C19_refuted)."
],
"C20": [
"partial",
"False: two ignore files in one directory that contradict each other (C20_refuted). Proved for at most one ignore file per directory and for any number of files without negated patterns."
],
"C21": [
"partial",
"False: the parent of a start directory written without trailing slash is missed (C21_refuted). Proved exactly which files are honoured for '.', absolute paths with and without trailing slash, and plain relative names."
],
"C22": [
"proved",
"Round trips and agreement with posixpath for all paths without empty components; splitext characterised for every string."
],
"C23": [
"proved",
"For every non-empty spelling of the start directory. 'foo.' has pathx 'foo' and an empty ext, as with os.path.splitext; the dot is the part x of the theorem."
],
"C24": [
"partial",
"hide proved. hidden is false as stated: below '..' or './x' everything is hidden (refuted with witness). Proved for '.' and start directories without dot components; exact meaning given for all."
],
"C25": [
"proved",
"Linux: S_ISDOOR, S_ISPORT and S_ISWHT are constantly false."
],
"C26": [
"partial",
"False for an entry that is itself a mountpoint and for stacked mounts (two witnesses). Proved for all other entries, also for the attributes with pseudofs (C26_attributes_partial); mountpoints with octal escapes in /proc/mounts are taken literally."
],
"C27": [
"proved",
"the parser terminates on every argument vector; its result is characterised by a relation in both directions"
],
"C28": [
"proved",
"all spellings of an option lead to the same result"
],
"C29": [
"proved",
"for the real option table"
],
"C30": [
"partial",
"last occurrence and accumulation proved; false for an option with optional value at the end of FF_OPTIONS (refuted)"
],
"C31": [
"partial",
"choices are not enforced and bad --jobs/--depth values raise ValueError (refuted); proved: all errors of the parser are usage errors except those of the value types, which are characterised"
],
"C32": [
"proved",
"1 <= jobs"
],
"C33": [
"proved",
"Selection and exclusion as tests; that excluded directories are not entered is part of the walk model."
],
"C34": [
"proved",
"All limits and all lists of results."
],
"C35": [
"proved",
"All page sizes and result lists."
],
"C36": [
"partial",
"Leading directories are always recognised; trailing ones only without leading ones, and a second copy elsewhere is removed, too (refuted witnesses)."
],
"C37": [
"partial",
"Refused except for identical spellings and paths beginning with two slashes (refuted witnesses); symbolic links not considered."
],
"C38": [
"proved",
"Every reachable state of every interleaving, including crashes and interrupts; distinct occurrences: results are distinct if the entries of the tree are."
],
"C39": [
"partial",
"Holds if queue.Empty is raised only for an empty queue, for every match on whose way no directory contains an entry whose tests raise an exception, whatever happens elsewhere; refuted without either (C39_refuted_early, C39_refuted_error). multiprocessing does not promise the former."
],
"C40": [
"proved",
"A bound on the number of work steps that depends on the tree only, and the end can be reached from every state without a stop."
],
"C41": [
"partial",
"Holds if queue.Empty is raised only for an empty queue and timeouts are exact, also with exceptions in other directories; refuted if they are not (C41_refuted)."
],
"C42": [
"proved",
"Every scan, every choice of moments to give entries away."
],
"C43": [
"proved",
"Order, stability, -R; what numbers, texts, truth values and missing values are compared by."
],
"C44": [
"partial",
"Under the conditions under which C41 holds: no errors, prompt queues, exact timeouts."
],
"C45": [
"partial",
"Refuted for paths, missing attributes, numbers and superscripts; proved for names and for paths with at most one dot per component, order of numbers for names."
],
"C46": [
"partial",
"Refuted for fields given twice, for two fields of one name and for no results; proved for different fields of different names."
],
"C47": [
"partial",
"False in general (C47_refuted_text, _hexadecimal, _negative, _superscript). Proved: for fields with distinct names the counts can be printed just if, for every field that is counted, all texts are numerals or none is (C47_iff_partial); numbers that are not negative and truth values are like that; lists are refused."
],
"C48": [
"partial",
"proved: the loop ends, what is passed is a prefix in order, complete unless a single result is too long or the command cannot be run; refuted in general: a single result that is too long silently drops the rest"
],
"C49": [
"partial",
"Halting and the thread pool are proved without restriction; that the workers run every command holds under the conditions of C39."
],
"C50": [
"partial",
"Exit status 4 is possible although no worker crashed (C50_refuted). The counters are not part of the state; they are the lengths of lists in the model."
],
"C51": [
"partial",
"Refuted for every number of jobs (C51_refuted); true if there are not more callers than jobs."
],
"C52": [
"proved",
"reading of templates is total and unique; accepted iff every placeholder names a field; arguments are the expanded templates; no call iff a value is missing. Values are assumed to be of the declared type"
],
"C53": [
"proved",
"per template one argument for each result with all values, other arguments once; a placeholder in the command is a usage error"
],
"C54": [
"partial",
"Proved: lines without colours, and with colours if LS_COLORS is set, are printed iff not suppressed, and consist of the cells; records contain all attributes. Missing: colours with LS_COLORS unset, where the claim is false (C54_refuted); files in the root directory (C68)."
],
"C55": [
"partial",
"Proved for every string that is rendered and every field with a value, coloured or not. An empty cell for a missing attribute is not padded (C55_missing_refuted)."
],
"C56": [
"proved",
"Text and meaning of the output: a reader of JSON reads back the list of all records; only the collecting process writes it."
],
"C57": [
"partial",
"Any number of processes, any history: a value found is the plugin's own if entries are up to date, data is a function of path and tag and pickling is faithful; errors only for three stated reasons. False in general: another version of the plugin drops the table in use (C57_refuted); a change between lstat and reading (C57_unsteady_refuted)."
],
"C58": [
"partial",
"Proved if no file has two contents within one second (and keys are distinct, C60); refuted otherwise."
],
"C59": [
"proved",
"Every history with processes ending at any point, also within a commit: each row is the outcome of a completed computation, one row per path; later runs are covered by C57, whose histories include crashes."
],
"C60": [
"partial",
"Injective on decodable paths and on paths without a backslash; refuted in general."
],
"C61": [
"partial",
"False whenever there is a stale row (C61_refuted, C61_fails); proved when there is none."
],
"C62": [
"partial",
"Exactly which tables are dropped is proved; only older versions of the same plugin if the name is not a prefix of another (C62_others_partial); refuted in general."
],
"C63": [
"partial",
"resolution proved; order irrelevant only for distinct plugin names, refuted otherwise"
],
"C64": [
"partial",
"proved for the built-in types; for arbitrary class hierarchies refuted with mixins, proved without"
],
"C65": [
"partial",
"Proved: in an unchanged world, after any queries (also failed ones) with the same cache file, a query gives its stateless meaning. Refuted in general in five ways: no cache or other cache file before, a broken plugin file, changed ignore files, a setup that failed once."
],
"C66": [
"proved",
"All parsed command lines: refused iff one of the listed combinations, the exact list of warnings and the options left otherwise."
],
"C67": [
"proved",
"Uniqueness of numerals included."
],
"C68": [
"partial",
"Proved for all entries but files directly in the root directory, whose path is printed with two slashes (C68_refuted)."
],
"C69": [
"proved",
"All texts; digits are those of ASCII."
],
"C70": [
"partial",
"The forms with dashes and colons, digits, signed numbers, decimal fractions and numbers with an exponent, durations and the set of accepted texts are proved; refuted for the three forms without separators and for the rejection of other texts."
],
"C71": [
"partial",
"Proved for local times with a four digit year that happen once; refuted otherwise."
],
"C72": [
"partial",
"Proved in zones with a fixed offset; refuted when the clock is put forward."
],
"C73": [
"proved",
"Proved for sizes up to (base - 1) * base^8; from base^9 on it fails (C73_huge_refuted)."
],
"C74": [
"proved",
"Proved for sizes up to (base - 1) * base^8; from base^9 on it fails (C74_huge_refuted)."
],
"C75": [
"proved",
"For all trees, arguments and schedules, if the plugins provide values of the types they declare and the values of the tests can be parsed. Covers tests with references to other files (C75_deep_example) and % with patterns for strings and for paths; tests with values that cannot be parsed are outside of Legal. That -I excludes what has ignored=yes is part of it, what ignored means is not (C19-C21, C99)."
],
"C76": [
"partial",
"C76_complete_partial: everything is reported if queue.Empty is not raised while something is in the queue and the main process is not late at the barrier; C76_ends: the search can always end normally as long as nothing has gone wrong. False in general (C76_refuted), for the same reason as C39."
],
"C77": [
"partial",
"False for a bare name outside of the search directories (C77_bare) and for the search directory / (C77_refuted); C77_names holds always, C77_walk_partial below other directories and without -a, C77_outside elsewhere."
],
"C78": [
"partial",
"Without ~ and % (a value is then a pattern) and below directories other than /; false for lists of strings (C78_lists)."
],
"C79": [
"partial",
"False for absolute links in most directories (C79_absolute, C79_refuted); proved for relative links and for the current and the root directory."
],
"C80": [
"proved",
"C80_nearest; C80_two_slashes shows why paths with two slashes at the beginning are left out."
],
"C81": [
"partial",
"False for names that git quotes and for renamed files (C81_refuted); proved for all others."
],
"C82": [
"partial",
"Proved for searches that end normally where queue.Empty is not raised early and the main process is not late (as C76), for sort fields without the modifier v (C45), if no start directory is given twice, LS_COLORS is not empty when colours are used and nothing but directories is reported directly in the root directory (C68)."
],
"C83": [
"partial",
"Proved for searches that end normally where queue.Empty is not raised early and the main process is not late (as C76)."
],
"C84": [
"proved",
"Only the first file is replaced; a second one is an unknown attribute."
],
"C85": [
"proved",
"For every entry; values of the operating system are arguments."
],
"C86": [
"partial",
"False in the last nanosecond of a second and before 1970 (C86_refuted, C86_before_refuted); C86_partial: from 1970 to 2242 if the fraction is below .999999 or so; C86_near_partial: never more than one second off."
],
"C87": [
"proved",
"An invariant of the memo tables."
],
"C88": [
"partial",
"linecount and lines:v are right (C88_count, C88_contains); lines=v is true only for a last line without an end (C88_equal_refuted, C88_equal_partial)."
],
"C89": [
"partial",
"Any line that starts with #! is taken (C89_refuted); right if the first line starts with #! or no line does."
],
"C90": [
"partial",
"Three forms of imports are wrong (C90_names_refuted, C90_package_refuted, C90_relative_refuted); C90_partial: right without them."
],
"C91": [
"partial",
"Relative paths and names that end with a blank are not found; C91_partial, C91_name_partial: all others."
],
"C92": [
"partial",
"Proved for grep, shebang and pacman; refuted for tar, shake hashes and py."
],
"C93": [
"proved",
"The contract of hashlib is a hypothesis."
],
"C94": [
"proved",
"The type has a slash; results of libmagic and tarfile are arguments."
],
"C95": [
"proved",
"Durations in human readable form for values that are not negative; the human readable forms of times, sizes and modes are a parameter (C73, C74)."
],
"C96": [
"partial",
"Proved for searches that end normally where queue.Empty is not raised early (C96_refuted) and, with --sort or --limit, the main process is not late (as C76), for sort fields without the modifier v (C45)."
],
"C97": [
"partial",
"Proved for searches that end normally where queue.Empty is not raised early and the main process is not late (as C76), for sort fields without the modifier v (C45)."
],
"C98": [
"partial",
"Proved for searches that end normally where queue.Empty is not raised early and the main process is not late (as C76), for sort fields without the modifier v (C45)."
],
"C99": [
"partial",
"The walk with lists of ignore files, composed with C75/C76 and C19 (C99_sound, C99_meaning, C99_none, C99_exactly). Completeness needs that queue.Empty is not raised while something is in the queue and that the main process is not late (C99_complete_partial, C99_refuted). Which files above the start directory count is C21; patterns are well-formed ones, names have no newline."
],
"C100": [
"proved",
"for tracks whose durations are not negative numbers (numbers or texts that float() reads); tags, size, format and duration as equivalences"
],
"C101": [
"partial",
"refuted: with .. after a symbolic link the directory asked for may not exist and the search fails; partial: without symbolic links on the way; the relation of type and remote holds in general"
],
"C102": [
"partial",
"refuted: keys after one that cannot be read are missing, and keys with = make the list ambiguous; lists_ holds if all can be read, determines_partial for keys without ="
],
"C103": [
"proved",
"for every answer of os.scandir; a directory that cannot be listed is not empty"
],
"C104": [
"partial",
"a directory bound to another place of the same file system is not recognised (C104_refuted); proved exactly for changes of device"
],
"C105": [
"partial",
"proved for rules of two letters and suffixes *.x, for names of files and for paths; false for *.tar.gz, .c, and names of directories (refuted)"
],
"C106": [
"proved",
"the two replacements together are one pass from left to right"
],
"C107": [
"partial",
"--color=always overrides NO_COLOR (C107_refuted), contrary to the manual page; proved if --color is not given"
],
"C108": [
"proved",
"json is None, json or jsonl, the only values the options set"
],
"C109": [
"partial",
"false for patterns without a slash of attributes such as dir, namex, link (refuted); proved for all other tests"
],
"C110": [
"proved",
"Words is the grammar of a shell's words; the only error is the uncaught ValueError for unbalanced quotes or a backslash at the end"
],
"C111": [
"proved",
"the tables of OptionSpec are written from the manual (help texts), not from the model"
],
"C112": [
"partial",
"Refuted in general by four kinds of wrong arguments; proved that there are no other tracebacks, which exit statuses occur and why"
],
"C113": [
"partial",
"Directories, precedence, errors, full names and names of file attributes proved; no plugin can replace one that comes with ff (C113_builtin); false for other short names (C113_short_refuted) and for two plugins of one name in one directory (C113_order_refuted, otherwise C113_order_partial)"
],
"C114": [
"partial",
"Proved for all presentations, -x and -X under the assumptions of C82, C96 and C97 (known meaning of the tests, directories that do not change, waiting that does not end early, LS_COLORS set for colours)"
],
"C115": [
"partial",
"False for texts that begin with a dot or a single quote or contain a backslash, and for plugins without a docstring (C115_text_refuted, C115_no_docstring); proved for all others, and C115_wrap and C115_marker without restriction."
],
"C116": [
"partial",
"False on screens of one or two columns and for tags across processes (C116_narrow_refuted, C116_once_refuted); proved for every wider screen and within each process (C116_messages_partial, C116_exit_partial, C116_processes_partial). Words that fit are kept whole if the only white space are blanks (C116_whole); where a single long word is broken: C116_long."
],
"C117": [
"partial",
"False on screens of one or two columns and, for options that ff does not have, where the names fill their column or are capitals (C117_narrow_refuted, C117_gap_refuted); proved for every wider screen and for the whole table of ff (C117_help_ff_partial, C117_manual_ff, C117_manual_words)."
],
"C118": [
"partial",
"C118_year_refuted: the pattern YY of the page is not a year that is understood; the lists themselves are proved"
],
"C119": [
"partial",
"C119_total_refuted: exceptions of pyelftools other than ELFError are not caught; the values themselves are proved"
],
"C120": [
"partial",
"Each example is characterised exactly. False for four of them (C120_executable_refuted, C120_big_refuted, C120_newer_refuted, C120_members_refuted); what these do find is in the _partial theorems. The examples with --sort, --output, -x, lines, text, mime.type and git.tracked are covered by other properties or depend on values of plugins."
],
"C121": [
"partial",
"Proved for tests, operands, alternatives and -e ordered by their score (C121_conjunction, _fast_first, _operands, _alternatives, _exclude, _once) and for fast operands and alternatives against all others. Refuted in general (C121_operands_refuted): the score of a group is a sum, so three tests of normal speed in brackets come after a slow test."
],
"C122": [
"partial",
"All laws proved for searches that end normally and in which queue.Empty is not raised while something is in the queue and the main process is not late at the barrier; C76_refuted shows that results can be missing otherwise. C122_exists_partial: such searches exist for all arguments."
],
"C123": [
"partial",
"False as stated: C123_refuted. Proved: C123_conjunction_partial (every accepted expression that is not only ANDs), C123_within_partial and C123_language_partial (every list of words whose brackets belong together); C123_one_reading and C123_balanced hold without restriction. Missing: words with brackets that do not belong together."
],
"C124": [
"partial",
"Proved for searches that end normally and in which queue.Empty is not raised while something is in the queue and the main process is not late at the barrier (as C122; C76_refuted shows that results can be missing otherwise); C124_shorthand without restriction. Attributes other than those of lstat and the name are taken to be the same functions of the entry in both trees."
],
"C125": [
"partial",
"Proved for lines that fit into the buffer and, on a terminal, have no line breaks in them, for all numbers of processes, interleavings and moments; refuted for longer lines and for names with line breaks on a terminal."
],
"C126": [
"partial",
"Every line is printed, with exactly the unencodable characters escaped, if standard output and the file system have the same characters; refuted for different encodings, where the exception is raised again. Distinct lines are printed differently if they have no backslashes; refuted otherwise."
],
"C127": [
"partial",
"Proved for schedules in which no process overlooks its work (C76 shows that this is needed) and for plugins that keep their types: equivalent expressions, the same tests for -e and reordered directories yield the same multiset of results, whatever the speed scores; a test may be replaced by one that is true of the same entries; De Morgan, commutativity and distributivity as instances."
],
"C128": [
"partial",
"Proved: going down ends (C128_ends), the tree is exactly what names lead to (C128_tree), warnings (C128_warnings), without -L every directory is entered once (C128_once). With -L two parts of the statement are false: broken links are not seen (C128_broken_refuted) and files can be seen 2^limit times (C128_once_refuted). C128_found_partial combines the tree with the search of C76 and C122: for runs that overlook no work (prompt) and arguments that are sensible; what the attributes of other plugins say is a parameter."
],
"C129": [
"partial",
"C129_within_partial: exactly, if no start directory is itself a link or -L is given, for runs as in C122. C129_link_refuted: without -L a start directory that is a link to another file system is searched but nothing in it is reported."
],
"C130": [
"partial",
"Proved: at every moment a beginning of the array (C130_beginning), the whole array at a normal end (C130_whole, C130_console), a reader accepts nothing less (C130_read), the end can be reached (C130_ends). False that the output can be read whatever happens: after an exception a lone bracket is left (C130_failed_refuted). C130_flush_refuted shows that the flush by multiprocessing is needed."
],
"C131": [
"partial",
"Proved for processes that print, for --json and --count; for lines printed by the main process if none is longer than the buffer. Refuted: longer lines, and that a reader that goes away causes no complaints."
],
"C132": [
"partial",
"False in general: an iteration that ends without an exception may have lost results because a process failed (C132_silent_refuted), and leaving the loop does not end the search (C132_given_up_refuted, C132_remain, C132_polls). Proved: only results are yielded, none twice (C132_sound); every result, if the exit code stays 0, under the conditions of C41 (C132_complete_partial)."
],
"C133": [
"partial",
"False in general: an interrupted ff has exit status 1, too (C133_refuted). Proved: status 1 means an interrupt or --fail without results (C133_one_partial); with --fail a search that comes to its end has status 1 just if nothing matches (C133_none); an interrupt stops all processes (C133_stops)."
],
"C134": [
"partial",
"False for a list with directories at its ends (C134_refuted, C134_again_refuted); proved for every other query, and that only names of directories are removed."
]
}