{"id": "C01", "title": "Test expressions mean what their boolean structure says", "statement": "If the command line holds an expression built from tests with implicit or explicit AND, OR, NOT and (nested) brackets, it is accepted and an entry matches exactly when the boolean formula is true of it, with AND binding tighter than OR and NOT applying to the next test or bracket group.", "quantifier": "all expressions of any size and nesting depth, both bracket spellings, any letter case of the keywords, all truth assignments to the tests", "why_tests_cant": "The expression grammar is infinite; examples only sample a few nestings and precedences.", "anchors": ["libff/parser.py:Parser.parse", "libff/parser.py:Parser.parse_sequence", "libff/parser.py:Parser.parse_bracket_sequence", "libff/filter.py:Matcher.test", "libff/filter.py:Matcher._test"]}
{"id": "C02", "title": "Malformed expressions are rejected, never silently reinterpreted", "statement": "A token list is accepted only if every bracket is balanced, every OR has a non-empty operand on both sides and every NOT is followed by a test or an opening bracket; otherwise a usage error is raised.", "quantifier": "all token lists", "why_tests_cant": "The set of malformed inputs is unbounded; a missed rejection shows only for particular nestings.", "anchors": ["libff/parser.py:Parser.parse_sequence", "libff/parser.py:Parser.parse_bracket_sequence", "libff/parser.py:Parser.parse"]}
{"id": "C03", "title": "Reordering tests for speed never changes the result", "statement": "The optimiser that moves fast tests before slow ones leaves the set of matching entries unchanged, and it does order every test sequence, at every nesting level, by non-decreasing cost.", "quantifier": "all expression trees, all assignments of speed classes to attributes, all entries and test outcomes", "why_tests_cant": "Depends on all permutations of all nested sequences; unit tests fix one plugin set.", "anchors": ["libff/parser.py:Parser.optimize", "libff/parser.py:Parser.get_speed_score", "libff/filter.py:Matcher._test"]}
{"id": "C04", "title": "A missing attribute makes a test false and nothing else", "statement": "A test on an attribute the entry does not provide evaluates to false (so its negation is true), and an empty expression matches every entry.", "quantifier": "all expressions, all entries, all sets of missing attributes", "why_tests_cant": "Missing attributes can occur at any leaf of any expression.", "anchors": ["libff/filter.py:Matcher._test", "libff/filter.py:Matcher.test_empty", "libff/filter.py:Filter.is_empty"]}
{"id": "C05", "title": "Exclusion is the union of the -e tests", "statement": "With any number of -e options each holding one test, an entry is excluded exactly when at least one of the tests matches it; tests on attributes the entry lacks never exclude; the order of the options is irrelevant.", "quantifier": "all lists of single-test exclude options, all entries", "why_tests_cant": "Lists are unbounded and interact with the parser's implicit AND and with the optimiser.", "anchors": ["libff/filter.py:Excluder.test", "libff/filter.py:Excluder.test_empty", "libff/parser.py:Parser"]}
{"id": "C06", "title": "A test string is split into attribute, operator and value unambiguously", "statement": "Writing attribute, operator and value next to each other (optionally with blanks around the operator) is read back as exactly that attribute, operator (with > and < read as + and -) and value; strings without an attribute, operator or value are rejected.", "quantifier": "all attribute names, all operators, all values not starting with a blank, an '=' that would extend the operator, or a reference", "why_tests_cant": "Values are arbitrary strings; the regular expression backtracks.", "anchors": ["libff/parser.py:Parser.expression_regex", "libff/parser.py:Parser.parse_test"]}
{"id": "C07", "title": "Numeric comparison operators are exact", "statement": "On numbers, sizes, times and durations '=', '+=', '-=', '+' and '-' hold exactly when the attribute is equal to, at least, at most, greater than, less than the value.", "quantifier": "all integer pairs and all operators", "why_tests_cant": "Unbounded integers.", "anchors": ["libff/type.py:Number.test"]}
{"id": "C08", "title": "Mode tests compare permission bits", "statement": "For modes '=' holds iff all permission bits coincide, ':' iff every bit set in the value is set in the attribute, '~' iff at least one is; file-type bits never matter.", "quantifier": "all modes and all values", "why_tests_cant": "Quantifies over all bit patterns of unbounded integers.", "anchors": ["libff/type.py:Mode.test", "libff/type.py:Mode.MODE_ALL"]}
{"id": "C09", "title": "Symbolic mode values mean what chmod/find mean by them", "statement": "A symbolic mode value such as u+rw,g=r denotes exactly the bits that applying its clauses one after the other to mode 0 sets, and an octal value denotes itself.", "quantifier": "all comma-separated lists of symbolic clauses and all octal numbers", "why_tests_cant": "Clause lists are unbounded; the defect needs clauses with different 'who' parts.", "anchors": ["libff/type.py:Mode.parse_mode"]}
{"id": "C10", "title": "Case handling follows the --case mode", "statement": "With 'sensitive' string tests compare code points, with 'ignore' they compare lower-cased strings, with 'smart' they ignore case exactly when the value has no upper-case letter.", "quantifier": "all values, all attribute values, operators = and :", "why_tests_cant": "All strings.", "anchors": ["libff/parser.py:Parser.create_test", "libff/type.py:String.test"]}
{"id": "C11", "title": "File type names and their abbreviations are equivalent", "statement": "type=<x> holds exactly for entries whose type is the one the (abbreviated) name x stands for; every name outside the documented list is an error.", "quantifier": "all value strings, all entry types", "why_tests_cant": "Value strings are unbounded; pairs of alias and type must all be right.", "anchors": ["libff/type.py:FileType.test", "libff/type.py:FileType.choices", "libff/parser.py:Parser.create_test"]}
{"id": "C12", "title": "Boolean values are parsed strictly", "statement": "true/t/1/yes/y/on and false/f/0/no/n/off in any letter case are the only accepted boolean values, and they denote true and false respectively.", "quantifier": "all value strings, both optimised (-O, as installed) and debug mode", "why_tests_cant": "Needs all strings and both interpreter modes; the test-suite runs one mode.", "anchors": ["libff/type.py:Boolean.input", "bin/ff"]}
{"id": "C13", "title": "List tests hold when one element satisfies them", "statement": "A test on a list-of-strings attribute holds iff the same test holds for at least one string of the list.", "quantifier": "all lists, operators and values", "why_tests_cant": "Unbounded lists.", "anchors": ["libff/type.py:ListOfStrings.test", "libff/type.py:String.test"]}
{"id": "C14", "title": "Durations survive a print/parse round trip", "statement": "Formatting any number of seconds and reading the result back yields the same number of seconds.", "quantifier": "all non-negative integers", "why_tests_cant": "Infinite domain.", "anchors": ["libff/convert.py:format_duration", "libff/convert.py:parse_duration"]}
{"id": "C15", "title": "Only well-formed durations are accepted and they are summed up", "statement": "A duration is a plain integer (minutes) or a non-empty sequence of <number><unit> with units s, m, h, d, w, M, y; its value is the sum of the parts; every other string is rejected.", "quantifier": "all strings", "why_tests_cant": "Set of malformed strings is infinite.", "anchors": ["libff/convert.py:parse_duration", "libff/convert.py:regex_duration"]}
{"id": "C16", "title": "Sizes denote exactly the number of bytes written", "statement": "<n> and <n>b denote n bytes, <n>K, M, G... and KiB, MiB... denote n times a power of 1024, KB, MB... a power of 1000, case-insensitively, and everything else is rejected.", "quantifier": "all decimal numbers and all units", "why_tests_cant": "Goes through floating point; rounding errors show only for particular magnitudes.", "anchors": ["libff/convert.py:parse_size"]}
{"id": "C17", "title": "Glob patterns match component-wise like gitignore patterns", "statement": "A pattern with a slash matches the whole relative path component by component (* and ? inside one component, ** any number of components), one without a slash matches the base name; a trailing slash restricts to directories; a leading ! inverts.", "quantifier": "all patterns made of well-formed components and all relative paths of any depth", "why_tests_cant": "Patterns and paths are unbounded and are translated to regular expressions.", "anchors": ["libff/ignore.py:Glob.translate", "libff/ignore.py:Glob.match"]}
{"id": "C18", "title": "Glob wildcards never cross a directory separator", "statement": "*, ? and [...] match only characters of a single path component.", "quantifier": "all patterns containing no ** and all paths", "why_tests_cant": "Infinite patterns/paths.", "anchors": ["libff/ignore.py:Glob.translate"]}
{"id": "C19", "title": "Compiling ignore patterns in groups does not change their meaning", "statement": "For a chain of ignore files the last pattern (outer files first, then line order) that applies to an entry decides whether it is ignored and which file is reported, exactly as if the patterns were evaluated one at a time.", "quantifier": "all lists of ignore files, all pattern lists, all entries", "why_tests_cant": "Grouping depends on runs of similar patterns of arbitrary length.", "anchors": ["libff/ignore.py:GitIgnore.__init__", "libff/ignore.py:GitIgnore.match", "libff/ignore.py:Glob.get_group_key"]}
{"id": "C20", "title": "Ignore files apply to a whole directory independent of listing order", "statement": "Whether an entry is ignored does not depend on the order in which the operating system lists the directory.", "quantifier": "all directory listings and all their permutations", "why_tests_cant": "The listing order is chosen by the OS; the code relies on mutating a shared list.", "anchors": ["libff/walk.py:FilesystemWalker.scan_directory", "libff/builtin/ignore.py:Ignore.is_ignored"]}
{"id": "C21", "title": "Ignore files of every parent directory apply", "statement": "With -I and without --no-parent-ignore the ignore files of all proper ancestors of a start directory are honoured, whatever way the start directory is written.", "quantifier": "all absolute and relative start directories, all placements of ignore files", "why_tests_cant": "Depends on the spelling of the start directory and on files outside of the tree.", "anchors": ["libff/ignore.py:GitIgnore.from_parent_directories", "libff/main.py:_Base.setup_walker"]}
{"id": "C22", "title": "Path helpers agree with os.path and are inverse to each other", "statement": "For paths without empty components, splitting a path into dirname and basename and joining them again gives the path, and both operations agree with os.path.split and os.path.join (relative second part); for every string the extension split loses nothing and divides at the last dot of the file name that has a non-dot character before it.", "quantifier": "all strings", "why_tests_cant": "Infinite domain with edge cases (leading dots, root, empty).", "anchors": ["libff/path.py:split", "libff/path.py:join", "libff/path.py:splitext"]}
{"id": "C23", "title": "Entry path attributes are mutually consistent", "statement": "For every entry found in the walk path is root joined with relpath (relpath alone under '.'), dir and name recombine to path, name is the directory entry's name, path is pathx followed by the extension with its dot (if any), and depth is the number of directories between start directory and entry.", "quantifier": "all start directories and all directory nestings", "why_tests_cant": "All path shapes and depths.", "anchors": ["libff/entry.py:Entry.__init__", "libff/entry.py:Entry.depth", "libff/entry.py:Entry.ext", "libff/entry.py:Entry.pathx", "libff/walk.py:FilesystemWalker.scan_directory"]}
{"id": "C24", "title": "hidden means a dot name below the start directory", "statement": "hide is true iff the name starts with a dot, hidden is true iff the entry or one of the directories it was reached through inside the search has a name starting with a dot; the spelling of the start directory does not matter.", "quantifier": "all start directories, all relative paths", "why_tests_cant": "Depends on arbitrary start directories such as '..' or './x'.", "anchors": ["libff/entry.py:Entry.hidden", "libff/entry.py:Entry.__init__"]}
{"id": "C25", "title": "Every file mode maps to exactly one documented type", "statement": "The type attribute is determined by the format bits of st_mode alone, is one of the documented names, size is st_size for regular files and 0 otherwise, perm consists of the low 12 bits, and exec is never true of directories or symbolic links.", "quantifier": "all st_mode values", "why_tests_cant": "All integers.", "anchors": ["libff/entry.py:Entry.__init__", "libff/entry.py:Entry.size", "libff/entry.py:Entry.perm", "libff/entry.py:Entry.is_executable"]}
{"id": "C26", "title": "The mountpoint attributes name the nearest mountpoint", "statement": "mpath/devname/fstype are those of the deepest mountpoint that contains the entry (or is the entry). pseudofs is true just if fstype is a type of file systems that are not on a device.", "quantifier": "all mount tables and all absolute paths", "why_tests_cant": "Mount tables are environment data of arbitrary size and order.", "anchors": ["libff/entry.py:Mountpoints.get", "libff/entry.py:Mountpoints.__init__", "libff/entry.py:30-33", "libff/entry.py:359-381"]}
{"id": "C27", "title": "Command line parsing terminates with a result or a usage error", "statement": "Every argument vector is processed in finitely many steps and ends in a set of option values or an error; no argument is skipped or read twice.", "quantifier": "all argument vectors", "why_tests_cant": "Bundled short options are re-inserted into the argument list while it is being consumed.", "anchors": ["libff/argparse.py:ArgumentParser.parse_args", "libff/argparse.py:ArgumentParser.parse_combined_short_options"]}
{"id": "C28", "title": "Bundled and attached option forms are equivalent to the spelled-out form", "statement": "-abc means -a -b -c for flags, -ovalue means -o value, and --option=value means --option value.", "quantifier": "all bundles of flags of any length, all options taking values, all values", "why_tests_cant": "Unbounded bundles and arbitrary values.", "anchors": ["libff/argparse.py:ArgumentParser.parse_combined_short_options", "libff/argparse.py:ArgumentParser.parse_long_option_with_value"]}
{"id": "C29", "title": "Everything after -x/-X is passed to the command unchanged", "statement": "All arguments that follow -x/--exec or -X/--exec-batch make up the command template, in order, whatever they look like.", "quantifier": "all option prefixes and all argument lists", "why_tests_cant": "Arbitrary argument lists, including ones that look like options.", "anchors": ["libff/argparse.py:ArgumentParser.parse_option", "libff/arguments.py:create_parser"]}
{"id": "C30", "title": "Later options override earlier ones, FF_OPTIONS first; appended options accumulate", "statement": "For single-valued options the last occurrence wins (so the command line overrides FF_OPTIONS), -e and -D accumulate in order.", "quantifier": "all argument vectors", "why_tests_cant": "All interleavings of options.", "anchors": ["libff/arguments.py:collect_arguments", "libff/argparse.py:ArgumentParser.parse_option", "libff/argparse.py:Namespace"]}
{"id": "C31", "title": "Option values outside the documented choices are usage errors", "statement": "--case, --halt and --color accept only their documented values and bad values of any option end in a usage error (exit code 2), not in a crash.", "quantifier": "all option values", "why_tests_cant": "All strings.", "anchors": ["libff/argparse.py:ArgumentParser.get_argument", "libff/argparse.py:Option", "libff/argparse.py:type_jobs", "libff/argparse.py:type_ranges"]}
{"id": "C32", "title": "The number of worker processes is between 1 and the number of CPUs", "statement": "-j n yields min(n, CPUs) processes, 0 means all CPUs, negative numbers are rejected.", "quantifier": "all integers and CPU counts", "why_tests_cant": "All integers.", "anchors": ["libff/argparse.py:type_jobs"]}
{"id": "C33", "title": "--depth selects exactly the entries in the union of the ranges", "statement": "With -d an entry is reported iff its depth is in one of the ranges and it matches the expression; nothing deeper than the largest bound is visited when all ranges are bounded.", "quantifier": "all non-empty lists of ranges, all expressions, all depths", "why_tests_cant": "The option is implemented by rewriting the expression's token list.", "anchors": ["libff/arguments.py:ArgumentsPostProcessor.process_depth_argument", "libff/argparse.py:type_ranges"]}
{"id": "C34", "title": "--limit selects the documented slice", "statement": "start:stop returns the results from start up to but excluding stop with negative positions counting from the end; omitted bounds mean beginning and end.", "quantifier": "all slices and result lists", "why_tests_cant": "All integers, signs and list lengths.", "anchors": ["libff/argparse.py:type_slice", "libff/processing.py:CollectiveMixin.entries_range"]}
{"id": "C35", "title": "Pages of --limit partition the results", "statement": "For any positive page size the pages 0, 1, 2, ... concatenated give exactly the full result list and no result is on two pages.", "quantifier": "all page sizes and result lists", "why_tests_cant": "Unbounded sizes.", "anchors": ["libff/argparse.py:type_slice", "libff/processing.py:CollectiveMixin.entries_range"]}
{"id": "C36", "title": "Directory arguments are recognised at both ends of the argument list", "statement": "Arguments that contain a slash and name an existing directory are taken as start directories when they are at the start or the end of the argument list and never otherwise; the remaining arguments keep their order; -D disables the detection.", "quantifier": "all argument lists, all filesystems", "why_tests_cant": "The detection mutates the list it iterates over.", "anchors": ["libff/arguments.py:ArgumentsPostProcessor.process_directories"]}
{"id": "C37", "title": "Overlapping start directories are refused", "statement": "No two start directories are accepted of which one is inside the other or both are the same directory, so no entry is reported twice because of overlapping arguments.", "quantifier": "all lists of start directories and working directories", "why_tests_cant": "All lists of paths.", "anchors": ["libff/arguments.py:ArgumentsPostProcessor.process_directories"]}
{"id": "C38", "title": "Nothing is reported twice or without matching, whatever the schedule", "statement": "At every moment of every run, including runs that are interrupted or crash, the reported entries are distinct occurrences of entries of the tree that match the expression and are not excluded nor below an excluded directory.", "quantifier": "all directory trees, numbers of processes, schedules, work splits and interruption points", "why_tests_cant": "Schedules and crash points cannot be enumerated by tests.", "anchors": ["libff/walk.py:FilesystemWalker.loop", "libff/walk.py:FilesystemWalker.process_entries", "libff/walk.py:FilesystemWalker.process_directory"]}
{"id": "C39", "title": "A search that ends normally has reported every match", "statement": "When the worker processes have all finished because there is no more work, every entry of the tree that matches and is not excluded or below an excluded directory has been reported.", "quantifier": "all directory trees, numbers of processes, schedules and work splits", "why_tests_cant": "Depends on the interleaving of queue and barrier operations.", "anchors": ["libff/walk.py:FilesystemWalker.loop", "libff/context.py:Context.barrier_wait", "libff/walk.py:FilesystemWalker.process_entries"]}
{"id": "C40", "title": "The search finishes on every finite tree", "statement": "Only a bounded number of work steps is possible, and as long as there is work some process can make progress.", "quantifier": "all finite trees, numbers of processes and schedules", "why_tests_cant": "A liveness property over all schedules.", "anchors": ["libff/walk.py:FilesystemWalker.loop", "libff/walk.py:FilesystemWalker.process_entries"]}
{"id": "C41", "title": "Collected results are complete when collection ends", "statement": "With -S, --count, -l, -X, --json and the Python API the main process has received every result the workers sent before it stops collecting.", "quantifier": "all schedules and timings of workers and main process", "why_tests_cant": "A race between a queue timeout and a barrier timeout; only particular timings lose results.", "anchors": ["libff/processing.py:CollectiveMixin.loop", "libff/processing.py:BaseProcessing.processing_done", "libff/context.py:Context.barrier_wait", "libff/processing.py:ImmediateGenerator.__iter__"]}
{"id": "C42", "title": "Work is handed to the queues completely", "statement": "Cutting the directories and results of one scan into chunks, or giving half of the entries to an idle process, neither loses, duplicates nor reorders inside a chunk any entry, whatever the number of jobs.", "quantifier": "all list lengths and job counts", "why_tests_cant": "Chunk boundaries depend on the length and on the job count.", "anchors": ["libff/walk.py:FilesystemWalker.process_entries"]}
{"id": "C43", "title": "Sorting reorders and nothing else", "statement": "-S prints exactly the matching entries, ordered by the keys of the attribute list, entries with equal keys staying in arrival order; -R reverses the key order (and still keeps equal keys in arrival order).", "quantifier": "all result lists and key lists", "why_tests_cant": "All lists.", "anchors": ["libff/processing.py:CollectiveMixin.finalize", "libff/field.py:SortFields.render"]}
{"id": "C44", "title": "Sorted output does not depend on the schedule", "statement": "If the sort keys of the results are pairwise different, the printed sequence is the same for every number of jobs and every schedule.", "quantifier": "all pairs of runs over the same tree", "why_tests_cant": "Quantifies over pairs of schedules.", "anchors": ["libff/processing.py:CollectiveMixin.finalize", "libff/walk.py:FilesystemWalker"]}
{"id": "C45", "title": "Natural sorting compares embedded numbers by value and never fails", "statement": "With the modifier v digit runs are compared as numbers, and any two values are comparable.", "quantifier": "all pairs of names / paths", "why_tests_cant": "All strings; a comparison error needs particular pairs of paths.", "anchors": ["libff/field.py:SortFields.prepare_component", "libff/field.py:SortFields.prepare_sort_key", "libff/field.py:SortFields.render"]}
{"id": "C46", "title": "Counts add up and do not depend on arrival order", "statement": "_total is the number of results, every summed attribute is the sum over the results that have it, the per-value counts of an attribute add up to the number of results that have it, and all are independent of the order and chunking in which results arrive.", "quantifier": "all result lists, chunkings and orders", "why_tests_cant": "All lists and permutations.", "anchors": ["libff/processing.py:CollectiveMixin.collect_count"]}
{"id": "C47", "title": "Printing counts never fails", "statement": "The statistics can be printed for every countable attribute and every collection of values.", "quantifier": "all multisets of values", "why_tests_cant": "Fails only for particular mixes of values.", "anchors": ["libff/processing.py:CollectiveMixin.print_count", "libff/processing.py:CollectiveMixin.prepare_count"]}
{"id": "C48", "title": "-X passes every result exactly once, in order", "statement": "Over all calls of the command made because the argument list was too long, the results passed are exactly the results, in order, each in one call.", "quantifier": "all result lists and all argument length limits of the operating system", "why_tests_cant": "Depends on the OS limit; the splitting recursion is unbounded.", "anchors": ["libff/processing.py:CollectiveExecProcessing.finalize"]}
{"id": "C49", "title": "-x runs every command once unless halted", "statement": "With --halt never every result's command is run exactly once; with soon/now no thread starts more than one further command after a failure was noted.", "quantifier": "all schedules of the command threads and all exit statuses", "why_tests_cant": "All interleavings.", "anchors": ["libff/processing.py:Parallel.thread", "libff/context.py:Context.run_exec_process"]}
{"id": "C50", "title": "The exit status reports failed commands and crashed workers", "statement": "ff exits with 3 if a command failed, 4 if a worker crashed, 1 with --fail and no results, 0 otherwise; success and failure counters equal the numbers of commands that succeeded and failed.", "quantifier": "all sequences of command outcomes and worker events", "why_tests_cant": "All histories.", "anchors": ["libff/main.py:Main.walk", "libff/context.py:Context.run_exec_process", "libff/exceptions.py"]}
{"id": "C51", "title": "Requesting a stop never blocks", "statement": "However many processes ask for a stop at the same time, none of them blocks.", "quantifier": "all numbers of jobs and interleavings of check and request", "why_tests_cant": "Race between qsize() and put() on a bounded queue.", "anchors": ["libff/context.py:Context.stop", "libff/context.py:Context.is_stopping", "libff/context.py:Context.setup"]}
{"id": "C52", "title": "Command templates are substituted exactly", "statement": "In -x/-X templates every placeholder is replaced by the attribute value, {{ and }} by literal braces, and all other text is kept; any text can be passed literally by doubling its braces; without placeholder in the arguments the path is appended.", "quantifier": "all templates and all entries", "why_tests_cant": "All strings.", "anchors": ["libff/field.py:ExecFields.store", "libff/field.py:ExecFields.replace", "libff/field.py:ExecFields.render_fields"]}
{"id": "C53", "title": "Batch templates expand every placeholder argument once per result", "statement": "In -X mode an argument containing placeholders is replaced by one argument per result that has all attributes, in result order; other arguments appear exactly once.", "quantifier": "all templates and result lists", "why_tests_cant": "All lists.", "anchors": ["libff/field.py:ExecBatchFields.render", "libff/field.py:ExecFields.render_fields"]}
{"id": "C54", "title": "An output line is printed iff no attribute is missing or --all / :n allows it", "statement": "A result's line contains one field per attribute joined by the separator; it is suppressed iff some attribute without :n is missing and --all is not given; JSON records always contain all attributes.", "quantifier": "all field lists and entries", "why_tests_cant": "All combinations.", "anchors": ["libff/console.py:Console.process", "libff/field.py:OutputFields.to_dict"]}
{"id": "C55", "title": "Padding never truncates", "statement": "A field with a width is padded with blanks to at least that width, left- or right-aligned by its sign, and its text is never cut.", "quantifier": "all widths and texts", "why_tests_cant": "All integers/strings.", "anchors": ["libff/console.py:Console.pad_string"]}
{"id": "C56", "title": "--json output is one JSON array of all records", "statement": "The output consists of '[', the records separated by single commas, ']' and a newline, for any number of records.", "quantifier": "all record lists", "why_tests_cant": "Unbounded lists.", "anchors": ["libff/console.py:JsonConsole"]}
{"id": "C57", "title": "The metadata cache is transparent", "statement": "If a plugin's data is a function of path and cache tag, attribute values obtained through the cache are those obtained without it, whatever sequence of lookups, commits, processes and runs preceded.", "quantifier": "all histories of cache operations by any number of processes", "why_tests_cant": "All histories.", "anchors": ["libff/cache.py:Cache.get", "libff/cache.py:Cache.set", "libff/cache.py:Cache.commit", "libff/registry.py:Registry.get_data_from_plugin"]}
{"id": "C58", "title": "Cached data of a changed file is never used", "statement": "After a file's content changed, attribute values are those of the new content.", "quantifier": "all histories of file modifications and lookups", "why_tests_cant": "Only modifications within one second or with restored times reveal it.", "anchors": ["libff/plugin.py:Plugin.get_entry_cache_tag", "libff/entry.py:Entry.mtime", "libff/cache.py:Cache.get"]}
{"id": "C59", "title": "An interrupted run never corrupts the cache", "statement": "After a crash at any point the database holds, for every path, the data of some completed computation, and later runs stay correct.", "quantifier": "all crash points", "why_tests_cant": "Crash points cannot be enumerated by tests.", "anchors": ["libff/cache.py:Cache.commit", "libff/cache.py:Cache.set", "libff/cache.py:Cache.close"]}
{"id": "C60", "title": "Different files never share a cache row", "statement": "Two different paths are never looked up under the same key.", "quantifier": "all pairs of paths, including undecodable names", "why_tests_cant": "Pairs of strings; collision needs undecodable names.", "anchors": ["libff/cache.py:Cache.get", "libff/cache.py:Cache.set"]}
{"id": "C61", "title": "--clean-cache removes exactly the stale rows", "statement": "After --clean-cache exactly the rows of existing paths remain.", "quantifier": "all database contents and filesystems", "why_tests_cant": "Transaction state depends on whether a row is deleted.", "anchors": ["libff/cache.py:Cache.clean"]}
{"id": "C62", "title": "Setting up a plugin never discards another plugin's cache", "statement": "Registering a plugin creates its table if missing, drops tables of older versions of the same plugin, and leaves every other table alone.", "quantifier": "all plugin names and database contents", "why_tests_cant": "Name prefixes and SQL wildcards.", "anchors": ["libff/cache.py:Cache.init_table"]}
{"id": "C63", "title": "Unqualified attribute names resolve deterministically", "statement": "An unqualified name resolves to the file plugin if it has that attribute, else to the only plugin providing it, else it is an error; the order in which plugins are loaded is irrelevant.", "quantifier": "all plugin sets and names", "why_tests_cant": "All plugin combinations.", "anchors": ["libff/registry.py:Registry.parse_attribute", "libff/registry.py:Registry.get_plugin_for_attribute"]}
{"id": "C64", "title": "References are accepted only between comparable attribute types", "statement": "A reference {attr}file is accepted iff both attribute types derive from a common type other than the root type.", "quantifier": "all pairs of types of the class hierarchy", "why_tests_cant": "All pairs, including plugin-defined types.", "anchors": ["libff/parser.py:Parser.get_common_super_type", "libff/parser.py:Parser.get_reference_value"]}
{"id": "C65", "title": "Consecutive API queries are independent", "statement": "A Find query behaves the same no matter which Find queries the process ran before.", "quantifier": "all sequences of queries", "why_tests_cant": "All histories; state is kept in class attributes.", "anchors": ["libff/registry.py:Registry.plugins", "libff/registry.py:Registry.setup_attribute", "libff/cache.py:Cache.registered", "libff/find.py:Find"]}
{"id": "C66", "title": "Options that exclude each other are refused, options without effect are switched off with a warning", "statement": "The command line is refused, with a usage error, iff --count is combined with --limit, --exec or --exec-batch, or two start directories contain each other (C37), or, when debugging, --profile is combined with --exec or --exec-batch. Otherwise exactly one warning is given for each of: --output together with --exec or --exec-batch (--output is switched off), --output together with --count (switched off), --sort together with --count (--sort is switched off), --limit without --sort; --limit, --exec and --exec-batch are kept, and so are --sort and --output in all other cases.", "quantifier": "all parsed command lines", "why_tests_cant": "All combinations of options with arbitrary values.", "anchors": ["libff/arguments.py:check_for_errors", "libff/arguments.py:collect_warnings"]}
{"id": "C67", "title": "Octal and hexadecimal output is exact", "statement": "With the modifiers o and x a number is printed as its shortest octal or hexadecimal numeral, with a minus sign if it is negative; different numbers are printed differently.", "quantifier": "all integers", "why_tests_cant": "All integers.", "anchors": ["libff/type.py:Number.output", "libff/type.py:Mode.output", "libff/type.py:Size.output"]}
{"id": "C68", "title": "Colours do not change the text", "statement": "The text printed for a field is the text of the attribute; with colours it only has escape sequences added, whose values come from LS_COLORS, so that removing them gives the text printed without colours.", "quantifier": "all entries, fields and values of LS_COLORS", "why_tests_cant": "All paths, including those in the root directory, and all rules.", "anchors": ["libff/console.py:Console.render_path", "libff/console.py:Console.render_name", "libff/console.py:ColorConsole"]}
{"id": "C69", "title": "Fields have exactly the documented syntax", "statement": "A field given to --output, --sort, --count or in a command template is accepted iff it is [plugin.]attribute, optionally followed by a colon, a width and one of the modifiers h, o, x, n, v; its parts are uniquely determined; a width is an integer; any other text is a usage error.", "quantifier": "all texts and all sets of plugins", "why_tests_cant": "All texts.", "anchors": ["libff/field.py:Fields.regex", "libff/field.py:Fields.make_field"]}
{"id": "C70", "title": "A written date or time denotes that time", "statement": "Each documented way to write a time (YYYY-mm-dd HH:MM:SS, YYYY-mm-dd HH:MM, YYYYmmddHHMM, YYYY-mm-dd, YYYYmmdd, HH:MM:SS, HH:MM, HHMM) denotes that local time, a duration denotes the time that long ago, and everything that is neither one of these nor a number is rejected.", "quantifier": "all texts, all dates, all clocks and time zones", "why_tests_cant": "All texts and dates; the meaning depends on the clock and the time zone.", "anchors": ["libff/convert.py:parse_time", "libff/convert.py:time_formats", "man/ff.1"]}
{"id": "C71", "title": "Printed times are read back", "statement": "Reading the text that the modifier h prints for a time gives that time again.", "quantifier": "all times, all time zones", "why_tests_cant": "All times and time zones.", "anchors": ["libff/convert.py:format_time", "libff/convert.py:parse_time"]}
{"id": "C72", "title": "A time of day is the last such time", "statement": "A time of day alone denotes the most recent moment with that local time: not after now and less than a day before it.", "quantifier": "all times of day, all current times", "why_tests_cant": "All pairs of current time and time of day; midnight, month and leap year boundaries.", "anchors": ["libff/convert.py:parse_time"]}
{"id": "C73", "title": "Printed sizes are right up to the digits shown", "statement": "The text that the modifier h prints for a size names the number itself below the base (1000 with --si, 1024 without); from the base on it names a number of units that is at least 1 and below the base, with one decimal below ten and off by at most 0.0503 units, or as the integer part from ten on; and read as a size again it gives a number off by at most nine percent.", "quantifier": "all sizes up to (base - 1) * base^8, both bases", "why_tests_cant": "The number is rounded twice in every round of the loop, in double precision; sizes next to a power of the base and next to a half are the cases in question, over a range of 80 bits.", "anchors": ["libff/convert.py:format_size", "libff/convert.py:parse_size", "libff/type.py:Size.output"]}
{"id": "C74", "title": "A larger file is never shown as smaller", "statement": "If one size is not greater than another, the text printed for it does not name a greater size than the text printed for the other.", "quantifier": "all pairs of sizes up to (base - 1) * base^8, both bases", "why_tests_cant": "All pairs of sizes; rounding in double precision happens up to sixteen times per size.", "anchors": ["libff/convert.py:format_size", "libff/convert.py:parse_size"]}
{"id": "C75", "title": "A search reports only what was asked for, and each entry once", "statement": "At every moment of a search, every entry reported so far lies below one of the start directories; neither it nor a directory on the way to it is excluded by -e, -I, -H, --one-file-system or by the depth; its depth is in one of the ranges of -d; and it makes the expression of tests true. If the start directories have different paths, no entry is reported twice.", "quantifier": "all directory trees, all expressions of tests with values that can be parsed, all combinations of these options, all numbers of processes and all interleavings", "why_tests_cant": "The options rewrite the expression of tests and the list of exclusions, which is then parsed, sorted, evaluated by several processes and spread over a queue; a test covers one tree, one command line and one schedule.", "anchors": ["libff/main.py:_Base", "libff/arguments.py:process_arguments", "libff/walk.py:FilesystemWalker", "libff/filter.py:Matcher", "libff/entry.py:Entry"]}
{"id": "C76", "title": "A search that ends normally has reported everything", "statement": "When the search is over and was not stopped, every entry below the start directories that is not excluded, is not below an excluded directory, has a depth that was asked for and makes the expression of tests true has been reported.", "quantifier": "all directory trees, all expressions of tests with values that can be parsed, all combinations of the options, all numbers of processes and all interleavings", "why_tests_cant": "Losing an entry depends on the schedule of the processes and on timeouts of queues and barriers; a test sees one schedule.", "anchors": ["libff/main.py:_Base", "libff/walk.py:FilesystemWalker", "libff/processing.py:BaseProcessing", "libff/arguments.py:process_arguments"]}
{"id": "C77", "title": "A reference file is the entry that the search makes of it", "statement": "The entry made for a reference names the file that was given, however its path is spelled. If the file lies below a search directory, it is the same entry, with the same path, depth and samedev, that the search makes below the first such directory. A file elsewhere counts as an entry of its own directory. A reference to an existing file is accepted.", "quantifier": "all file systems, all current directories, all lists of search directories, all spellings of the path (relative, with . and .., with repeated slashes)", "why_tests_cant": "The attribution to a search directory compares texts of absolute paths; there are infinitely many spellings and combinations of directories.", "anchors": ["libff/entry.py:Entry.as_reference", "libff/entry.py:StartDirectory"]}
{"id": "C78", "title": "Every file passes a test with itself as the reference", "statement": "For every entry that the search makes and every attribute it has, the test attr={}path, where path is any spelling of the path of the entry, is accepted and true of the entry; likewise for the other operators that include equality. A reference that cannot be read is an error of the user.", "quantifier": "all entries, all attributes and types, all case modes, all spellings of the path", "why_tests_cant": "It connects the parser of tests, the attribution of references, the entries of the walk and the comparison of values of every type.", "anchors": ["libff/parser.py:Parser.get_reference_value", "libff/parser.py:Parser.create_test", "libff/entry.py:Entry.as_reference", "libff/filter.py:Matcher"]}
{"id": "C79", "title": "The target of a symbolic link is where the link leads", "statement": "For a symbolic link, target is the real path of the location that the text of the link means (the text itself if it is absolute, otherwise read from the directory of the link), and broken says that nothing exists there. Other files have no link and no target and are not broken.", "quantifier": "all entries, all link texts, all file systems", "why_tests_cant": "Links are arbitrary texts in arbitrary directories.", "anchors": ["libff/entry.py:Entry.__init__", "libff/path.py:join"]}
{"id": "C80", "title": "A file belongs to the nearest enclosing git repository, in whatever order files are asked for", "statement": "For every sequence of entries the plugin git reports for each of them, as repo_dir, the nearest enclosing directory that has a directory .git, and nothing if there is none; repo is true just of that directory.", "quantifier": "all directory trees, all sequences of entries whose absolute path begins with one slash, all git output whose status lines have a status and a path", "why_tests_cant": "Answers are kept in a table that is filled while walking upwards, so that they could depend on all earlier queries.", "anchors": ["plugins/git.py:Git.find_repo", "plugins/git.py:Git.process"]}
{"id": "C81", "title": "tracked and dirty say what git says", "statement": "A file is tracked iff git ls-files of its repository lists it, and dirty iff git status lists it other than as untracked; a directory is tracked or dirty iff a file below it is.", "quantifier": "all repositories, all file names, all sequences of entries", "why_tests_cant": "The output of git is taken apart as text; file names are arbitrary.", "anchors": ["plugins/git.py:Filelist", "plugins/git.py:Status", "plugins/git.py:Git.process"]}
{"id": "C82", "title": "A search prints the files to be reported, one line each, in the requested order", "statement": "At the end of a search the lines printed are those of the selected part (--limit) of the sorted list (--sort, --reverse) of all files that match and are not excluded, each file at most once; without --sort and --limit there is one line for each such file that has all requested values, in some order; --json prints one object for each of them and --count their number and the number or sum of each value.", "quantifier": "all directory trees, tests, fields, sort fields and limits, all numbers of processes and all schedules", "why_tests_cant": "The output is the composition of argument handling, the search by several processes, sorting, limiting and formatting; tests see one schedule and a few trees.", "anchors": ["libff/main.py:_Base.setup_components", "libff/processing.py:CollectiveMixin", "libff/processing.py:CollectiveConsoleProcessing", "libff/processing.py:BaseConsoleProcessing"]}
{"id": "C83", "title": "Sorted output does not depend on the number of processes nor on their schedule", "statement": "If the sort keys of the files to be reported are pairwise different, two searches with the same arguments print the same lines, whatever the number of processes and however they are scheduled.", "quantifier": "all directory trees, tests, fields, sort fields and limits, all pairs of runs", "why_tests_cant": "It compares all pairs of schedules.", "anchors": ["libff/processing.py:CollectiveMixin", "libff/field.py:SortFields"]}
{"id": "C84", "title": "-o file stands for all attributes of files", "statement": "The word file in --output is replaced by all attributes of the plugin file, at its place; the other fields stay as they are, and an attribute that a file does not have does not keep its line from being printed.", "quantifier": "all lists of fields, all entries", "why_tests_cant": "All lists of output fields around the word.", "anchors": ["libff/main.py:_Base.setup_components", "libff/registry.py:Registry.get_file_attributes"]}
{"id": "C85", "title": "Every attribute of a file has a value of its declared type", "statement": "Each attribute of the plugin file has, for every file that was found, a value of the type that the plugin declares; only link and target can be missing, and they are missing exactly if the file is not a symbolic link.", "quantifier": "all files, file systems, user databases and directory contents", "why_tests_cant": "A value of another type would show up only for unusual files (devices, unknown users, files on unknown file systems).", "anchors": ["libff/entry.py:Entry", "libff/builtin/file.py:File"]}
{"id": "C86", "title": "mtime, ctime and atime are the second in which the time lies", "statement": "The attributes mtime, ctime and atime are the number of the second in which the time stamp of the file lies.", "quantifier": "all time stamps with nanoseconds", "why_tests_cant": "Wrong values occur in the last nanoseconds of a second, where the float is rounded up, or before 1970.", "anchors": ["libff/entry.py:Entry.mtime", "libff/entry.py:Entry.ctime", "libff/entry.py:Entry.atime"]}
{"id": "C87", "title": "user and group are the names in the database", "statement": "The attributes user and group are the names that the user database has for the numbers, and empty if it has none, in whatever order and however often they are asked for.", "quantifier": "all databases, all sequences of questions", "why_tests_cant": "The names are memoised; the answer could depend on what was asked before.", "anchors": ["libff/entry.py:Entry.user", "libff/entry.py:Entry.group"]}
{"id": "C88", "title": "The plugin grep knows the lines of text files", "statement": "grep.linecount is the number of lines of a text file (ended by LF, CR LF or CR, the last one possibly not ended), grep.lines:v is true iff a line contains v, and grep.lines=v is true iff a line is v.", "quantifier": "all texts and all values without line ends", "why_tests_cant": "All combinations of line ends and positions of lines.", "anchors": ["libff/builtin/grep.py:Grep"]}
{"id": "C89", "title": "The shebang is the first line of a script", "statement": "The attribute shebang.shebang is the text after #! of the first line of the file if this line starts with #!, without blanks at its end, and missing otherwise.", "quantifier": "all files", "why_tests_cant": "Other lines that start with #! are rare.", "anchors": ["plugins/introspect.py:Shebang"]}
{"id": "C90", "title": "py.imports lists the modules that a Python file imports", "statement": "py.imports has the name of every module that is imported and no others; names of relative imports begin with a part of the package that they are relative to.", "quantifier": "all syntax trees, all directories", "why_tests_cant": "The forms of import statements can be combined at will.", "anchors": ["plugins/introspect.py:Py"]}
{"id": "C91", "title": "pacman.installed is true for the files of packages", "statement": "For each file pacman.installed is true iff a package has this file, and then pacman.pkgname is the name of such a package.", "quantifier": "all lists of packages and files, all paths", "why_tests_cant": "Any list of packages.", "anchors": ["plugins/pacman.py:Pacman"]}
{"id": "C92", "title": "No file makes a plugin fail", "statement": "Whatever a file contains, asking a plugin for its data does not end the search with an error.", "quantifier": "all contents of files", "why_tests_cant": "All contents; the libraries raise exceptions for unusual ones only.", "anchors": ["libff/registry.py:Registry.get_data", "plugins/tar.py:Tar", "plugins/hash.py:_Hash", "plugins/introspect.py:Py"]}
{"id": "C93", "title": "Hash sums are those of the whole contents", "statement": "The attribute of a hash plugin is the sum of the whole contents of the file, whatever its length.", "quantifier": "all files, all algorithms that can be fed piece by piece", "why_tests_cant": "All lengths, also around multiples of the size of the buffer.", "anchors": ["plugins/hash.py:_Hash.cache"]}
{"id": "C94", "title": "mime.type and mime.subtype are the parts of mime.mime; tar.members are the members", "statement": "mime.mime is mime.type, a slash and mime.subtype, where mime.type has no slash; tar.members are the names of the members of an archive, each once, and only files with one of the listed endings have them.", "quantifier": "all types that libmagic names, all archives, all names", "why_tests_cant": "All names.", "anchors": ["libff/builtin/mime.py:Mime.process", "plugins/tar.py:Tar"]}
{"id": "C95", "title": "The text of a value says the value", "statement": "Every value of the type of its attribute is printed, without an exception, as a text that says it: a number in its base (with the modifiers x, o and h as described in the manual), a boolean as true or false, a string unchanged, a list joined with commas; a value of another type is refused.", "quantifier": "all values of all types and all modifiers", "why_tests_cant": "All numbers; tests look at a few values per type.", "anchors": ["libff/type.py:Type.output", "libff/type.py:Number.output", "libff/type.py:Mode.output", "libff/type.py:Duration.output", "libff/type.py:Boolean.output", "libff/type.py:ListOfStrings.output"]}
{"id": "C96", "title": "-x runs one command for each file to be reported", "statement": "With -x the commands run in a search that is not stopped are those of the files that match and are not excluded, one for each of them that has all values of the template, in which every field is replaced by the value of the file; with --sort or --limit they are those of the selected part of the sorted list.", "quantifier": "all directory trees, tests, templates, numbers of processes and threads and all schedules", "why_tests_cant": "A command left out or run twice depends on the schedule of processes and threads.", "anchors": ["libff/processing.py:ImmediateExecProcessing", "libff/processing.py:CollectiveExecProcessing", "libff/processing.py:Parallel", "libff/field.py:ExecFields"]}
{"id": "C97", "title": "-X hands every file to be reported to the command, in order", "statement": "The calls of the command of -X together get the values of the selected part of the sorted list of all files that match and are not excluded, in this order, each file once; only a file whose values are too long for the system alone or a command that cannot be started ends this early; the exit status tells whether any call failed.", "quantifier": "all directory trees, tests, templates, limits of the system, numbers of processes and all schedules", "why_tests_cant": "The division of the arguments depends on the limits of the system; losing a file at a boundary needs unusual lengths.", "anchors": ["libff/processing.py:CollectiveExecProcessing", "libff/field.py:ExecBatchFields"]}
{"id": "C98", "title": "A query by the API yields one record for each file to be reported", "statement": "Iterating a Find gives, for each file that matches and is not excluded, one dictionary that has the requested fields in their order with the values of the attributes, sorted if sort fields are given; modifiers that would change the values are refused.", "quantifier": "all directory trees, queries, fields, sort fields, numbers of processes and all schedules", "why_tests_cant": "Completeness of the results depends on the schedule of the processes.", "anchors": ["libff/find.py:Find", "libff/processing.py:ImmediateGenerator", "libff/processing.py:CollectiveGenerator"]}
{"id": "C99", "title": "-I hides exactly what the ignore files say", "statement": "In a whole search the attribute ignored of an entry is true, and ignore.path names the file, exactly if the last pattern that applies to it, in the ignore files above the start directory and in those of the directories from the start directory to the one that contains the entry, is not negated. With -I the search reports what it would report otherwise, without the entries that are ignored or are below an ignored directory; an ignore file also counts for entries listed before it.", "quantifier": "all directory trees with all ignore files of well-formed patterns, all names of ignore files, tests and options, all numbers of processes and all schedules", "why_tests_cant": "The list of ignore files is a shared object that is still extended after it has been handed out, is copied per directory and travels between processes; errors appear for some listing orders, depths or schedules only.", "anchors": ["libff/walk.py:FilesystemWalker", "libff/builtin/ignore.py:Ignore", "libff/ignore.py:GitIgnore", "libff/main.py:_Base"]}
{"id": "C100", "title": "Media attributes are those of the tracks", "statement": "For a file whose guessed main type is image, audio or video: artist, album, title, genre and date are the non-empty tags of the last general track that has them; width and height are those of the first video track or, without video tracks, of the first image track, and exist only together; format is that of the first image track if there is no video track; duration is the number of whole seconds of the first audio track or, if that has none, of the first video track. Other files have none of these attributes.", "quantifier": "every guessed type, every list of tracks in any order and number, with any tags, sizes and (not negative) durations given as numbers or texts", "why_tests_cant": "The number and the order of tracks and which of them lack tags, sizes or durations are unbounded; tests use a few sample files.", "anchors": ["libff/builtin/media.py:58-127", "libff/registry.py:234-284"]}
{"id": "C101", "title": "fs.type and fs.remote describe the file system a file lies in", "statement": "fs.type and fs.remote of a directory are the name and the kind that the table gives for the number of its file system, those of any other file are those of its directory; numbers that are not in the table are unknown and not remote. Files with the same fs.type have the same fs.remote. The attributes can be had for every file that exists.", "quantifier": "every table of mounted file systems, every working directory, start directory and path below it, all kinds of files", "why_tests_cant": "Tests run on the one or two file systems of the test machine and cannot mount others, and they start in plain directories.", "anchors": ["plugins/fs.py:28-67", "plugins/fs.py:81-110"]}
{"id": "C102", "title": "xattrs lists all extended attributes", "statement": "xattrs lists key=value for every extended attribute of a file, in the order of the system, and so determines keys and values.", "quantifier": "every list of keys, all contents of values, every decoding of bytes, any two files", "why_tests_cant": "Keys and values are arbitrary byte strings and reading may fail for any of them; tests set one or two plain attributes if the file system allows any.", "anchors": ["plugins/xattr.py:35-51"]}
{"id": "C103", "title": "empty means that nothing is in it", "statement": "The attribute empty of a file is true exactly of regular files of size 0 and of directories that can be listed and have no entries, and is false of everything else, including files of other types and directories that cannot be read; the tests empty, empty=yes and empty=no select accordingly.", "quantifier": "every entry of every kind, every answer of the system when listing, every search", "why_tests_cant": "Types of files, sizes and failures of listing combine freely; tests create one empty file and one empty directory.", "anchors": ["libff/entry.py:305-326", "libff/builtin/file.py:74"]}
{"id": "C104", "title": "mount is true of the directories on which something is mounted", "statement": "For every entry below a start directory, mount is true exactly if it is a directory on which a file system is mounted; on the way to a directory on another device than the start directory there is always one such directory. Excluding mount=yes keeps the search on the device of the start directory.", "quantifier": "every tree with any assignment of devices, every depth, every start directory", "why_tests_cant": "Tests cannot mount file systems and see a single device.", "anchors": ["libff/entry.py:341-357", "libff/builtin/file.py:81"]}
{"id": "C105", "title": "Names and paths have the colours of LS_COLORS", "statement": "In colour, a path consists of its directory in the colour of directories and of its name, a name has the colour that LS_COLORS gives, after dir_colors(5): for broken symbolic links or, for others ln, for executable files ex, otherwise that of the longest suffix *... that the name has; the last rule for a key counts; after the text the colour is reset by rs or 0; where there is no rule the text is unchanged.", "quantifier": "every value of LS_COLORS, every entry, with and without following links", "why_tests_cant": "LS_COLORS is an arbitrary list of rules, in any order, with repetitions; tests have none or one fixed value.", "anchors": ["libff/console.py:140-178", "libff/console.py:262-310"]}
{"id": "C106", "title": "Escapes in separators", "statement": "In the argument of --sep a backslash followed by t or n stands for a tab or the end of a line, read from left to right; every other character stands for itself.", "quantifier": "every string", "why_tests_cant": "Backslashes can be combined without bound and replacing in two passes could take the result of one for the input of the other; tests use one separator.", "anchors": ["libff/console.py:117"]}
{"id": "C107", "title": "NO_COLOR switches colours off", "statement": "If NO_COLOR is set, no output is coloured, regardless of the options.", "quantifier": "every command line, terminal or not", "why_tests_cant": "All combinations of options cannot be tried; tests do not set NO_COLOR.", "anchors": ["libff/arguments.py:126-128", "libff/processing.py:157-176", "libff/manpage.template:374"]}
{"id": "C108", "title": "Exactly one presentation is chosen, and results are held back only if necessary", "statement": "For arguments without conflicts, results are presented as commands if -x or -X is given, otherwise as statistics with --count, as one JSON array with --json, as JSON lines with --jsonl, in colours with --color=always or with --color=auto on a terminal, else as plain lines. JSON is never coloured. Results are collected before the first one is presented exactly if they are sorted, counted, limited, passed to one command together or printed as one array.", "quantifier": "every combination of options and values, terminal or not, all directory arguments", "why_tests_cant": "The options interact (some switch others off in an earlier step) and the number of combinations is large; tests try few pairs and never on a terminal.", "anchors": ["libff/arguments.py:202-239", "libff/arguments.py:308-331", "libff/main.py:242-255", "libff/processing.py:157-176"]}
{"id": "C109", "title": "Tests look at the value of their attribute", "statement": "Whether a test is true of a file depends on the value of the attribute that it names (and, for patterns ending in a slash, on whether the file is a directory): two files for which the attribute has the same value get the same answer.", "quantifier": "every test string, operator, type and value, every pattern and case option", "why_tests_cant": "Tests only use name%... and path%... where the name is part of the value; the other path attributes and the unbounded set of patterns are not tried.", "anchors": ["libff/type.py:141-181", "libff/parser.py:270-322", "libff/ignore.py:54-133"]}
{"id": "C110", "title": "FF_OPTIONS is read like the words of a shell command", "statement": "The arguments of ff are the words written in FF_OPTIONS followed by those of the command line. Words are separated by blanks; a backslash outside of quotes, single quotes and double quotes protect characters as in a shell. Every text has at most one reading, every list of arguments can be written, and a text without a reading ends ff with an error.", "quantifier": "every text of FF_OPTIONS, every list of arguments, every character", "why_tests_cant": "No test sets FF_OPTIONS; the texts, with quotes and backslashes next to each other and inside each other, are unbounded.", "anchors": ["libff/arguments.py:174-184"]}
{"id": "C111", "title": "Every option sets what the manual says, and nothing else", "statement": "Without arguments every setting has its documented default. After any arguments that are read without an error and contain no command, adding one of the documented spellings of an option (with a value where it has one) changes exactly the setting of that option, to the documented or the converted value; options that may be given several times add to their list; a value that cannot be converted is an error.", "quantifier": "every documented option in every spelling, after every list of arguments, every value", "why_tests_cant": "Tests call ff with few options at a time; that no option disturbs the settings made by any others before it is a statement about all argument lists.", "anchors": ["libff/arguments.py:44-171", "libff/argparse.py:226-475"]}
{"id": "C112", "title": "Wrong arguments end ff with a message and a documented exit status", "statement": "Whatever is in FF_OPTIONS and on the command line, ff either begins a search, or ends with status 0 after help or an action that was asked for, or reports an error with status 2 (usage), 10 (only if a plugin cannot be set up), 11 (unknown attribute) or 12 (bad expression). It does not end with an unhandled exception, for which Python's status is 1, the documented status of --fail without results.", "quantifier": "every text of FF_OPTIONS, every list of arguments, all plugins and directories, with and without assertions", "why_tests_cant": "The argument lists are unbounded and an error may be raised in any of six phases, each with its own handler; tests try a handful of wrong arguments.", "anchors": ["libff/main.py:62-148", "libff/main.py:217-240", "libff/arguments.py:334-357", "libff/argparse.py:226-290", "libff/exceptions.py:23-83", "libff/parser.py:168-187"]}
{"id": "C113", "title": "More plugins do not change what works without them", "statement": "Plugins are read from the built-in directory, the contributed ones, those named in FF_PLUGIN_DIRS and that of the user, in this order, from regular files named *.py that do not begin with an underscore. A name belongs to the first directory that has a plugin of this name; no plugin is lost; directories that cannot be read are skipped; one broken file ends ff. A directory that comes later changes neither the meaning of a full name plugin.attribute nor that of the attributes of files, nor that of any other attribute name. The result does not depend on the order in which the files of a directory are listed.", "quantifier": "all directories, files, classes and attributes, every value of FF_PLUGIN_DIRS", "why_tests_cant": "Tests run with the plugins of the source tree only; directories of users and the order of os.scandir are unbounded and differ between machines.", "anchors": ["libff/registry.py:60-150", "libff/registry.py:172-216", "libff/plugin.py:54-74"]}
{"id": "C114", "title": "From the command line to the output", "statement": "If the environment and the command line do not end ff early, there is exactly one program for them: its options are those given, it uses between one and as many processes as there are CPUs, and results are presented as asked for. At the end of every run of its search what was printed is what the command line means: with --sort, --limit or --json the selected part of the sorted list of all files to be reported, otherwise one line for each file to be reported that has all values, with --jsonl one object per file, with --count the statistics of all of them, with -x one command per file, with -X calls that together are for the selected part of the sorted list. The files to be reported are those in the directories given for which the tests hold and that are not excluded.", "quantifier": "every FF_OPTIONS, command line, file tree, plugin table and schedule of the processes", "why_tests_cant": "Whole command lines, file trees and interleavings are each unbounded, and so are their combinations; tests fix a few of them.", "anchors": ["libff/main.py:62-148", "libff/main.py:152-180", "libff/main.py:242-301", "libff/processing.py:148-265", "libff/processing.py:342-392"]}
{"id": "C115", "title": "The help pages show the texts they are made of", "statement": "Wrapping a template into paragraphs keeps its words and their order. Turning a text into roff adds font changes and escapes only: reading the line as man does gives back the words of the text, without backquotes. A page made from a template shows all words of the template with the included texts in the place of the markers. The reference of the attributes describes every registered plugin, and every attribute with its type, operators and help text, those of the file plugin first; so do the pages of one plugin, of all plugins and of the types. This holds for texts without backslashes that do not begin a paragraph with a dot or a single quote; others vanish, and one plugin without a docstring prevents the whole page.", "quantifier": "every text, template, set of included texts, list of plugins and list of types", "why_tests_cant": "Templates, help texts and plugin sets are unbounded, and five alternatives of the highlighting expression can follow and overlap each other in any order.", "anchors": ["libff/help.py:57-88", "libff/help.py:90-153", "libff/help.py:155-185", "libff/help.py:223-252", "libff/help.py:282-421", "libff/registry.py:317-347"]}
{"id": "C116", "title": "Messages are shown completely, within the screen, and those with a tag once", "statement": "A warning, hint, error, information or internal error is written with its whole text after its category: nothing but white space is lost or added, the following lines are indented below the text, and no line is longer than the screen if there is room beside the indentation. Words that fit on a line are not broken, others after the last hyphen that fits. A message with a tag is not written if one with the same tag was there before, in the same process. Debug messages are written unchanged if their category or all categories were chosen. ff goes on after messages without an exit code and ends with the code of the first that has one. On a screen of one or two columns every message raises ValueError instead, and a tagged message is shown again by every process that has not inherited the tag.", "quantifier": "every sequence of calls, message, tag, category, screen width, number of processes and every way to split texts at which nothing is lost", "why_tests_cant": "Texts, widths and sequences of messages are unbounded, and so is the interleaving of the worker processes that log.", "anchors": ["libff/logger.py:28-94", "libff/__init__.py:55"]}
{"id": "C117", "title": "ff --help and the manual page list every option with its whole help text", "statement": "The options in the help text are exactly those that the parser knows, in the same order. ff --help shows the usage line, then every group and every option: its names, joined with commas and followed by its argument (in brackets if it is optional), two columns from the left, and its whole help text from column 27 on, beside the names if they have at most 25 characters and below them otherwise, in lines that fit the screen. In the manual page every option is a tagged paragraph with its names as the tag, and the page shows all words of the names and the help texts. With one or two columns ff --help ends in ValueError, and names of exactly 25 characters would touch the help text, but no option has such names.", "quantifier": "every list of groups and options, screen width, way to split texts, template and the table of ff with and without debugging options", "why_tests_cant": "Widths, help texts and option lists are unbounded, and the page goes through wrapping, splitting at double blanks and highlighting, which interact with any text.", "anchors": ["libff/argparse.py:226-299", "libff/arguments.py:44-171", "libff/help.py:57-153"]}
{"id": "C118", "title": "The manual page lists every exit code and every time pattern", "statement": "Every exit code with which a refused command line or a search can end is in the list of exit codes, once, and 0 is not. A page that includes the list has one tagged paragraph for each code with the whole meaning, without the blanks at the end of the docstring. A page that includes the time formats shows the pattern of each of them, in which every directive is its letter twice and all other characters are as in the format. Nothing but help, usage, time_patterns and exit_codes can be included. A time written as such a pattern says is not always understood: the page shows YY where a year of four digits is needed.", "quantifier": "every list of codes with one-line meanings, list of formats, template, error and state at the end of a search", "why_tests_cant": "Formats, meanings and templates are unbounded, and the end of a search depends on the interleaving of the processes.", "anchors": ["libff/help.py:90-122", "libff/exceptions.py:23-83", "libff/convert.py:139-148"]}
{"id": "C119", "title": "elf.sonames are the shared objects an executable needs", "statement": "For a regular file that begins with the ELF magic number, elf.sonames is the sorted list of the names in the DT_NEEDED entries of all its dynamic sections, each as often as it is there, and nothing else. Entries that are no such files, cannot be read or are damaged have no such attribute, even if the damage is behind the names. An exception of pyelftools that is not an ELFError stops the search with BadPluginError.", "quantifier": "every file content, list of sections and entries, and way the library ends", "why_tests_cant": "Sections, entries and names are unbounded, and the library can fail at any place.", "anchors": ["plugins/introspect.py:49-79", "libff/registry.py:218-284"]}
{"id": "C120", "title": "The examples of the manual find what they are said to find", "statement": "Each example of the manual page and of EXAMPLES.md finds exactly the entries its description names: regular files, hidden files below a directory, names that match a pattern, files that were changed within the last 90 minutes, are newer than another file, are bigger than 100 megabytes, have several hard links or can be executed by the user, archives with a member of a given name, executables that need a library. The examples that are called equivalent find the same, and in general expressions that only differ in brackets, spelling of keywords, blanks around operators and spelling of operators do.", "quantifier": "every entry, every set of other plugins and their values, every case setting, clock and speed score, every expression", "why_tests_cant": "Entries, modes, sizes, times, names and member lists are unbounded, and so are expressions.", "anchors": ["libff/manpage.template:328-347", "EXAMPLES.md:1-132", "libff/parser.py:119-322", "libff/filter.py:98-135"]}
{"id": "C121", "title": "Slow tests are only made if the fast ones have not decided", "statement": "For every entry the tests of an expression are made from the fastest to the slowest, tests of the same speed in the order they were written, and none is made after the expression is decided: a test is only made if all faster tests beside it are true, an alternative is only tried if all faster ones are false, a test of -e is only made if no faster one excludes the entry. No test is made more often than it stands in the expression. A test of a slow plugin is only made if every part of the expression without such tests leaves the result open.", "quantifier": "every expression with any nesting of brackets, every speed of every plugin, every outcome of every test", "why_tests_cant": "Expressions, their nesting and the combinations of speeds and outcomes are unbounded; the order of the tests does not show in the result.", "anchors": ["libff/manpage.template:308-313", "libff/parser.py:216-233", "libff/filter.py:65-135", "libff/registry.py:300-303", "libff/plugin.py:31-38"]}
{"id": "C122", "title": "Searches combine like their arguments", "statement": "What searches of the same tree find is related as their arguments are: two expressions joined by OR find what either finds, two bracketed expressions in a row find what both find, NOT before a bracketed expression finds all the rest of what the search without tests finds; several start directories and several ranges of --depth find what each of them finds; several -e find what is found with each of them alone; and -e, -I, -H and --one-file-system never add a result.", "quantifier": "every tree, every set of plugins and values, every pair of expressions, directories, ranges and exclusions, every number of processes and every schedule of each of the searches", "why_tests_cant": "The laws relate several searches, each with unboundedly many trees, arguments and schedules.", "anchors": ["libff/filter.py:65-135", "libff/parser.py:110-166", "libff/walk.py:94-215", "libff/main.py:152-180", "libff/arguments.py:224-290"]}
{"id": "C123", "title": "--depth restricts every expression and accepts the same ones", "statement": "An expression is accepted together with --depth if and only if it is accepted alone, and it then matches exactly the entries within the ranges that it matches alone; whatever the expression is, nothing outside of the ranges matches. (False: brackets closed and opened again in the expression escape from the ranges; a leading OR is accepted only with --depth and matches everything; AND alone is accepted only without.)", "quantifier": "every list of argument words, every list of ranges, every set of plugins, every entry", "why_tests_cant": "The claim is about every sequence of tokens, also those that are not expressions, in combination with every list of ranges.", "anchors": ["libff/arguments.py:274-306", "libff/parser.py:110-166", "libff/parser.py:189-198"]}
{"id": "C124", "title": "A result depends on its own way only; -e takes away exactly what matches and what is below", "statement": "Whether a search finds a file depends only on the file and the directories it is in: in two trees in which these are the same it is found or not, whatever else there is. -e with a test takes away exactly what a search for that test finds, and everything below that. -I, --one-file-system and -H do the same as -e with ignored=yes, samedev=no and hide=yes. --depth 0- changes nothing.", "quantifier": "every pair of trees, every set of plugins and values, all arguments, every test, every number of processes and every schedule of each of the searches", "why_tests_cant": "The claims relate searches of different trees or with different arguments, with unboundedly many trees, arguments and schedules.", "anchors": ["libff/walk.py:94-215", "libff/filter.py:65-135", "libff/arguments.py:308-331", "libff/main.py:152-180"]}
{"id": "C125", "title": "Lines of several processes are whole and none is lost", "statement": "The worker processes print their lines to the same standard output. At any moment what has been written consists of whole lines, of each process its first lines in their order, among them all for which the call that prints has returned; so nothing is lost if the processes vanish then. When all are done every line is there exactly once. This holds for lines and for JSON records, which are written in many pieces.", "quantifier": "every number of processes, all lines, records and pieces, all encodings, every size of the buffer, every interleaving of the processes' operations, every moment", "why_tests_cant": "It is about all interleavings of all numbers of processes and all lengths of lines; a torn line needs an unlikely schedule.", "anchors": ["libff/console.py:78-83", "libff/console.py:241-253", "libff/processing.py:176-181"]}
{"id": "C126", "title": "Every name can be printed", "statement": "A line that standard output can encode is printed as it is. One that it cannot, because a name has bytes that are not text, is printed all the same, with exactly the characters that cannot be encoded as backslash escapes. Different lines are printed differently.", "quantifier": "all lines, all encodings of standard output and of the file system, both line ends", "why_tests_cant": "There are unboundedly many lines and many encodings, and names that are not text are rarely tried.", "anchors": ["libff/console.py:112", "libff/console.py:241-253"]}
{"id": "C127", "title": "Searches with equivalent arguments find the same", "statement": "If two expressions are true together whatever their tests yield, searches with them find the same entries, each equally often. So alternatives can be swapped, negations moved inside brackets (De Morgan) and conditions distributed over alternatives. A test can be replaced by another that is true of the same entries, such as another spelling of it. The order and repetition of the tests for -e, the order of the directories, the number of processes, and the order in which tests are evaluated for speed make no difference either.", "quantifier": "all pairs of expressions, all lists of tests for -e, all directory trees, all options, all numbers and schedules of processes that overlook no work, all sort orders of the tests, all plugins that keep their types", "why_tests_cant": "It compares the results of all pairs of equivalent expressions over all trees and schedules; the optimisations that could break it depend on the shape of the expression.", "anchors": ["libff/parser.py:110-166", "libff/parser.py:216-233", "libff/filter.py:65-135", "libff/walk.py:94-215", "libff/main.py:152-180"]}
{"id": "C128", "title": "The tree of a search, with and without following links", "statement": "A search sees exactly the files to which names lead through directories that can be listed and searched. With -L the name of a symbolic link stands for the file it leads to, without -L for the link itself. Going down ends even if links lead back to a directory above. Each directory is entered once. Every name in a directory that can be listed and searched is seen. What cannot be accessed hides only itself and what is below it; all errors are warned about except missing files and missing permissions.", "quantifier": "all file systems (directories nested to any depth, any links, any permissions), every limit of the number of links in a path, every start directory, with and without -L; for searches all arguments, numbers of processes and schedules that overlook no work", "why_tests_cant": "Loops of links and unreadable places can be combined in unboundedly many ways; a test has one file system, and usually one without links to directories.", "anchors": ["libff/walk.py:135-180", "libff/walk.py:182-210", "libff/entry.py:398-401", "libff/arguments.py:109-110"]}
{"id": "C129", "title": "--one-file-system stays within the file system of the start directory", "statement": "With --one-file-system a search reports exactly what it would report without it, as far as the file itself and all directories on the way from the start directory are in the same file system as the start directory. This holds for start directories that are symbolic links and for links that are followed with -L, too.", "quantifier": "all file systems with any links and any devices, every limit of the number of links in a path, all arguments with --one-file-system, with and without -L, all numbers of processes and schedules that overlook no work", "why_tests_cant": "Mounting needs privileges that tests do not have, and links to other file systems, nested mounts and start directories can be combined without bound.", "anchors": ["libff/entry.py:77-81", "libff/entry.py:195-198", "libff/arguments.py:318-319", "libff/walk.py:143-149"]}
{"id": "C130", "title": "The array of --json is whole, whatever the processes do", "statement": "With --json standard output has at every moment a beginning of the array of all records, although worker processes are forked while the array is being written. When ff ends without an exception it is the whole array. A reader of JSON never accepts less than the whole array. Whatever happens, what is printed in the end can be read.", "quantifier": "all lists of records, all ways in which json.dump cuts them into pieces, all sizes of the buffer, terminals and files, all numbers of processes, all interleavings and all moments of an exception or interrupt", "why_tests_cant": "Whether a copy of the buffer is printed by a forked process depends on when processes are started and end; a test sees one interleaving and one moment.", "anchors": ["libff/console.py:86-106", "libff/walk.py:65-74", "libff/main.py:182-191", "libff/main.py:257-304", "libff/processing.py:342-352"]}
{"id": "C131", "title": "Exit status 0 means that the whole output has been written", "statement": "When ff prints lines of text and ends with exit status 0, every line of every result has been written, those of a chunk in their order, even if writes fail because the reader goes away or the disk is full. What has been written is always a part of the output, each line at most once. After a failed write no process takes more work and ff ends. If everything is read there are no complaints. A reader that goes away early (ff | head) makes ff end without complaints.", "quantifier": "all chunks of lines, all numbers of processes, all interleavings of the processes, all sequences of failing and successful writes, all sizes of the buffer", "why_tests_cant": "When a write fails depends on the reader and on the schedule; a test sees one moment. The last flush happens after the code of ff has ended.", "anchors": ["libff/console.py:241-253", "libff/processing.py:177-182", "libff/processing.py:344-348", "libff/walk.py:76-134", "libff/walk.py:233-237", "libff/main.py:257-322", "libff/context.py:116-128"]}
{"id": "C132", "title": "An iteration over a query of the Python API yields every result, and leaves nothing behind", "statement": "An iteration over a Find object yields results only and none of them twice. When the loop ends without an exception, every result has been yielded, also if a process of the search has failed meanwhile. When the loop is left early the search ends.", "quantifier": "all trees, all predicates, all numbers of processes, all interleavings of the processes, all moments at which the loop is left", "why_tests_cant": "Whether a failing process loses results depends on the schedule, and processes that are left behind are invisible to the program that iterates; a test can only see that they live for as long as it waits.", "anchors": ["libff/find.py:112-134", "libff/processing.py:395-452", "libff/walk.py:76-134", "libff/context.py:116-128"]}
{"id": "C133", "title": "Exit status 1 means that there were no search results", "statement": "As the manual page says, ff ends with exit status 1 only if --fail was given and there were no search results; a search with --fail that comes to its end has status 1 just if nothing matches. An interrupt from the keyboard stops all processes and can be told from a search without results by the exit status.", "quantifier": "all trees, all predicates, all modes of output, all numbers of processes, all interleavings, all moments of an interrupt", "why_tests_cant": "A test would have to interrupt the program at every moment of every schedule.", "anchors": ["libff/main.py:257-322", "libff/exceptions.py:23-54", "bin/ff:34", "man/ff.1:562", "libff/processing.py:118-122"]}
{"id": "C134", "title": "Find leaves the query of the caller as it is", "statement": "Constructing a Find object does not change the query that is passed to it, in whatever form, so that the same query can be used again with the same meaning. At most names of directories are removed from it, and the search is made from the same tests and directories as on the command line.", "quantifier": "all queries (none, text, list), all lists of directories, all file systems", "why_tests_cant": "Whether a list is changed depends on which of its elements are directories, and the effect appears only in a later call.", "anchors": ["libff/find.py:58-98", "libff/arguments.py:241-272", "libff/parser.py:102"]}
