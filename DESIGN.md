# Design of the machine-checked model of ff

Prover: Rocq/Coq 8.16.1, standard library only.  Everything is in
`rocq/theories`, logical path `Verif`.

## Method

* The Python functions are transcribed branch by branch into total Gallina
  functions.  Every definition carries a comment with the file and the lines
  it transcribes; deviations are stated in the same comment.
* Exceptions are values: `res A := Ok a | Err e` with one constructor per
  exception class that can reach the user.
* Strings are `list N` (code points).  Python's character classification
  (`str.upper`, `str.lower`, `\s`, `\w`, `\d`, `str.isdigit`) is tabulated
  exactly for code points below 256; beyond that characters count as caseless
  non-space non-word characters.  This is part of the trusted base.
* Regular expressions used by ff are transcribed literally into the AST of
  `Re.v`, which models the backtracking `re` engine (ordered alternatives,
  greedy/lazy repetition, captures, `^`, `$` including its match before a
  trailing newline).
* Concurrent parts (walker processes, result collection, command threads,
  stop queue, cache processes) are labelled transition systems in which every
  interleaving is a run; theorems are invariants over all reachable states.
* Specifications are in files `*Spec.v`.  They do not use functions of the
  model; some import its data types (records of options, attributes).
* Property theorems are in files `P_*.v`; these contain only theorems closed
  by `exact`, examples showing that the hypotheses can be met, and
  `Print Assumptions`.
* A property that is false of the code is refuted by a theorem
  `..._refuted` with a concrete witness, and the strongest true restriction is
  proved beside it as `..._partial`.

## Plan per property

| Property | Model | How proved |
|---|---|---|
| C01, C02 | `ParserModel`: token list parser | grammar relation in `GrammarSpec`; parser accepts and evaluates every derivation; exact characterisation of the accepted language; refutation of C02 by `{{ or a }}` |
| C03, C04, C05 | parser tree evaluation, optimiser, excluder | induction on trees; permutation invariance of any/all |
| C06 | `expression_regex` in `Re` | engine lemmas, round trip |
| C07, C08 | `TypeModel` | arithmetic / bit lemmas over Z |
| C09 | `Mode.parse_mode` | bitwise spec; single clause proved, clause lists refuted |
| C10-C13 | `TypeModel`, `create_test` | case analysis |
| C14, C15 | `ConvertModel` durations | induction over digits and units |
| C16 | `ConvertModel` sizes with a round-to-nearest-even double model | exactness below 2^53 |
| C17, C18 | `GlobModel` (translate + engine) | component-wise spec; language equivalence; for all paths whatever (slashes in sets, newlines) a spec of the text that is matched (`GlobSpec.TextMatch`), of which the component-wise one is a corollary if no set can match a slash |
| C19-C21 | `IgnoreModel` | last match wins; permutations of listings; refutations |
| C22, C23, C24 | `PathModel`, `EntryModel` | string induction |
| C25, C26 | `EntryModel` | bit masks; longest prefix |
| C27-C32 | `ArgsModel` | fuel sufficiency; equivalence of vectors |
| C33-C37, C66 | `ArgumentsModel` | reduction to the parser theorems; slicing lemmas; case analysis |
| C38-C42 | `WalkModel` | multiset invariants over all schedules; clock and timeouts; a measure that every work step decreases |
| C43-C47 | `SortModel`, `CountModel` | stable sort; an invariant of the dictionary of counts; printing as a list lemma |
| C67 | `FieldModel` | induction over the digits |
| C49, C50 | `WalkModel` (workers, exit status), `PoolModel` (threads) | counting invariants |
| C51 | `StopModel` | counting invariant; refuted for every number of jobs |
| C48 | `BatchModel` | a measure that every turn decreases; what is passed is a prefix |
| C52, C53 | `TemplateModel` | an inductive reading of templates, total and unique; the regular expression splits accordingly |
| C54-C56, C68 | `ConsoleModel`, `JsonModel` | cells as a relation; an invariant of the colour rules; a reader of JSON (RFC 8259) reads the output back |
| C57-C62 | `CacheModel` | a transition system of processes, files and transactions; invariants of its histories; injectivity of an encoding; the LIKE pattern as a relation |
| C63, C64 | `RegistryModel` | case analysis, order independence |
| C65 | `ApiModel` | refinement to a meaning without state (`ApiSpec.meaning`), by an invariant of the process state |
| C69 | `FieldModel` | a declarative syntax, unique readings; relational semantics of the regular expression |
| C70-C72 | `TimeModel` | declarative texts and a calendar (`TimeSpec`); every format of strptime is proved sound and complete for its texts; formats are told apart by counting separators |
| C73, C74 | `HumanModel` | an invariant of the loop with the exact quotient and an error bound in rational numbers; rounding to a double keeps the order (`rn_mono`) |
| C75, C76 | `SearchModel` | composition: the arguments are rewritten as in C33-C37, the tests mean what C06-C12 and C17 say (`SearchSpec.Sat`), the tree gives the entries of C22-C25, the processes are those of C38-C41; the meaning (`SearchSpec.Reported`) does not mention the rewriting, the parser, the optimiser or the processes |
| C77, C78 | `ReferenceModel` | comparison of texts of absolute paths is reduced to the lists of names (`ArgumentsSpec.place`); equality with the entry of `SearchModel`; C78 composes C77 with the tests of C07-C12 and C64 |
| C79 | `LinkModel` | the location meant by a link; paths up to repeated slashes |
| C80, C81 | `GitModel` | an invariant of the memo table over all sequences of entries; induction on the path upwards; the lines of git as a printer |
| C82, C83 | `OutputModel` | composition of C75/C76 with C43-C45 (sorting), C34 (limits), C54, C55, C67, C68 (lines), C56 (JSON) and C46, C47 (counting): the entries that arrive are the entries to be reported, all of them meet the assumptions of those theorems |
| C84 | `OutputModel` | induction on the list of fields; the attributes of `file_plugin` are all accepted by the syntax of fields |
| C85 | `AttributeModel` | case analysis over the attributes of the plugin; the values of the operating system are arguments; gives the hypothesis `honest` of C75, C76 and C82 for the real attributes |
| C86 | `AttributeModel` | the conversion of nanoseconds to a float by rational arithmetic with rounding to nearest (53 bits), bounds on the error |
| C87 | `AttributeModel` | an invariant of the memo tables over all sequences of questions |
| C88 | `PluginModel` | refinement of reading lines to an inductive description of texts; composed with `Sat` of C75 |
| C89, C90, C91 | `PluginModel` | induction on lines, syntax trees and lists of packages against separate descriptions |
| C92, C93, C94 | `PluginModel` | case analysis; the read loop gives a division of the contents (induction on fuel, which suffices) |
| C95 | `FieldModel`, `TextSpec` | case analysis; the digits of a number by induction on fuel, which suffices |
| C96, C97, C98 | `ActionModel` | composition of C76 with the templates (C52, C53), sorting (C43-C45), the pool of threads (C50), batches (C48) and records (C54-C56) |
| C99 | `CarryModel` | the tree with lists of ignore files is the image of the tree of C75 under a map that keeps the order; then C75/C76 with the plugin's values, and C19 for single entries |
| C100 | `MediaModel` | the dictionary of tracks as "first of its kind"; induction on the general tracks; dictionaries by their answers |
| C101 | `MediaModel` | paths as lists of names (C36); the table by computation |
| C102 | `MediaModel` | induction on the keys; the first "=" of a line |
| C103 | `AttributeModel` | case analysis on the mode; tests by C75 |
| C104 | `AttributeModel` | `ParentDevice` by induction on the place; the first change of device on the way |
| C105 | `ConsoleModel` | the dictionary as "last item for a key" (induction from the right); the extension as what follows the last dot (C37) |
| C106 | `ConsoleModel` | two passes as one relation, induction on the length; the relation is deterministic |
| C107 | `ArgsModel`, `ConsoleModel` | the default counts if nothing changes it (C30) |
| C108 | `PresentModel` | what the post-processing of arguments keeps (C38, C39), then case analysis |
| C109 | `TestModel`, `GlobModel` | the flag "anchored" of a pattern is set by a slash inside, induction on the text |
| C110 | `ShlexModel`, `ArgumentsModel` | refinement: the automaton of shlex accepts exactly the grammar `Words`; induction on the derivation and on the length of the text |
| C111 | `ArgsModel` | tables transcribed from the manual in `OptionSpec`; the reading of `pre ++ [option]` from that of `pre` (`run_split`), then one item changes one destination |
| C112 | `StartModel`, `ArgsModel`, `ArgumentsModel`, `TestModel`, `ParserModel`, `TemplateModel`, `FieldModel` | which exceptions each phase can raise, by induction over tokens (`ps_error`) and lists; types of all settings from a table (`parse_fits`); false in general, refuted by witnesses |
| C113 | `LoadModel`, `RegistryModel` | loading as a fold over events (classes, broken files); first occurrence (`Loaded`), monotony in the list of directories, invariance under permutation by swapping neighbours |
| C114 | `MainModel` on top of `StartModel`, `PresentModel`, `SearchModel`, `WalkModel`, `OutputModel`, `ActionModel` | composition: what the start leaves behind (`start_ready`), warnings change only output and sort (`process_form`), so that C82, C96, C97 and C108 apply; bounds of the number of processes as an invariant of the option parser; how the options become arguments is a relation of its own (`Taken`), and C114_case says what --case does |
| C115 | `HelpModel` (on `TypeModel`, `FieldModel`) | own reading of roff lines (`unroff`, `shown`) as inverse; highlighting as a relation `Dec` (only fonts and backquotes differ) closed under concatenation; words as a homomorphism over blanks; pages by induction over plugins |
| C116 | `WrapModel`, `LogModel` | `ink` (a text without white space) is a homomorphism that splitting, cutting and dropping blanks keep; the chunks get smaller, so the fuel suffices; the tags of a process as a fold over its calls |
| C117 | `UsageModel` on `WrapModel`, `HelpModel`, `ArgsModel` | the first line of a filled text begins with the first character, so `lstrip` removes the indentation only; the paragraphs of the list by induction with the level as invariant (0 or 4); the table by a checker that is proved sound |
| C118 | `ListsModel` on `UsageModel`, `HelpModel`, `TimeModel` | wrapping depends on the lines without their trailing blanks only, so the list of codes is one of options with a number as the name (C117); formats: `wrap` never joins them, the pattern as an inductive relation that is shown to be a function |
| C119 | `ElfModel` on `PluginModel` | the names as an inductive relation over sections and entries; a sorted permutation for the order of code points, which is unique |
| C120 | `SearchModel` (with `ParserModel`, `TestModel`, `TypeModel`, `EntryModel`, `TimeModel`) | what each example is said to find, on the bits of the mode, the size, the path and the lists of strings; expressions written in two ways token by token (`Same`) |
| C121 | `TraceModel` on `ParserModel` | the tests made, as a list: fastest first (`FastestFirst`, a sorted stable permutation) up to the one that decides (`Until`), for tests, for operands with brackets, for alternatives and for -e |
| C122 | `SearchModel` on `WalkModel` | laws between runs of searches whose arguments differ in one thing: OR, AND, NOT, directories, ranges of --depth, tests of -e, options that only take away; from the description of the results in C76 |
| C123 | `ArgumentsModel` on `ParserModel` | for words whose brackets belong together (`Balanced`, an own specification) the accepted language with --depth and its meaning, from the grammar having one reading only; the rest is refuted |
| C124 | `SearchModel` on `WalkModel` | two trees that agree on the way to an entry (`Agree`); -e against a search for its test (`Way`); the options in short have the same runs as -e; from the description of the results in C76 |
| C125 | `PrintModel` | a transition system of processes with buffers that write to one standard output; invariant of all histories: a log of whole lines, of each process a prefix of its lines, and how far the process is; witnesses with torn lines |
| C126 | `PrintModel` | escapes as a relation on characters (`Shown`), numerals by `Digits`; injectivity from that of the encoding in C57-C62 |
| C127 | all of C76's models | two runs of the search (as in C122) compared; equivalence of expressions by their truth functions (`Equivalent`), results as multisets (`Permutation`); each run is a permutation of what the tree holds, and both runs have the same filters pointwise |
| C128 | `FollowModel` | a file system as numbered objects with links and permissions; which names lead where as a relation (`Reach`, counting links); soundness and completeness of the tree against it, termination by the limit of links and the depth of directories; witnesses for links that are lost and for files that are seen many times |
| C129 | `FollowModel`, `MountedModel` | devices of the files to which the steps of a way lead (`Within`), on top of C128; witness with a start directory that is a link |
| C130 | `ArrayModel`, `PrintModel` | a transition system of the main process with its buffer and of forked copies of it; invariant: written text, pending calls, buffer and remaining program make up the array, copies are empty; the reader of C56 is monotone in its input, so that no beginning of an array is read; witnesses for an exception and for forks without a flush |
| C131 | `PipeModel` | a transition system of processes that take chunks and print, over an arbitrary sequence of failing writes; induction backwards over the run shows that the output is a merge of the chunks as long as nobody has failed; a measure bounds all runs and those after a failure; witnesses for a reader that goes away and for long lines |
| C132 | `IterModel` | the transition system of C38-C41 with collected results, and its continuation without the main process once the loop is left; completeness for the exit code that is never looked at; an invariant of the processes that are left behind; witnesses for lost results and for an abandoned search |
| C133 | `InterruptModel` | how the program ends, as a function of the last state of the transition system of C38-C41; the meaning of status 1 from the invariants of C50; a witness that is interrupted after its first result |
| C134 | `QueryModel` | the query as the caller finds it after the constructor of Find; the search agrees with C36; a list that means another search when it is used again |

## What is modelled so far

| Code | File | Not covered |
|---|---|---|
| `re` (compile, match, search, split on the subset of the syntax used) | `Re.v` | back references, lookaround, named groups, flags other than ignore-case; an unsupported construct gives `CUnmodelled`, never a wrong answer.  Python's check for duplicate group names is not modelled. |
| joining patterns with a bar | `ReJoin.v` | only patterns without capturing groups |
| double arithmetic (round to nearest even) of `parse_size` | `FloatLib.v` | subnormals (not reachable from decimal numerals with the units used), NaN |
| libff/convert.py:47-130 | `ConvertModel.v` | the 4300 digit limit of `int()` |
| libff/convert.py:27-46, libff/type.py:390-393 | `HumanModel.v` | `round(x, 1)` and the format `.1f` of CPython are taken to be correctly rounded, ties to even, as documented in floatobject.c; numbers that are not integers |
| libff/convert.py:133-181, `float()`, `datetime.strptime` and the date arithmetic used | `TimeModel.v` | digits outside of ASCII, which Python accepts; the subtraction of a duration from the clock is exact (it is one of doubles); the time zone (`timestamp`), the clock and `datetime.now()` are parameters |
| libff/parser.py:110-253, libff/filter.py | `ParserModel.v` | |
| libff/path.py, libff/entry.py | `PathModel.v`, `EntryModel.v` | realpath, `mount`, user and group lookup |
| libff/parser.py:30-49, 168-187, 235-322, libff/type.py | `ExprModel.v`, `TypeModel.v`, `TestModel.v` | `Type.output`, `sort`, `count`; parameters listed under "Trusted base" |
| libff/registry.py:109-150, 172-216, 275-315, libff/builtin/file.py:40-86 | `RegistryModel.v` | importing plugin modules; `init_plugin` is a parameter |
| libff/argparse.py:36-199, 300-475, libff/arguments.py:44-171 | `ArgsModel.v` | help and usage texts (in `UsageModel.v`), `Namespace.__repr__`, types of values not used by an option of the table; `multiprocessing.cpu_count`, the cache directory and the colour default are parameters |
| libff/arguments.py:174-331, libff/processing.py:228-235 | `ArgumentsModel.v` | `shlex.split` (for C110 it is `ShlexModel.v`), FF_OPTIONS, sys.argv, `os.path.isdir` and the current directory are parameters |
| libff/arguments.py:334-357, libff/main.py:62-148, 181-209, 217-240, libff/exceptions.py:23-83 | `StartModel.v` | the cache (main.py:83-92) is left out, showing help is taken to succeed; `init_plugin` raises only BadPluginError and re.compile only re.error (hypotheses of C112; RecursionError and OverflowError of re.compile are left out) |
| libff/main.py:62-123, 152-180, 242-301, libff/processing.py:157-265, 342-392 as a whole | `MainModel.v` (put together from the models of the parts) | results are printed by one function of those that have arrived; with --count they arrive in one chunk (C82 has any chunks); the pool of threads is that of `PoolModel`, the system's answers to calls of -X are a parameter; the terminator of lines (C106) is left out |
| libff/registry.py:60-145, libff/plugin.py:54-74 | `LoadModel.v` | executing a plugin file is a parameter (its objects, or an exception); which types an attribute may have is part of the flag `sound`; an OSError in the middle of a listing is left out |
| CPython Lib/shlex.py:133-268 (`shlex.split`, posix, no comments) | `ShlexModel.v` | only the branches that the default arguments of `split` reach; the text is already decoded |
| libff/processing.py:237-250, 259-336 | `CountModel.v` | `json.dump` itself: the dictionary given to it is what counts |
| libff/field.py:183-303 | `TemplateModel.v` | |
| libff/processing.py:355-392 | `BatchModel.v` | `subprocess.run`: its outcome is a function of the arguments and the number of the attempt |
| libff/console.py:29-224, 226-239, 255-327, libff/field.py:79-109, libff/processing.py:153-187, 342-352, libff/main.py:242-255 | `ConsoleModel.v` | encoding errors of `print` (in `PrintModel.v`), verbose messages, `os.readlink`; that `isalpha()` is asked of LS_COLORS keys does not matter and is left out |
| libff/console.py:78-83, 112, 241-253 and below it what CPython's `TextIOWrapper` and `BufferedWriter` do | `PrintModel.v` | encodings with a state; --profile; JsonConsole (in `ArrayModel.v`); what an overflowing buffer writes is left open; short writes and signals |
| libff/console.py:86-106, libff/walk.py:65-74, libff/main.py:182-191, 257-304 (the order of writing and forking) | `ArrayModel.v` | --profile; the loop between forking and the first record, which does not print |
| libff/console.py:241-253, libff/processing.py:177-182, 344-348, libff/walk.py:76-134, 233-237, libff/main.py:257-322 | `PipeModel.v` | the chunks of lines are given, for --json and --count also what is written when (`PrintModel`); a record of --jsonl is a line; no --exec, --profile, interrupts; one write per line |
| libff/find.py:112-134, libff/processing.py:395-452 | `IterModel.v` | the records made of the entries are those of C98; sorting; exceptions while records are made; the daemon processes are killed when the program ends |
| libff/main.py:257-322, bin/ff | `InterruptModel.v` | the messages; interrupts before the search and while results are put out; BrokenPipeError (C131) |
| libff/find.py:58-98 | `QueryModel.v` | arguments other than the query and the directories |
| `json.dump` with default arguments, on the records written | `JsonModel.v` | transcribed from CPython's json.encoder; floating point numbers (no attribute is one) |
| libff/cache.py, libff/registry.py:234-263, libff/plugin.py:52-99, libff/main.py:90, 121 | `CacheModel.v` | sqlite (see "Trusted base"), the 500 row and 30 second limits before a commit (a commit may happen after any lookup), `can_handle` (a call that does not reach the cache) |
| what a process keeps between API queries: libff/registry.py:41-58, 109-170, 203-284, libff/cache.py:67, 98-105, libff/main.py:76-142, libff/find.py:54-130, libff/processing.py:395-452, libff/builtin/ignore.py:38-79 | `ApiModel.v` | the rows of the cache (C57), `lru_cache` of `get_data` (it only memoises within a query), optimize_for_slow_plugins, the caches of user names and mount points, plugins' own class attributes |
| os.path.normpath/abspath/dirname/join | `OsPath.v` | transcribed from CPython's posixpath |
| libff/ignore.py | `GlobModel.v`, `IgnoreModel.v` | reading files: a function from paths to lines is a parameter; decoding errors |
| libff/builtin/ignore.py, libff/walk.py:139-169, libff/main.py:153-167 | `IgnoreModel.v` | the two caches of the plugin: see `ApiModel.v` (`C65_ignore_unnoticed`) |
| libff/walk.py:76-133, 182-243, libff/context.py:59-83, 95-126, 145-186, libff/processing.py:89-140, 165-226, 237-250, libff/main.py:153-176, 257-322 | `WalkModel.v` | the file system is a tree given in advance (every directory is scanned at most once); `scan_directory` is in it; the tests are functions; profiling; the order of output lines within a write; BrokenPipeError; that a check for dead processes happens only every ten seconds; the counters of commands (they are the numbers of commands in `ran`) |
| libff/walk.py:135-210, libff/entry.py:398-401 on a file system with links (which `SearchModel.v` takes as a tree) | `FollowModel.v` | nothing changes meanwhile; paths are lists of names below a start directory; what the text of a link leads to, and through how many links, is part of the file system; the limit of links in a path is a parameter |
| libff/entry.py:77-81, libff/walk.py:143 for start directories that may be links | `MountedModel.v` | as for `FollowModel.v`; which file the path of a start directory names is a parameter |
| libff/main.py:134-180, libff/walk.py:135-180, libff/registry.py:275-284 for the plugin "file" | `SearchModel.v` | attributes of `file` that `EntryModel` does not have are a parameter (`other`), so are the other plugins (`plugin_value`); a tree without entries that cannot be accessed; ignore files (`-I` is the test ignored=yes); the tests of C75 and C76 may contain references (`reference_value` is a parameter) and `%` with patterns for strings and for paths (`GlobSpec.path_form`) |
| libff/entry.py:72-81, 95-117, libff/parser.py:252-253 | `ReferenceModel.v` | `os.stat` is a parameter; the link attributes of the reference |
| libff/entry.py:133-140 | `LinkModel.v` | `os.readlink`, `os.path.realpath`, `os.path.exists` are parameters |
| plugins/git.py | `GitModel.v` | git itself: the lines it prints for a repository are a parameter and do not change; names with characters that end a line for `str.splitlines` |
| libff/processing.py:39-86, 363-366 | `PoolModel.v` | exceptions in a thread other than those `run_exec_process` catches |
| libff/context.py:68, 134-143 | `StopModel.v` | |
| libff/field.py:29-121, libff/type.py (`output`, `count`), libff/attribute.py:24-36 | `FieldModel.v` | the human readable forms (`filemode`, `format_size`, `format_time`) are a parameter |
| libff/field.py:124-180, libff/type.py (`sort_key`), libff/processing.py:252-257 | `SortModel.v` | list.sort: the model raises TypeError if any two keys cannot be compared, CPython only if it compares two such keys; superscripts beyond Latin-1 |
| libff/main.py:95-105, libff/registry.py:304-309; libff/processing.py:246-300 (how the parts work together) | `OutputModel.v` | as for its parts; the output is the list of lines, not the stream |
| libff/entry.py:221-326, 340-384, 433-446 | `AttributeModel.v` | the answers of `os.stat`, `pwd`, `grp`, `os.scandir`, `os.path.ismount` and the table of mounts are arguments; time stamps are seconds and nanoseconds, `st_mtime` is 1e-9 * ns + s in double precision (as CPython computes it); `hide` and `path` of other models |
| libff/registry.py:217-284; libff/builtin/grep.py:35-51, libff/builtin/mime.py:50-68; plugins/introspect.py:83-156, plugins/pacman.py:38-59, plugins/tar.py:41-59, plugins/hash.py:32-46 | `PluginModel.v` | contents of files, syntax trees (`ast`), output of pacman, results of libmagic, tarfile and hashlib are arguments; the cache is that of C61; the check of types of debug mode is left out |
| libff/processing.py:80-86, 204-208, 252-257, 355-389 and libff/find.py:101-126, libff/processing.py:395-452 (how the parts work together) | `ActionModel.v` | as for its parts; what a command does is not modelled; ignored exit statuses |
| libff/walk.py:135-181, 210, libff/main.py:152-180, libff/builtin/ignore.py:28-86 (lists of ignore files handed down the tree) | `CarryModel.v` | the two memo tables of the plugin are in `ApiModel.v` |
| libff/main.py:107-118, 242-255 after libff/arguments.py:193-331 | `PresentModel.v` | fields are represented by their names |
| libff/builtin/media.py:58-127, plugins/fs.py, plugins/xattr.py | `MediaModel.v` | what pymediainfo, mimetypes, statfs and the xattr calls answer are arguments; floating point division by 1000 is exact; `str.lower` beyond Latin-1 |
| libff/help.py:57-252, 282-421, libff/registry.py:317-347 | `HelpModel.v` | the header line, the included texts and the docstrings are arguments; the regular expression of `process` is written out as a scanner (nothing in it needs backtracking); man(1) itself is not modelled, `HelpSpec` reads the lines; types are the built-in ones |
| libff/logger.py:28-94, libff/__init__.py:55 and textwrap.TextWrapper.wrap as used there | `WrapModel.v`, `LogModel.v` | the splitting of a text into chunks (`TextWrapper._split`, a regular expression) is a parameter of which only `concat (split s) = s` is assumed; the reading of COLUMNS and the terminal size is a parameter of `output_width`; writing to stderr does not fail; tracebacks are arguments |
| libff/argparse.py:226-299, libff/arguments.py:44-171 (texts), libff/help.py:90-104 | `UsageModel.v` | what is printed before an exception; the splitting of texts as in `WrapModel.v`; `is_space` knows the white space of Latin-1 |
| libff/help.py:106-122, libff/exceptions.py:23-83 | `ListsModel.v` | the classes found by `vars(exceptions)` as a table in the order of their definition; `re.sub` of the directives as a function |
| plugins/introspect.py:49-79 | `ElfModel.v` | pyelftools: its sections and entries and how it ends are arguments; `setup` |
| libff/filter.py:65-135 with a log of the tests made, libff/registry.py:300-303, libff/plugin.py:31-38 | `TraceModel.v` | which attributes of a plugin are computed together and cached (`PluginModel`, `CacheModel`): a test made is a call of `get_attribute_and_type` |

## Findings

Properties that are false of the code, with the theorem that shows it, and
defects met while modelling.

* C02: `{{ or a }}` is accepted (`C02_*_refuted`).
* C15, C16: malformed durations (`12x`, empty string, `1x2m`) are accepted; a
  size may end in a newline; `1YB` is rounded.
* C17: patterns match names with an additional trailing newline, because `$`
  does.
* C18: negated sets match the slash.  So do ranges such as `[!-~]`.
* C19: a broken pattern may swallow the next one when they are joined.  A
  pattern such as `[` alone makes `GitIgnore.__init__` raise `re.error`, which
  nothing catches: the search ends with a traceback.
* C20: with two ignore files in one directory the listing order decides.
* C21: the ignore file in the parent of a start directory is not found unless
  the start directory is `.` or is written with a trailing slash, since
  `dirname` is applied twice.
* C09: the permissions of all clauses are collected first and then applied to
  the last "who": `u=rw,g=r` means 660.  `X` has no effect.  Text after a clause
  is ignored (`u+x!`).
* C12: under `-O`, which `bin/ff` uses, `empty=ture` is accepted and means
  false, because the check is an `assert`.
* C30: an optional value in FF_OPTIONS (`FF_OPTIONS="-S"`) takes the first test of
  the command line as its value.
* C31: the `choices` of an option are never enforced; `--depth=x` and `--jobs=x`
  raise `ValueError`, which nothing catches.
* Command line, not covered by a property: an unbalanced quote in FF_OPTIONS is
  an uncaught `ValueError` of `shlex`; `-RS` sorts by the empty field; `-aD dir`
  gives the start directory ""; `-xab` gives the command `-a -b`; `1:2\n` is
  accepted as a limit; two groups of positional arguments with an option between
  them are refused.
* C33: the tests of the user are wrapped in `{{ }}` without being checked, so
  `ff -d1 'a' '}}' or '{{' b` is accepted and `b` is not restricted to depth 1;
  `ff -d1 and` is refused although `ff and` is not.
* C36: a directory at the start of the tests hides those at their end, and a
  directory in the middle is taken if it is written again at the end.
* C37: `-D a -D a` is accepted and lists everything twice; so is `-D //a -D
  //a/b`; symbolic links are not followed.
* C39: the end of the search is decided by timeouts.  If `queue.get` raises
  queue.Empty in all workers although the feeder thread of one has not yet
  written a chunk to the pipe (10 ms), all meet at the barrier and the chunk is
  lost (`C39_refuted_early`).  An OSError in a test, e.g. because a file was
  removed, drops the remaining entries of the directory
  (`C39_refuted_error`), but nothing elsewhere (`C39_errors_partial`,
  `C41_errors_partial`).
* C41: the main process, too, decides by timeouts: its `get` ends, a worker
  sends results, waits for 10 ms and meets it at the barrier
  (`C41_refuted`).  With exact timeouts this cannot happen
  (`C41_collected_partial`), but there is no slack: both timeouts are the same
  10 ms.
* C45: natural sorting raises TypeError for `a/b1` and `a.b.c` with `path:v`,
  since a number is compared to a list of extensions, for a missing attribute
  beside a present one, and for numbers (`size:v`); it raises ValueError for
  names such as `1²`.  Numbers in extensions are compared as text: `x.r10` is
  before `x.r9`.
* C46: `--count size,file.size` counts the size twice (fields are equal if their
  attributes are, and the loop is over the fields); of `size` and `size:h` only the
  last is printed, since the results are stored by name; without results no
  `_total` is printed.  Human readable times may coincide when clocks are set
  back, then a count is lost.
* C47: `--count ext` fails with TypeError if there are the extensions `1` and
  `txt`, because the sort key is a number for one and a text for the other;
  likewise hexadecimal depths 1 and a, times before and after 1970.  The exact
  condition is `C47_iff_partial`.
* C48: a result that is too long alone for the command line ends the loop
  (`len(entries) // 2` is 0): neither it nor any result after it is passed, the
  exit status is 0 and there is no message (`C48_refuted`).
* C52: a placeholder in the command does not count as one: `-x {}` runs the path
  with the path as argument.  A name in braces may contain opening braces and
  ends at the next closing one; a single brace that encloses nothing is text.
* C54: with `--colour=always` (or a terminal) and LS_COLORS unset the rules are an
  empty dictionary, `colorize` raises KeyError and the console takes it for a
  missing attribute: directories, executables, symbolic links and everything in a
  directory are not printed (`C54_refuted`).
* C55: an empty cell, because the attribute is missing, is not padded
  (`C55_missing_refuted`).
* C68: the path of a file directly in the root directory is printed as `//name`;
  in JSON it is `/name` (`C68_refuted`).
* C50: if a command fails with --halt while the main process is about to check
  the workers, it takes a stopped worker for a crashed one: exit status 4, not 3
  (`C50_refuted`).  Of a failed command and a crash the later one determines the
  status.
* C51: the queue has room for `jobs` items but `jobs + 1` processes may ask for
  a stop at the same time, e.g. with one job a failing command and an
  interrupt; then one blocks for ever (`C51_refuted`, for every number of jobs).
* C57: a process that sets up another version of a plugin drops the table
  while other processes use it; these then fail with `OperationalError`
  (`C57_refuted`).  A file that changes between lstat and the plugin's reading
  and is later restored with its time has wrong data for ever, even though data
  is a function of path and tag (`C57_unsteady_refuted`).
* C58: the tag is the modification time in whole seconds, so a second change
  within one second is not noticed (`C58_refuted`).  Outside the model: plugins
  that accept symbolic links tag with the time of the link.
* C60: keys are encoded with `backslashreplace`, so an undecodable byte and
  its escape sequence share a key (`C60_refuted`).
* C61: `--clean-cache` runs `vacuum` with an open transaction, which sqlite
  refuses; so it fails exactly if there is something to remove, and removes
  nothing (`C61_fails`).  Rows of undecodable names always count as stale
  (`C61_undecodable_refuted`).  Outside the model: `--no-cache --clean-cache`
  calls a method that `NullCache` lacks.
* C62: the pattern for old tables is `plugin_NAME_%`; in LIKE the underscore
  matches any character, so the tables of `tarball` go when `tar` is set
  up (`C62_refuted`).  The plugins that come with ff are not affected
  (`C62_shipped`).
* C63: of two plugins with the same name the one found first is used, in
  directory order.
* C64: types of plugins that share a mixin class in front of `Type` are
  comparable.
* C65: plugins stay set up for the life of the process but their table is
  created only in the cache file of the query that first used them; a later query
  with another cache file fails (`C65_cache_refuted`, `C65_other_cache_refuted`).
  After a broken plugin file made the first query fail, the second one runs
  with no attributes at all and yields empty records (`C65_broken_refuted`).
  Ignore files read for output attributes are never read again
  (`C65_ignore_refuted`).  A plugin with cache whose setup failed once can never
  be set up again, because of an assertion (`C65_setup_refuted`).
* C70: of the eight documented forms of a time, the three without dashes and
  colons never denote a time: every string of digits is taken as seconds since
  1970 before the formats are tried (`C70_compact_refuted`).  A date that does
  not exist is the current time if a letter follows, and so is the empty string
  (`C70_rejected_refuted`).
* C71: a local time that happens twice is printed but only one of the two is
  read back (`C71_twice_refuted`); years before 1000 are printed without
  padding and not read back (`C71_early_refuted`).
* C73, C74: for sizes of 1000^9 bytes and more the number is divided a ninth
  time although there is no unit above Y: 1000^9 bytes are `1.0YB`
  (`C73_huge_refuted`, `C74_huge_refuted`).  The properties are limited to
  smaller sizes.
* C72: a time of day that was left out when the clock was put forward lies in
  the future (`C72_last_refuted`).
* C76: a search that ends normally can have reported nothing
  (`C76_refuted`: the cause is that of C39).
* C77: a reference given by its name alone is rejected unless it is below a
  search directory, because the directory part is empty and `os.stat("")` fails
  (`C77_bare`): `ff 'size={}README' src`.  With `/` as the search directory depth
  and samedev of the reference are those of a search in its own directory, since
  the prefix compared is `//` (`C77_refuted`).  With `-a` the path of a reference
  is not absolute, those of the entries are.
* C78: a reference to an attribute that is a list ends with an uncaught
  `AttributeError` (`C78_lists`).
* C79: the target of an absolute link is looked for below the directory of the
  link, because `libff.path.join` does not know absolute paths; the link counts
  as broken (`C79_absolute`, `C79_refuted`).
* C80: below a start directory such as `//x` the plugin recurses for ever
  (`C80_two_slashes`).
* C81: changed files whose names git quotes (blanks in the status; other than
  ASCII characters everywhere) and renamed files are not dirty (`C81_refuted`).
* C86: in the last nanosecond of a second the attribute is one too large, because
  the float is rounded up (`C86_refuted`); before 1970 `int` rounds a time with a
  fraction up (`C86_before_refuted`).
* C88: `grep.lines=v` is true only for a last line that is not ended, because the
  lines keep their newline (`C88_equal_refuted`).
* C89: the first of all lines that start with `#!` is taken, not only the first
  line (`C89_refuted`).
* C90: `import a, b` lists `a` only, `from . import m` nothing, and relative
  imports of two or more levels get a wrong name (`C90_*_refuted`).
* C91: files are looked for by the path as found, not by the absolute path; blanks
  at the end of a name are lost (`C91_*_refuted`).
* C92: `tarfile.ReadError` (a file `x.tar` that is no archive), `hexdigest` of
  `shake_128` and `shake_256` and `ValueError` of `ast.parse` (null bytes, before
  Python 3.12) end the search (`C92_*_refuted`).
* Not covered by a property: `tar.members` is a set; it cannot be written as JSON
  (`TypeError`), and sorting by it compares sets by inclusion.
* Not covered by a property: the plugin py opens every file to look for a shebang,
  named pipes, too, where opening waits.
* Not covered by a property: the manual page says that `KiB`, `MiB` etc. have
  base 1000, the code uses 1024 (C16).
* C101: the plugin fs asks for `os.path.abspath` of a path, which takes `..`
  out of the text.  In `ff fs.type=ext4 link/../src`, `link` a symbolic link to a
  directory elsewhere, that is another directory or none; in the latter case
  `OSError` is not caught and ends the search.  A single file that is a mountpoint
  itself has the file system of its directory.
* C102: `os.getxattr` failing for one key drops all following keys.  A key may
  contain "=", so that `user.a=b` with value `c` looks like `user.a` with value
  `b=c`.
* C104: `Entry.mount` (entry.py:341-357) compares devices, so a directory of the same file
  system that is bound elsewhere (`mount --bind`) is not a mount point although
  /proc/mounts lists it.
* C105: of a key such as `*.tar.gz` only the last extension is used
  (console.py:279-290), so its colour goes to every `.gz`; keys without a dot
  (`*~`, `*README`) are not used; `.c` does not have the colour of `*.c`.  Field
  `name` of a directory has the colour of its extension and not `di`.  A broken
  link without rule `or` has no colour, dir_colors(5) would use `ln`.
* C107: the manual page says that NO_COLOR wins "regardless of ff(1)'s
  options", but it only changes the default of --color (arguments.py:126-128):
  `NO_COLOR=1 ff --color=always` is coloured.
* C99: without -I the ignore files above the start directory are not read
  (main.py:153-167), so that `ff ignored=no` and `ff -I` differ.
* C109: `Path.test` (type.py:167-181) compares a pattern without a slash with
  the name of the entry, whatever the attribute is: `dir%src` finds files called
  src, `namex%a` does not find a.py, `link%...` and `target%...` look at the name
  of the link.
* Not covered by a property: an ignore file is opened in text mode and
  `GitIgnore.__init__` raises `UnicodeDecodeError` (not an `OSError`) for one
  that is not UTF-8.  The plugin only catches `OSError`, so that with -I one
  such file ends the whole search.
* Not covered by a property: `name%[` raises `re.error` at match time;
  `--case ignore` changes `\S` to `\s` in regular expressions; the value of a
  test keeps trailing blanks.
* Not covered by a property: `a**/b` is tokenised as `a`, `**/`, `b`, so it
  matches `a` followed by any directories; a trailing `/**` matches the directory
  itself, too, but `a/**/**` does not match `a`;
  `/**` alone matches on the top level only.
- C112: some wrong arguments end ff with a traceback and status 1 (the status of `--fail` without results) instead of a message: FF_OPTIONS with an open quotation (ValueError of shlex), a bad number for `-j` or `-d` (ValueError, not an ArgumentError), an operator or a bracket as an exclusion, `-e '('` (main.py:144-148 are outside of the `try`), and a test of a list with a reference, `lines:{}file` (AttributeError: a list has no `lower`). C112_traceback_partial: there are no other cases.
- C113: a plugin of the user with an attribute `lines` makes the short name `lines` an error (C113_short_refuted), so an option in FF_OPTIONS or a script that worked before fails; two plugins of the same name in one directory (the case of the class name does not count) are chosen by the order of os.scandir (C113_order_refuted).
- C115: a help text or docstring that begins with a dot or a single quote is not shown, it becomes a roff request, and backslashes begin escapes (C115_text_refuted, C115_quote, C115_backslash). `ff --help-attributes` and `--help-plugins` end with an AttributeError if one plugin class has no docstring (C115_no_docstring); `--help <plugin>` does not. The type of lists is called `listofstrings` in the pages (man/ff.7:200) although type.py:227 calls it `string[]`: `__init_subclass__` overwrites the name.
- C116: OUTPUT_WIDTH is the number of columns minus 2, so with one or two columns (`COLUMNS=2`) textwrap raises ValueError, and every message, errors included, ends in a traceback (C116_narrow_refuted, C116_narrow_raises). `tags_emitted` is copied when a process is forked, so a tagged warning (ignore.py:64) appears once per worker, not once per run (C116_once_refuted); it is an attribute of the class, so a second `Find` in the same process does not show it at all.
- C117: `ff --help` ends in ValueError with one or two columns (C117_narrow_refuted). An option whose names are exactly 25 characters long would have no blank before its help text (C117_gap_refuted, argparse.py:262 tests `> 25`); no option of the table has (C117_gap_partial). A name in capitals without a dash would become a section of the manual page (C117_manual_capitals).
- C118: the manual page shows `YY-mm-dd` for a format that needs a year of four digits, `24-01-31` is refused (C118_year_refuted, help.py:108). An exception that nobody catches ends Python with status 1, which the page explains as no search results.
- C119: an exception of pyelftools that is neither OSError nor ELFError is not caught by the elf plugin and stops ff (C119_total_refuted).
- C120: of the three examples for "files executable by the user" only `type=f perm:u+x` finds these: `perm:700` misses files that the user cannot also read and write, `exec=yes` finds files that only group or others can execute, and also fifos, sockets and devices (C120_executable_refuted).  `size+=100M`, said to find files "bigger than 100 megabytes", finds those of exactly 100 MiB too (C120_big_refuted); `mtime+={}foo`, "newer than foo", finds foo itself (C120_newer_refuted); `members:setup.py`, archives with "a file called setup.py", finds an archive that only has mysetup.py (C120_members_refuted).  `name%*.txt` also finds names with a newline behind .txt (C120_glob).
- C121: the score of a group in brackets is the sum of the scores of its tests (libff/parser.py:222-223), so three tests of normal speed in brackets are made after a slow one; the slow plugin reads files that the group would have ruled out (C121_operands_refuted).  The promise holds for tests that are not in brackets and for groups of tests of the file plugin, whose score is 0.
- C123: --depth puts the words of the user between `{{` and `}}` (libff/arguments.py:301-304) before they are known to be an expression.  `ff -d 1 a '}}' or '{{' b` is therefore accepted, although `ff a '}}' or '{{' b` is not, and matches at every depth; `ff -d 1 or a` is accepted and matches everything within the depth; `ff and` is accepted, `ff -d 1 and` is not (C123_refuted).
- C125: a line longer than the buffer of standard output (8192 bytes; `-o` with long attributes, JSON records with all attributes) goes out in more than one system call, and the line of another process can get in between (C125_long_refuted).  On a terminal standard output is line buffered, so the line of a name with a line break goes out in two (C125_terminal_refuted).
- C126: `_write_line` catches the UnicodeEncodeError, but replaces what the encoding of the file system lacks, not what that of standard output lacks.  With `PYTHONIOENCODING=ascii` and a UTF-8 file system a name with an umlaut raises the error again and ends the process (C126_refuted).  The escapes are not escaped: the name `\udcff` and the byte 255 look the same (C126_distinct_refuted).
- C128: With `-L` a symbolic link that leads nowhere is not seen at all: `os.stat` fails with FileNotFoundError, which `scan_directory` takes for a file that has vanished.  So `ff -L broken=yes` finds no such link (`C128_broken_refuted`); `find -L` falls back to the link itself.
- C128: With `-L` there is no check for loops; only the limit of links in a path (40 in Linux) ends the search.  In a directory with two links to itself each file is seen 2^40 times with 40 links in its path alone (`C128_once_refuted`), that is, the search does not end in practice.  `find -L` reports a loop.
- C128: The files of a directory that can be listed but not searched (r without x) are passed over without a warning, although their names are known.
- C129: `StartDirectory` asks for the status of a start directory with lstat unless -L is given, but `os.scandir` follows the link.  So if `link` leads to a directory of another file system, `ff --one-file-system ./link` searches that directory and takes everything in it for a different file system: nothing is found (`C129_link_refuted`).  A slash at the end does not help, since `os.path.normpath` takes it away from such an argument (libff/arguments.py:252).
- C130: `JsonConsole.__init__` prints the opening bracket when the processing is set up, before the start directories are looked at and the processes are started, and the closing one only in `close`.  After an exception or an interrupt a lone `[` is left (`C130_failed_refuted`), e.g. `ff --json -D missing`.
- C130: The bracket is not flushed before the processes are forked, each of which has a copy of the buffer and flushes it at its end.  That it is printed once is due to multiprocessing, which happens to flush before each fork (`C130_flush_refuted`: without it the output is `[[]`).
- C131: `Main.walk` catches BrokenPipeError, but this does not make `ff | head` quiet.  Unless results are held back the processes print themselves, and there the exception is an unexpected one: a traceback, the message that the result is probably incomplete and exit status 4 (`C131_quiet_immediate_refuted`).  With --sort the exception is caught, but the line is still in the buffer of sys.stdout and the interpreter fails to flush it at its end: a message and exit status 120 (`C131_quiet_collected_refuted`).
- C131: A line that is longer than the buffer of sys.stdout is not kept when writing it fails, so that with --sort ff ends with exit status 0 although nothing has been written (`C131_long_refuted`).
- C132: `Find.__iter__` never looks at the exit code of the context.  If a process fails, for instance because of an exception of a plugin, the search stops, there is a traceback on stderr, but the loop of the caller just ends: results are missing and no exception tells so (`C132_silent_refuted`).
- C132: If the caller leaves the loop early, GeneratorExit is raised at the `yield`, and only KeyboardInterrupt is handled: `stop` and `close` are not called.  The processes finish the whole search and then poll for as long as the program lives, since the barrier waits for the main process (`C132_given_up_refuted`, `C132_remain`, `C132_polls`).
- C133: With -O, as it is installed, an interrupted ff ends by `SystemExit("keyboard interrupt")`, for which Python's exit status is 1: the documented status of --fail without results, also without --fail and after results have been printed (`C133_refuted`).
- C134: `Find(query=["src/", "type=f"], directories=[])` removes `src/` from the list of the caller, the only list that is not copied; the next search with the same list is made in the current directory instead (`C134_again_refuted`).

## Trusted base

* The Coq kernel (8.16.1) and its standard library.  `vm_compute` is used for
  closed computations.
* `Print Assumptions` stands beneath every property theorem; it prints "Closed
  under the global context" for each of them, that is, no theorem depends on an
  axiom, neither an own one nor one of the library.
* The transcriptions listed above and the tables of characters.
* Parameters of the model (section variables, universally quantified in the
  theorems): compiling and searching a user's regular expression (`rcompile`,
  `rsearch`), the clock and the time zone (`parse_time`; in `TimeModel.v` `timestamp`, `now`, `clock`), initialising a plugin (`init_plugin`),
  attribute values of a reference file (`reference_value`; defined in
  `ReferenceModel.v` from `os.stat`) and of an entry
  (`get`), human readable numbers and times (`human`),
  `os.path.isdir` and the current directory, reading ignore files.  The theorems hold for every behaviour of them, except that they
  cannot have effects on each other or depend on time between two calls.
* The concurrent models: a step of a process is what it does between two
  operations on something shared; `multiprocessing.Queue` loses nothing and does
  not fix the order of items of several processes; the barrier lets processes
  pass only if all are there; `qsize` is exact.  `prompt` (queue.Empty is raised
  only if nothing has been put that was not taken) and `punctual` (timeouts are
  exact) are assumptions about the runtime that the theorems name as hypotheses;
  the runtime promises neither.

* Standard output: a system call `write` is complete and not interrupted by that
  of another process (on a pipe POSIX promises this for up to PIPE_BUF bytes);
  TextIOWrapper and BufferedWriter write only on overflow, flush or, if line
  buffered, a line break; decoding what was encoded gives the same text.
  multiprocessing flushes standard output before a fork and when a child ends
  (popen_fork.Popen.__init__, BaseProcess._bootstrap in CPython).
  A BufferedWriter keeps what it could not write if it fits into its buffer and
  drops it otherwise; if the flush at the end of the interpreter fails the exit
  status is 120 (documentation of sys.exit).
  SystemExit with a text gives exit status 1, an unhandled KeyboardInterrupt ends
  the interpreter by SIGINT (C133).  If the caller leaves a loop over a generator,
  GeneratorExit is raised at its yield, and daemon processes live until the
  program ends (C132).

* Links (C128): path_resolution(7) as in `FollowModel.resolve`; a path fails with
  ELOOP if it passes more links than the limit; every object but a directory has
  a mode that says so (`sane`); no path is longer than PATH_MAX.

* The cache: a sqlite transaction happens completely or not at all and only one
  at a time; a connection works in a forked child; `create table if not exists`
  and the drops of one `init_table` happen without a step of another process in
  between; a lock that is not released in time is `OperationalError`.  Faithful
  pickling is a hypothesis of the theorems that need it.

## Mutation log

`seeded/LOG.jsonl` has one line per wrong program.  `theorems_failed` lists the
property theorems whose proof no longer goes through in the mutant (the build
is continued as far as dependencies allow); `counterexample_in_mutant` is a
closed goal that was computed in the mutant and `contradicts` names the
theorem whose statement it makes false.  Entries with a note "no longer provable" come
from a faster run, which stops at the first lemma whose proof fails and on which
a property theorem depends; `theorems_failed` are the theorems that use it.

An entry with an empty `theorems_failed` is a survivor.  The script that wrote
most of the log left survivors out until shortly before the end; those for which
the output of a run was still there have been added, with the note "survived",
so the ratio of the lines before that does not say how often theorems failed.
Survivors of runs whose output is gone are missing, unless a theorem was
tightened because of them.  A note "survived at first" marks mutants that were
tried again at the end, against theorems added since, and failed then; not all
survivors have been tried again.

## Not modelled

* The libraries that the plugins use (libmagic, pymediainfo, tarfile, hashlib,
  ast, pyelftools), man(1) and all of roff(7) beyond `HelpSpec`, profiling.
* The Python interpreter, multiprocessing internals and sqlite: only the
  documented behaviour of the operations used.

## History of this document

This plan was written before the proofs but a failed shell command kept it out
of the repository: commit f4fb124 ("Add property list and design") contains
only `properties.jsonl`.  The file was first committed after the proofs of
C01-C05 (ccd8f44).  For those five properties the repository therefore holds
no design that precedes the proof; for C06-C26 it does.  From C27 on the rows for
a property came in the same commit as its proof.
