(** The list of options in `ff --help` and in the manual page:
    /repo/libff/argparse.py:226-299, libff/arguments.py:44-171 and the part of
    libff/help.py:90-104 that includes them in the page. *)
From Coq Require Import List NArith ZArith Bool.
From Verif Require Import Py ArgsModel WrapModel.
Import ListNotations.
Open Scope N_scope.

(** What the help text uses of an Option (argparse.py:138-152) *)
Record hopt := HOpt { ho_strings : list str; ho_action : action; ho_metavar : option str; ho_help : str }.
(** help_output: names of groups and options (argparse.py:295-298, 322) *)
Inductive item := Group (name : str) | Entry (o : hopt).

(** argparse.py:231 *)
Definition usage : str := $"ff [<options>] [<test/directory> ... | -D <directory> ...]".

(** format_option (argparse.py:271-282) *)
Definition format_option (o : hopt) : str :=
  match ho_metavar o with
  | Some m =>
      match ho_action o with
      | Arguments => m
      | StoreOptional => join_with ($", ") (ho_strings o) ++ $" [" ++ m ++ $"]"
      | _ => join_with ($", ") (ho_strings o) ++ $" " ++ m
      end
  | None => join_with ($", ") (ho_strings o)
  end.
(** The format {s:25s} *)
Definition padded (s : str) : str := s ++ blanks (25 - length s).
(** print_usage (argparse.py:244-247) *)
Definition print_usage : str := usage ++ [NL].

Section Help.
  Variable split : str -> list str.
  Variable width : Z.
  (** print_help (argparse.py:249-269): one turn of the loop, and all of them.
      What was printed before an exception is not part of the result. *)
  Definition print_item (i : item) : res str :=
    match i with
    | Entry o =>
        let option_string := format_option o in
        do help_text <- fill split width (blanks 27) (blanks 27) (ho_help o);
        Ok (if Nat.ltb 25 (length option_string)
            then $"  " ++ option_string ++ [NL] ++ help_text ++ [NL]
            else $"  " ++ padded option_string ++ lstrip_p is_space help_text ++ [NL])
    | Group g => Ok ([NL] ++ g ++ $":" ++ [NL])
    end.
  Fixpoint print_items (l : list item) : res str :=
    match l with
    | [] => Ok []
    | i :: l => do a <- print_item i; do b <- print_items l; Ok (a ++ b)
    end.
  Definition print_help (l : list item) : res str :=
    do s <- print_items l; Ok ($"usage: " ++ usage ++ [NL] ++ s).
End Help.

(** print_manpage_help (argparse.py:284-293) *)
Definition manpage_item (i : item) : str :=
  match i with
  | Entry o => $"    " ++ format_option o ++ $"  " ++ ho_help o ++ [NL]
  | Group g => [NL] ++ $"    " ++ g ++ $":" ++ [NL]
  end.
Definition print_manpage_help (l : list item) : str := flat_map manpage_item l.

(** str.splitlines() *)
Definition is_sep (c : char) : bool := between 10 13 c || between 28 30 c || (c =? 133) || (c =? 8232) || (c =? 8233).
Fixpoint splitlines_from (cur : str) (s : str) : list str :=
  match s with
  | [] => match cur with [] => [] | _ => [rev cur] end
  | c :: t =>
      if is_sep c then
        rev cur :: match t with
                   | d :: t' => if (c =? 13) && (d =? 10) then splitlines_from [] t' else splitlines_from [] t
                   | [] => []
                   end
      else splitlines_from (c :: cur) t
  end.
Definition splitlines (s : str) : list str := splitlines_from [] s.

(** arguments.py:44-171: add_group and add_option, as far as the help text needs them *)
Definition help_output (debug : bool) : list item :=
  [Group ($"Global options");
   Entry (HOpt [$"tests"] Arguments (Some ($"<test/directory>"))
     ($"A test for file matching or a the path to a directory to search."))] ++
  (if debug then
    [Entry (HOpt [$"--profile"] StoreTrue None
       ($"Do a profiling run on the given arguments and suppress the output."));
     Entry (HOpt [$"--debug"] Store (Some ($"<categories>"))
       ($"Show debug messages. Specify either 'all', 'none' or a comma-separated list of" ++
        $" <categories>, default is to show 'none'."))]
   else []) ++
  [Entry (HOpt [$"--cache"] Store (Some ($"<path>"))
     ($"Location of the metadata cache, the default is ~/.cache/ff.db."));
   Entry (HOpt [$"--no-cache"] StoreConst None
     ($"Do not use the metadata cache."));
   Entry (HOpt [$"--clean-cache"] StoreConst None
     ($"Remove stale entries from the metadata cache."));
   Entry (HOpt [$"-j"; $"--jobs"] Store (Some ($"<num>"))
     ($"Set number of processes to use for searching and executing (default: the number of CPU" ++
      $" cores)."));
   Entry (HOpt [$"-D"; $"--directory"] Append (Some ($"<path>"))
     ($"Search entries in this path (default is current directory). May be specified multiple" ++
      $" times."));
   Group ($"Commands");
   Entry (HOpt [$"-h"; $"--help"] StoreOptional (Some ($"<plugin>"))
     ($"Show this help message or the help message for a particular plugin."));
   Entry (HOpt [$"--version"] StoreConst None
     ($"Show program's version number and exit."));
   Entry (HOpt [$"--help-full"] StoreConst None
     ($"Show a full help in man page format."));
   Entry (HOpt [$"--help-attributes"] StoreConst None
     ($"Show a list of available attributes to use for searching, sorting and output."));
   Entry (HOpt [$"--help-plugins"] StoreConst None
     ($"Show a list of available plugins."));
   Entry (HOpt [$"--help-types"] StoreConst None
     ($"Show a list of available types."));
   Group ($"Search options");
   Entry (HOpt [$"-e"; $"--exclude"] Append (Some ($"<test>"))
     ($"Exclude entries that match the given test."));
   Entry (HOpt [$"-H"; $"--hide"] StoreTrue None
     ($"Do not show hidden files and directories."));
   Entry (HOpt [$"-I"; $"--ignore"] StoreTrue None
     ($"Do not show files that are excluded by patterns from .{,git,fd,ff}ignore files."));
   Entry (HOpt [$"--no-parent-ignore"] StoreTrue None
     ($"Do not read patterns from ignore files from parent directories."));
   Entry (HOpt [$"--ignore-files"] Store (Some ($"<filename-list>"))
     ($"A comma-separated list of filenames that contain ignore patterns. Default is" ++
      $" .fdignore,.ffignore,.gitignore,.ignore."));
   Entry (HOpt [$"-d"; $"--depth"] Store (Some ($"<range>"))
     ($"Show only files that are located at a certain depth level of the directory tree that is" ++
      $" within the given <range>. A <range> is a string of the form '<start>-<stop>'. <start> and" ++
      $" <stop> are optional and may be omitted. <range> may also be a single number. It is" ++
      $" possible to specify multiple ranges separated by comma."));
   Entry (HOpt [$"-c"; $"--case"] Store (Some ($"<mode>"))
     ($"How to treat the case of text attributes (smart, ignore or sensitive)."));
   Entry (HOpt [$"-L"; $"--follow"] StoreTrue None
     ($"Follow symbolic links."));
   Entry (HOpt [$"--one-file-system"; $"--mount"; $"--xdev"] StoreTrue None
     ($"Do not descend into different file systems."));
   Group ($"Output options");
   Entry (HOpt [$"--fail"] StoreTrue None
     ($"Fail with exitcode 1 if there are no search results."));
   Entry (HOpt [$"-x"; $"--exec"] StoreRemainder (Some ($"<cmd>"))
     ($"Execute a command for each search result."));
   Entry (HOpt [$"-X"; $"--exec-batch"] StoreRemainder (Some ($"<cmd>"))
     ($"Execute a command with all search results at once."));
   Entry (HOpt [$"--halt"; $"--halt-on-error"] Store (Some ($"<when>"))
     ($"When to terminate in case one of the -x/--exec commands fails: *never*, soon, now."));
   Entry (HOpt [$"-C"; $"--color"] Store (Some ($"<when>"))
     ($"When to use colors: never, *auto*, always."));
   Entry (HOpt [$"-a"; $"--absolute-path"] StoreTrue None
     ($"Show absolute instead of relative paths."));
   Entry (HOpt [$"-0"; $"--print0"] StoreConst None
     ($"Separate results by the null character."));
   Entry (HOpt [$"-v"; $"--verbose"] StoreConst None
     ($"Produce output similar to `ls -l`."));
   Entry (HOpt [$"-S"; $"--sort"] StoreOptional (Some ($"<attribute-list>"))
     ($"Sort entries by path or any other attribute."));
   Entry (HOpt [$"-R"; $"--reverse"] StoreTrue None
     ($"Reverse the sort order."));
   Entry (HOpt [$"--count"] StoreOptional (Some ($"<attribute-list>"))
     ($"Count the attributes from <attribute-list> and print statistics, instead of the result," ++
      $" the default is to count the total size and the file types of the entries found. Add" ++
      $" --json for JSON output."));
   Entry (HOpt [$"-l"; $"--limit"] Store (Some ($"<slice>"))
     ($"Limit output to a slice of the search results. A <slice> is defined by either" ++
      $" '<start>:<stop>' or '<pagesize>,<page>'. In the first form both <start> and <stop> may be" ++
      $" omitted which means they default to the beginning and end of the list of results" ++
      $" respectively. If <start> or <stop> are negative their position is relative to the end of" ++
      $" the list. The second form creates a slice of <pagesize> results starting at a page offset" ++
      $" specified by <page> (starting with 0). Note: It is recommended to sort the result list" ++
      $" with -S/--sort when using this option, otherwise the order of results between consecutive" ++
      $" runs is probably inconsistent."));
   Entry (HOpt [$"-1"] StoreConst None
     ($"Limit output to only the first entry."));
   Entry (HOpt [$"-o"; $"--output"] Store (Some ($"<attribute-list>"))
     ($"Print each entry by using a template of comma-separated attributes. The special value" ++
      $" 'file' stands for all file attributes."));
   Entry (HOpt [$"--sep"] Store (Some ($"<string>"))
     ($"Separate each attribute of --output with <string>, default is a single space."));
   Entry (HOpt [$"--all"] StoreTrue None
     ($"Show all entries including the ones with missing attribute values."));
   Entry (HOpt [$"--json"] StoreConst None
     ($"Print attributes as one big json object to stdout."));
   Entry (HOpt [$"--jsonl"; $"--ndjson"] StoreConst None
     ($"Print attributes as jsonl (one json object per line) to stdout."));
   Entry (HOpt [$"--si"] StoreTrue None
     ($"Parse and print file sizes in units of 1K=1000 bytes instead of 1K=1024 bytes."))].
(** ManPage.include (help.py:90-104) for the names help and usage, the other
    texts are those of [other].  The parser is made anew. *)
Definition include_text (debug : bool) (other : str -> option (list str)) (name : str) : option (list str) :=
  if str_eqb name ($"help") then Some (splitlines (print_manpage_help (help_output debug)))
  else if str_eqb name ($"usage") then Some (splitlines print_usage)
  else other name.
