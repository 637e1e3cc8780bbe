(** C117: `ff --help` and the manual page list every option with its help text. *)
From Coq Require Import List NArith ZArith Bool.
From Verif Require Import Py ArgsModel WrapModel UsageModel HelpModel LogSpec HelpSpec UsageSpec UsageProofs LogProofs ManualProofs.
Import ListNotations.
Open Scope N_scope.

(** The options of the help text are those of the parser, in the same order. *)
Theorem C117_options : forall debug max_cpu cache color,
  map (fun o => (ho_strings o, ho_action o)) (entries (help_output debug)) =
  map (fun o => (o_strings o, o_action o)) (create_parser debug max_cpu cache color).
Proof. exact table_options. Qed.
Print Assumptions C117_options.
Example C117_options_example : In (HOpt [$"-1"] StoreConst None ($"Limit output to only the first entry.")) (entries (help_output false)) /\
  length (entries (help_output false)) = 40%nat /\ length (entries (help_output true)) = 42%nat.
Proof. split; [vm_compute; tauto|split; reflexivity]. Qed.

(** The full statement: the help text is shown on every screen.  It is false if
    there are only one or two columns. *)
Theorem C117_narrow_refuted : exists columns, (1 <= columns)%Z /\ forall split debug terminal,
  print_help split (output_width (Some columns) terminal) (help_output debug) = Err ValueError.
Proof.
  exists 2%Z. split; [discriminate|]. intros split debug terminal.
  apply (help_narrow _ _ _ (HOpt [$"tests"] Arguments (Some ($"<test/directory>"))
     ($"A test for file matching or a the path to a directory to search."))); [discriminate|]. right. now left.
Qed.
Print Assumptions C117_narrow_refuted.
(** On every other screen each group and each option is shown, in the order of
    the list: the names of the option in column 2, then its whole help text in
    column 27 in lines that are not longer than the screen. *)
Theorem C117_help_partial : forall split width, Splits split -> (0 < width)%Z -> forall l, Forall Begins l ->
  exists blocks, print_help split width l = Ok ($"usage: " ++ usage ++ [NL] ++ concat blocks) /\ Forall2 (Block width) l blocks.
Proof. exact help_blocks. Qed.
Print Assumptions C117_help_partial.
Theorem C117_help_ff_partial : forall split width, Splits split -> (0 < width)%Z -> forall debug,
  exists blocks, print_help split width (help_output debug) = Ok ($"usage: " ++ usage ++ [NL] ++ concat blocks) /\
  Forall2 (Block width) (help_output debug) blocks.
Proof. exact (fun split width S W debug => help_blocks split width S W _ (table_begins debug)). Qed.
Print Assumptions C117_help_ff_partial.
Example C117_help_example :
  print_help words_and_blanks 46 [Group ($"Output"); Entry (HOpt [$"-h"; $"--help"] StoreOptional (Some ($"<plugin>")) ($"Show this help or that of a plugin."));
    Entry (HOpt [$"--ignore-files"] Store (Some ($"<filename-list>")) ($"Names."))] =
  Ok ($"usage: " ++ usage ++ [NL; NL] ++ $"Output:" ++ [NL] ++
      $"  -h, --help [<plugin>]    Show this help or" ++ [NL] ++
      $"                           that of a plugin." ++ [NL] ++
      $"  --ignore-files <filename-list>" ++ [NL] ++
      $"                           Names." ++ [NL]).
Proof. vm_compute. reflexivity. Qed.

(** The full statement: there is a blank between the names of an option and its
    help text.  It is false for names that are 25 characters long. *)
Theorem C117_gap_refuted : exists o s, Begins (Entry o) /\ print_item words_and_blanks 78 (Entry o) = Ok ($"  " ++ head_text o ++ $"Help." ++ s).
Proof.
  exists (HOpt [$"-f"; $"--fractions"] Store (Some ($"<numbers>")) ($"Help.")), [NL]. split; [split; [discriminate|reflexivity]|].
  vm_compute. reflexivity.
Qed.
Print Assumptions C117_gap_refuted.
(** There is no such option. *)
Theorem C117_gap_partial : forall debug o, In o (entries (help_output debug)) -> length (head_text o) <> 25%nat.
Proof. exact table_gap. Qed.
Print Assumptions C117_gap_partial.
Example C117_gap_example : In (HOpt [$"-D"; $"--directory"] Append (Some ($"<path>"))
  ($"Search entries in this path (default is current directory). May be specified multiple" ++ $" times.")) (entries (help_output false)) /\
  head_text (HOpt [$"-D"; $"--directory"] Append (Some ($"<path>")) []) = $"-D, --directory <path>".
Proof. split; [vm_compute; tauto|reflexivity]. Qed.

(** The manual page: a list of options without line breaks and escapes, whose
    names do not begin with a capital letter, a colon or a dollar sign, becomes one tagged paragraph for
    each option, with the names as the tag, and a paragraph for each group. *)
Theorem C117_manual_partial : forall l, Forall Clean l -> forall text fuel,
  parse_lines text (S fuel) (splitlines (print_manpage_help l)) = inl (flat_map item_lines l) /\
  page_words (page_text (flat_map item_lines l)) = flat_map item_words l.
Proof. exact (fun l F text fuel => conj (manual_lines l F text fuel) (manual_words l F)). Qed.
Print Assumptions C117_manual_partial.
(** All others are not: a name without a dash in capital letters becomes a section. *)
Example C117_manual_capitals : parse_lines (fun _ => None) 1 (splitlines (print_manpage_help [Entry (HOpt [$"ALL"] StoreTrue None ($"FILES"))]))
  = inl [[]; $".SH     ALL  FILES"].
Proof. vm_compute. reflexivity. Qed.
(** The options of ff are of this kind, so every page that includes them has
    them all. *)
Theorem C117_manual_ff : forall debug other fuel lines p out, In p (wrap lines) -> Include p ($"help") ->
  parse_lines (include_text debug other) (S (S fuel)) lines = inl out ->
  exists a b, out = a ++ flat_map item_lines (help_output debug) ++ b.
Proof. exact page_options. Qed.
Print Assumptions C117_manual_ff.
Theorem C117_manual_words : forall debug,
  page_words (page_text (flat_map item_lines (help_output debug))) = flat_map item_words (help_output debug).
Proof. exact (fun debug => manual_words _ (table_clean debug)). Qed.
Print Assumptions C117_manual_words.
Theorem C117_usage : forall debug other fuel lines p out, In p (wrap lines) -> Include p ($"usage") ->
  parse_lines (include_text debug other) (S (S fuel)) lines = inl out -> exists a b, out = a ++ [process usage] ++ b.
Proof. exact page_usage. Qed.
Print Assumptions C117_usage.
Example C117_manual_example : wrap [$"OPTIONS"; $"    ::help"] = [$"OPTIONS"; []; $"    ::help"] /\ Include ($"    ::help") ($"help") /\
  firstn 2 (flat_map item_words (help_output false)) = [$"Global"; $"options:"] /\
  item_lines (Entry (HOpt [$"-0"; $"--print0"] StoreConst None ($"Separate results by the null character."))) =
  [[]; $".IP " ++ [34] ++ $"\fB-0, --print0\fR" ++ [34] ++ $" 4"; $"Separate results by the null character."; $".PP"] /\
  parse_lines (include_text false (fun _ => None)) 2 [$"SYNOPSIS"; $"    ::usage"] =
  inl [$".SH SYNOPSIS"; []; $"ff [<options>] [<test/directory> ... | \fB\-D\fR <directory> ...]"].
Proof.
  repeat split; try (vm_compute; reflexivity). exists ($"    "), []. split; [reflexivity|]. split; [reflexivity|]. split; [reflexivity|]. right. exists ($"hel"), 112. split; reflexivity.
Qed.
