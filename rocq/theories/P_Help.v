(** C115: the help pages say what they are given to say. *)
From Coq Require Import List NArith Bool Permutation Sorting.Sorted.
From Verif Require Import Py StrOrder TypeModel HelpModel HelpSpec HelpProofs HelpPageProofs HelpRuns.
Import ListNotations.
Open Scope N_scope.

(** Wrapping a template into paragraphs keeps its words and their order. *)
Theorem C115_wrap : forall lines, flat_map words (wrap lines) = flat_map words lines.
Proof. exact wrap_words. Qed.
Print Assumptions C115_wrap.

(** The full statement: every text is shown with all its words.  It is false, a
    text that begins with a dot is taken for a request; the same goes for a
    single quote, and a backslash begins an escape. *)
Theorem C115_text_refuted : ~ forall s, page_words (process s) = text_words s.
Proof. intros H. specialize (H ($".git is searched, too")). discriminate H. Qed.
Print Assumptions C115_text_refuted.
Example C115_quote : page_words (process ($"'f' is a file")) = [].
Proof. reflexivity. Qed.
Example C115_backslash : page_words (process ($"use a\b")) = [$"use"; $"a"].
Proof. reflexivity. Qed.

(** Every other text is: highlighting changes the font and nothing else. *)
Theorem C115_text_partial : forall s, Readable s -> page_words (process s) = text_words s.
Proof. exact process_words. Qed.
Print Assumptions C115_text_partial.
Example C115_text_example : Readable ($"See 'a b' in ff(1)'s --opt-x, `-x` or ``/tmp``.") /\
  process ($"See 'a b' in ff(1)'s --opt-x, `-x` or ``/tmp``.")
  = $"See '\fIa b\fR' in \fBff\fR(1)'s \fB\-\-opt\-x\fR, \fB\-x\fR or \fI/tmp\fR." /\
  page_words (process ($"See 'a b' in ff(1)'s --opt-x, `-x` or ``/tmp``."))
  = [$"See"; $"'a"; $"b'"; $"in"; $"ff(1)'s"; $"--opt-x,"; $"-x"; $"or"; $"/tmp."].
Proof.
  split; [apply (readable_check _ ($"See")); vm_compute; reflexivity|]. split; vm_compute; reflexivity.
Qed.

(** A template is shown with all its words, those of the included texts in the
    place of the markers. *)
Theorem C115_template_partial : forall text lines ws, Template text (wrap lines) ws ->
  exists n, forall fuel, (n <= fuel)%nat -> exists out,
    parse_lines text fuel lines = inl out /\ page_words (page_text out) = ws.
Proof. exact template_words. Qed.
Print Assumptions C115_template_partial.
(** Without markers, these are the words of the template. *)
Theorem C115_plain_partial : forall text lines,
  (forall p, In p (wrap lines) -> Definable p /\ forall name, ~ Include p name) ->
  forall fuel, exists out, parse_lines text (S fuel) lines = inl out /\ page_words (page_text out) = flat_map text_words lines.
Proof. exact template_plain. Qed.
Print Assumptions C115_plain_partial.
(** A marker that names nothing is never passed over. *)
Theorem C115_marker : forall text fuel lines p name, In p (wrap lines) -> Include p name -> text name = None ->
  forall out, parse_lines text fuel lines <> inl out.
Proof. exact template_fails. Qed.
Print Assumptions C115_marker.
Example C115_template_example :
  wrap ex_template = [$"OPTIONS"; $""; $"    ::help"; $""; $""; $"ENVIRONMENT"; $"";
    $"    FF_OPTIONS  Default options to use for every run."; $""; $"    $ ff --sort name"] /\
  Include ($"    ::help") ($"help") /\ ex_text ($"help") <> None /\ Include ($"    ::nothing") ($"nothing") /\ ex_text ($"nothing") = None /\
  (exists ws, Template ex_text (wrap ex_template) ws) /\
  exists out, parse_lines ex_text 3 ex_template = inl out /\
    page_words (page_text out) = [$"OPTIONS"; $"--all"; $"Show"; $"all"; $"files"; $"ENVIRONMENT"; $"FF_OPTIONS"; $"Default"; $"options";
      $"to"; $"use"; $"for"; $"every"; $"run."; $"$"; $"ff"; $"--sort"; $"name"].
Proof.
  split; [reflexivity|]. split; [|split; [discriminate|split; [|split; [reflexivity|split; [eexists; exact ex_template_ok|]]]]].
  - exists ($"    "), []. repeat split. right. exists ($"hel"), 112. split; reflexivity.
  - exists ($"    "), []. repeat split. right. exists ($"nothin"), 103. split; reflexivity.
  - eexists. split; vm_compute; reflexivity.
Qed.

(** The reference of the attributes describes every plugin and every attribute
    with its type and its operators, those of the file plugin first. *)
Theorem C115_attributes_partial : forall header registered, Header header ->
  (forall p, In p registered -> Documented p /\ h_doc p <> None) ->
  exists ps lines, Permutation registered ps /\ StronglySorted Before ps /\
    attributes_manpage header registered = Some lines /\
    page_words (page_text lines)
    = [$"DESCRIPTION"] ++ text_words attributes_description ++ flat_map section_of ps ++ [$"SEE"; $"ALSO"; $"ff(1)"].
Proof. exact attributes_page. Qed.
Print Assumptions C115_attributes_partial.
(** There is no page at all as soon as one plugin has no docstring. *)
Theorem C115_no_docstring : forall header registered p, In p registered -> h_doc p = None ->
  attributes_manpage header registered = None.
Proof. exact attributes_fail. Qed.
Print Assumptions C115_no_docstring.
Example C115_attributes_example : Header ex_header /\
  (forall p, In p [ex_elf; ex_file] -> Documented p /\ Detailed p /\ h_doc p <> None) /\
  StronglySorted Before [ex_file; ex_elf] /\
  section_of ex_file = [$"FILE"; $"PLUGIN"; $"Basic"; $"file"; $"attributes,"; $"see"; $"stat(2)"; $"and"; $"--all.";
    $"[file.]name"; $"Type:"; $"string"; $"("; $"="; $":"; $"~"; $"%"; $")"; $"The"; $"basename"; $"portion"; $"of"; $"the"; $"file";
    $"[file.]mode"; $"Type:"; $"mode"; $"("; $"="; $":"; $"~"; $")"; $"The"; $"mode"; $"and"; $"permission"; $"bits"; $"of"; $"the"; $"file."] /\
  (** the lines of man/ff.7:199-203 *)
  render_attributes ex_elf = [$".IP " ++ [34] ++ $"\fBelf.sonames\fR" ++ [34] ++ $" 4"; $"Type: listofstrings ( = : ~ % )"; $".br";
    $"The names of all shared objects that are linked in this executable file."; $""; $""] /\
  In ex_bare [ex_file; ex_bare] /\ h_doc ex_bare = None.
Proof.
  split; [exact ex_header_ok|]. split; [exact ex_documented|]. split.
  { repeat constructor. }
  repeat split; try (vm_compute; reflexivity). right. now left.
Qed.

(** The page of one plugin *)
Theorem C115_plugin_partial : forall header registered name p, Header header -> Documented p -> Detailed p ->
  find (fun q => str_eqb (h_name q) name) registered = Some p ->
  exists lines, plugin_manpage header registered name = Some lines /\
    page_words (page_text lines)
    = described_by (h_doc p) ++ [$"ATTRIBUTES"] ++ attributes_of p
      ++ [$"DETAILS"] ++ details_of p ++ author_of p ++ [$"SEE"; $"ALSO"; $"ff(1),"; $"ff(7)"].
Proof. exact plugin_page. Qed.
Print Assumptions C115_plugin_partial.
Theorem C115_unknown : forall header registered name,
  plugin_manpage header registered name = None <-> ~ In name (map h_name registered).
Proof. exact plugin_unknown. Qed.
Print Assumptions C115_unknown.
Example C115_plugin_example : find (fun q => str_eqb (h_name q) ($"file")) [ex_elf; ex_file] = Some ex_file /\
  details_of ex_file ++ author_of ex_file = [$"Name:"; $"file"; $"Source:"; $"builtin"; $"Path:"; $"/ff/file.py"; $"Uses"; $"cache:"; $"No";
    $"Author:"; $"A."; $"Author"; $"Email:"; $"a@example.org"; $"Url:"; $"https://example.org/ff-x"].
Proof. split; vm_compute; reflexivity. Qed.

(** The pages of the types and of the plugins *)
Theorem C115_types_partial : forall header doc registered, Header header ->
  (forall t, In t registered -> doc t <> None /\ forall d, doc t = Some d -> Readable d) ->
  exists ts lines, Permutation registered ts /\ StronglySorted (fun a b => str_leb (label a) (label b) = true) ts /\
    types_manpage header doc registered = Some lines /\
    page_words (page_text lines)
    = [$"DESCRIPTION"] ++ text_words types_description ++ flat_map (type_of doc) ts ++ [$"SEE"; $"ALSO"; $"ff(1),"; $"ff(7)"].
Proof. exact types_page. Qed.
Print Assumptions C115_types_partial.
Theorem C115_plugins_partial : forall header registered, Header header ->
  (forall p, In p registered -> Documented p /\ Detailed p /\ h_doc p <> None) ->
  exists ps lines, Permutation registered ps /\ StronglySorted (fun a b => str_leb (h_name a) (h_name b) = true) ps /\
    plugins_manpage header registered = Some lines /\
    page_words (page_text lines)
    = [$"DESCRIPTION"] ++ text_words plugins_description ++ flat_map listed_of ps ++ [$"SEE"; $"ALSO"; $"ff(1),"; $"ff(7)"].
Proof. exact plugins_page. Qed.
Print Assumptions C115_plugins_partial.
Example C115_types_example : type_of (fun _ => Some ($"Numbers of bytes.")) TSize
  = [$"SIZE"; $"TYPE"; $"Name:"; $"size"; $"Operators:"; $"+="; $"-="; $"+"; $"-"; $"="; $"Count:"; $"total"; $"Numbers"; $"of"; $"bytes."].
Proof. vm_compute; reflexivity. Qed.
