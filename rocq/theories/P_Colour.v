(** Properties C105-C107: colours and separators. *)
From Coq Require Import List NArith ZArith Bool Lia.
From Verif Require Import Py PathSpec EntrySpec PathModel EntryModel ArgsModel ArgsSpec ArgsMoreProofs ArgsTableProofs ConsoleModel ConsoleSpec NoColourProofs ColourSpec ColourProofs.
Import ListNotations.

(** C105.  Names and paths have the colours that LS_COLORS gives for the kind
    of file and its suffix.  Full statement: for all LS_COLORS and all fields;
    missing: suffixes that are not of the form *.x, names that begin with the
    only dot, and the name (alone) of a directory, for all of which it is false. *)
Theorem C105_names_partial : forall env follow e, env <> [] -> tidy env ->
  inside (e_dir (c_entry e)) (e_name (c_entry e)) (e_path (c_entry e)) -> ~ In SLASH (e_name (c_entry e)) ->
  exists s, render_name (Coloured (read_colours env)) follow e = Ok s /\ NameColour env follow e (s_value s).
Proof. intros env follow e H1 H2. exact (name_colour env H1 H2 follow e). Qed.
Theorem C105_paths_partial : forall env follow e, env <> [] -> tidy env ->
  inside (e_dir (c_entry e)) (e_name (c_entry e)) (e_path (c_entry e)) -> ~ In SLASH (e_name (c_entry e)) ->
  exists s, render_path (Coloured (read_colours env)) follow e false = Ok s /\ PathColour env follow e (s_value s).
Proof. intros env follow e H1 H2. exact (path_colour env H1 H2 follow e). Qed.
(** A key has at most one colour. *)
Theorem C105_unique : forall env k v w, Rule env k v -> Rule env k w -> v = w.
Proof. intros env k v w. exact (last_unique (split_on 58%N env) k v w). Qed.
Print Assumptions C105_names_partial.
Print Assumptions C105_paths_partial.
Print Assumptions C105_unique.

Definition ce (name : str) (mode : Z) (broken : bool) : centry :=
  CEntry (Entry (Start ($"a") ($"/a") 1) name (Status mode 1 1) ($"a/" ++ name) ($"/a/" ++ name) ($"a") name false) [] broken.
Definition shows (env : str) (e : centry) : res str :=
  match render_name (Coloured (read_colours env)) false e with Ok s => Ok (s_value s) | Err x => Err x end.
(** The rule for *.tar.gz colours b.gz. *)
Theorem C105_suffix_refuted : exists env e v, env <> [] /\
  (forall k w p, In p (split_on 58%N env) -> item k w p -> k = $"*.tar.gz") /\ ~ (exists b, e_name (c_entry e) = b ++ $".tar.gz") /\
  kind e = $"file" /\ ~ runs e /\
  shows env e = Ok (sequence v ++ e_name (c_entry e) ++ sequence ($"0")).
Proof.
  exists ($"*.tar.gz=31"), (ce ($"b.gz") 33188 false), ($"31"). split; [discriminate|]. split.
  - intros k w p [<-|[]] H.
    assert (I : item ($"*.tar.gz") ($"31") ($"*.tar.gz=31")) by (apply is_item; reflexivity).
    exact (proj1 (item_unique _ _ _ _ _ H I)).
  - split; [|split; [reflexivity|split; [intros (_ & _ & [K|[K|K]]); discriminate K|reflexivity]]]. intros [b E]. apply (f_equal (@length _)) in E. rewrite app_length in E.
    change (4 = length b + 7)%nat in E. clear - E. lia.
Qed.
(** The file .c has the suffix .c, but not the colour of *.c. *)
Theorem C105_hidden_refuted : exists env e v, env <> [] /\ tidy env /\ Rule env ($"*.c") v /\ v <> [] /\ e_name (c_entry e) = $".c" /\
  kind e = $"file" /\ ~ runs e /\ shows env e = Ok ($".c").
Proof.
  exists ($"*.c=31"), (ce ($".c") 33188 false), ($"31"). split; [discriminate|].
  assert (I : item ($"*.c") ($"31") ($"*.c=31")) by (apply is_item; reflexivity).
  split.
  - intros p k v [<-|[]] H. right. exists ($"c"). split; [exact (proj1 (item_unique _ _ _ _ _ H I))|].
    split; [discriminate|]. split; apply absent; reflexivity.
  - split; [|split; [discriminate|split; [reflexivity|split; [reflexivity|split; [intros (_ & _ & [K|[K|K]]); discriminate K|reflexivity]]]]]. exists [], ($"*.c=31"), []. split; [reflexivity|]. split; [exact I|]. intros q v' [].
Qed.
(** The name of a directory d.c has the colour of *.c, not that of directories. *)
Theorem C105_directory_refuted : exists env e v w, env <> [] /\ tidy env /\ kind e = $"directory" /\ Rule env ($"di") v /\ Rule env ($"*.c") w /\ v <> w /\
  shows env e = Ok (sequence w ++ e_name (c_entry e) ++ sequence ($"0")).
Proof.
  exists ($"di=34:*.c=31"), (ce ($"d.c") 16877 false), ($"34"), ($"31").
  assert (I1 : item ($"di") ($"34") ($"di=34")) by (apply is_item; reflexivity).
  assert (I2 : item ($"*.c") ($"31") ($"*.c=31")) by (apply is_item; reflexivity).
  split; [discriminate|]. split.
  - intros p k v [<-|[<-|[]]] H.
    + left. rewrite (proj1 (item_unique _ _ _ _ _ H I1)). reflexivity.
    + right. exists ($"c"). split; [exact (proj1 (item_unique _ _ _ _ _ H I2))|]. split; [discriminate|]. split; apply absent; reflexivity.
  - split; [reflexivity|]. split; [|split; [|split; [discriminate|reflexivity]]].
    + exists [], ($"di=34"), [$"*.c=31"]. split; [reflexivity|]. split; [exact I1|].
      intros q v' [<-|[]] H. discriminate (proj1 (item_unique _ _ _ _ _ H I2)).
    + exists [$"di=34"], ($"*.c=31"), []. split; [reflexivity|]. split; [exact I2|]. intros q v' [].
Qed.
Print Assumptions C105_suffix_refuted.
Print Assumptions C105_hidden_refuted.
Print Assumptions C105_directory_refuted.
Example C105_example :
  inside ($"a") ($"b.c") (e_path (c_entry (ce ($"b.c") 33188 false))) /\ ~ In SLASH ($"b.c") /\
  shows ($"or=9:ln=36:ex=32:*.c=1:*.c=31:rs=00") (ce ($"b.c") 33188 false) = Ok (sequence ($"31") ++ $"b.c" ++ sequence ($"00")) /\
  shows ($"or=9:ln=36:ex=32:*.c=31") (ce ($"b.c") 33261 false) = Ok (sequence ($"32") ++ $"b.c" ++ sequence ($"0")) /\
  shows ($"or=9:ln=36:ex=32:*.c=31") (ce ($"b.c") 41471 false) = Ok (sequence ($"36") ++ $"b.c" ++ sequence ($"0")) /\
  shows ($"or=9:ln=36:ex=32:*.c=31") (ce ($"b.c") 41471 true) = Ok (sequence ($"9") ++ $"b.c" ++ sequence ($"0")) /\
  shows ($"or=9:ln=36:ex=32:*.c=31") (ce ($"b.d") 33188 false) = Ok ($"b.d").
Proof.
  split; [right; right; repeat split; discriminate|]. split; [apply absent; reflexivity|].
  vm_compute. repeat split.
Qed.

(** C106: \t and \n in the separator stand for the characters, everything else
    for itself. *)
Theorem C106_separator : forall s t, Unescaped s t <-> field_separator s = t.
Proof. exact separator_spec. Qed.
Print Assumptions C106_separator.
Example C106_example : field_separator ($"a\t\\n\\tb\") = $"a" ++ [9%N; 92%N; 10%N; 92%N; 9%N] ++ $"b\".
Proof. vm_compute. reflexivity. Qed.

(** C107: NO_COLOR.  The default of --color (arguments.py:126-128) is never. *)
Section NoColour.
  Variable debug : bool.
  Variable cpus : Z.
  Variable cache : str.
  Notation options := (create_parser debug cpus cache ($"never")).
  Notation parse_args := (parse_args cpus options).
  (** The console's options, if --color is what was parsed *)
  Definition colour_of (ns : namespace) (o : chosen) : Prop := ns ($"color") = AStr (o_colour o).
  (** Full statement: regardless of the options.  Missing: -C or --color. *)
  Theorem C107_partial : forall argv ns items o, parse_args argv = Ok ns -> Reads options argv items ->
    untouched options (convert cpus) ($"color") items -> colour_of ns o -> console_class o <> ColorConsole.
  Proof. exact (NoColourProofs.no_colour debug cpus cache). Qed.
  Theorem C107_refuted : exists argv ns o, parse_args argv = Ok ns /\ colour_of ns o /\ o_isatty o = false /\ console_class o = ColorConsole.
  Proof.
    exists [$"--color=always"]. destruct debug; eexists; exists (Chosen false false false false false None ($"always") false);
      (split; [reflexivity|]; split; [reflexivity|]; split; reflexivity).
  Qed.
  Example C107_example : exists ns items, parse_args [$"type=f"; $"-v"] = Ok ns /\ Reads options [$"type=f"; $"-v"] items /\
    untouched options (convert cpus) ($"color") items /\ colour_of ns (Chosen false false false false false None ($"never") true).
  Proof. exact (no_colour_example debug cpus cache). Qed.
End NoColour.
Print Assumptions C107_partial.
Print Assumptions C107_refuted.
