(** The help pages: /repo/libff/help.py:30-421 and the methods of the registry
    that choose what is on them (/repo/libff/registry.py:317-346).

    A page is the list of its lines ([self.lines]).  man(1), which shows the
    page, is not modelled; how roff(7) reads a line is in [HelpSpec].  The
    header carries the date, the version and the title (help.py:192-197); its
    text is a parameter. *)
From Coq Require Import List NArith Bool.
From Verif Require Import Py SortLib StrOrder TypeModel FieldModel.
Import ListNotations.
Open Scope N_scope.

(** bd, it, rs and br (help.py:32-35) *)
Definition bd : str := $"\fB".
Definition it : str := $"\fI".
Definition rs : str := $"\fR".
Definition br : str := $".br".

(** str.split() without arguments: [cur] is the word that is being read,
    backwards. *)
Fixpoint words_from (cur : str) (s : str) : list str :=
  match s with
  | [] => match cur with [] => [] | _ => [rev cur] end
  | c :: t =>
      if is_space c
      then match cur with [] => words_from [] t | _ => rev cur :: words_from [] t end
      else words_from (c :: cur) t
  end.
Definition words (s : str) : list str := words_from [] s.
Definition lstrip : str -> str := lstrip_p is_space.
Definition rstrip : str -> str := rstrip_p is_space.

(** s.split("  ", 1), None if there is nothing to split at *)
Fixpoint split_two (s : str) : option (str * str) :=
  match s with
  | [] => None
  | c :: t =>
      if starts_with [32; 32] s then Some ([], skipn 2 s)
      else match split_two t with Some (a, b) => Some (c :: a, b) | None => None end
  end.
(** s.split("\n\n") *)
Fixpoint paragraphs (s : str) : list str :=
  match s with
  | [] => [[]]
  | c :: t =>
      match t with
      | [] => [[c]]
      | d :: t' =>
          if (c =? NL) && (d =? NL) then [] :: paragraphs t'
          else match paragraphs t with [] => [[c]] | h :: r => (c :: h) :: r end
      end
  end.

(** ManPage.wrap (help.py:57-88): [level] and [text] are current_level and text.
    The yielded lines are the result. *)
Fixpoint wrap_from (current : nat) (text : str) (lines : list str) : list str :=
  match lines with
  | [] => match text with [] => [] | _ => [text] end
  | line :: rest =>
      let line := rstrip line in
      let level := (length line - length (lstrip line))%nat in
      let current' := match line with [] => current | _ => level end in
      if (Nat.ltb level current || (Nat.eqb current 0 && Nat.ltb 0 level) || is_sub [32; 32] (lstrip line))%bool
      then (match text with [] => [] | _ => [text] end) ++ [[]] ++ wrap_from current' line rest
      else match text with
           | [] => wrap_from current' line rest
           | _ => wrap_from current' (text ++ [32] ++ lstrip line) rest
           end
  end.
Definition wrap (lines : list str) : list str := wrap_from 0 [] lines.

(** The longest beginning whose characters satisfy p, and the rest *)
Fixpoint run_of (p : char -> bool) (s : str) : str * str :=
  match s with
  | [] => ([], [])
  | c :: t => if p c then let '(a, b) := run_of p t in (c :: a, b) else ([], s)
  end.
Definition is_letter (c : char) : bool := is_lower_az c || is_upper_AZ c.
(** [a-z_-] and [a-zA-Z-] *)
Definition is_page (c : char) : bool := is_lower_az c || (c =? 95) || (c =? 45).
Definition is_option (c : char) : bool := is_letter c || (c =? 45).

(** The alternatives of the regular expression in ManPage.process
    (help.py:178-182), tried in their order at one position of the string, with
    the text that [replace] (help.py:161-176) puts in place of the match and
    the number of characters matched.  Every repetition in it is followed by
    something that it cannot itself match, so there is nothing to backtrack
    to.  [\d] is taken to be the ASCII digits. *)
(** A text between two fences: fence, one or more characters other than stop, fence *)
Definition enclosed (fence : str) (stop : char) (out : str -> str) (s : str) : option (str * nat) :=
  if starts_with fence s then
    let '(a, rest) := run_of (fun c => negb (c =? stop)) (skipn (length fence) s) in
    match a with
    | [] => None
    | _ => if starts_with fence rest then Some (out a, length fence + length a + length fence)%nat else None
    end
  else None.
(** '(?!s\s)([^']+)' *)
Definition possessive (s : str) : bool :=
  match s with _ :: a :: b :: _ => (a =? 115) && is_space b | _ => false end.
Definition quoted (s : str) : option (str * nat) :=
  if possessive s then None else enclosed ($"'") 39 (fun a => $"'" ++ it ++ a ++ rs ++ $"'") s.
(** ``([^`]+)`` *)
Definition double_ticked : str -> option (str * nat) := enclosed ($"``") 96 (fun a => it ++ a ++ rs).
(** `([^`]+)` *)
Definition ticked : str -> option (str * nat) := enclosed ($"`") 96 (fun a => bd ++ a ++ rs).
(** ([a-z_-]+)(\(\d\)) *)
Definition reference (s : str) : option (str * nat) :=
  let '(a, rest) := run_of is_page s in
  match a, rest with
  | _ :: _, o :: d :: c :: _ =>
      if ((o =? 40) && is_d d && (c =? 41))%bool then Some (bd ++ a ++ rs ++ [o; d; c], length a + 3)%nat else None
  | _, _ => None
  end.
(** (?<![a-zA-Z])(\-[a-zA-Z]|\-\-[a-zA-Z-]+) *)
Definition option_ (prev : option char) (s : str) : option (str * nat) :=
  if match prev with Some p => is_letter p | None => false end then None else
  match s with
  | a :: c :: t =>
      if negb (a =? 45) then None
      else if is_letter c then Some (bd ++ [a; c] ++ rs, 2%nat)
      else if c =? 45 then
        match run_of is_option t with
        | ([], _) => None
        | (o, _) => Some (bd ++ a :: c :: o ++ rs, S (S (length o)))
        end
      else None
  | _ => None
  end.
Definition orelse {A} (a b : option A) : option A := match a with Some _ => a | None => b end.
Definition found (prev : option char) (s : str) : option (str * nat) :=
  orelse (quoted s) (orelse (double_ticked s) (orelse (ticked s) (orelse (reference s) (option_ prev s)))).

(** re.sub(..., replace, string): [skip] characters belong to the last match. *)
Fixpoint highlight (prev : option char) (skip : nat) (s : str) : str :=
  match s with
  | [] => []
  | c :: t =>
      match skip with
      | S k => highlight (Some c) k t
      | O =>
          match found prev s with
          | Some (out, n) => out ++ highlight (Some c) (Nat.pred n) t
          | None => c :: highlight (Some c) 0 t
          end
      end
  end.
(** string.replace("-", "\\-") *)
Definition escape (s : str) : str := flat_map (fun c => if c =? 45 then [92; 45] else [c]) s.
(** ManPage.process (help.py:155-185) *)
Definition collapse (s : str) : str := join_with [NL; NL] (map (fun p => join_with [32] (words p)) (paragraphs s)).
Definition process (s : str) : str := escape (highlight None 0 (collapse s)).

(** add, add_section, add_definition (help.py:187-190, 199-202, 209-212): the
    line that is appended *)
Definition add (s : str) : str := process s.
Definition add_section (s : str) : str := $".SH " ++ upper s.
Definition add_definition (s : str) : str := $".IP " ++ [34] ++ bd ++ s ++ rs ++ [34] ++ $" 4".

(** ManPage.parse_lines (help.py:124-153) without the includes: what is
    appended for one line of wrap, None for an include marker *)
Definition is_header (c : char) : bool := is_upper_AZ c || (c =? 32).
Definition parse_line (line : str) : option (list str) :=
  let line := rstrip line in
  if starts_with ($"::") (lstrip line) then None else Some (
  if (negb (match line with [] => true | _ => false end) && forallb is_header line)%bool then [add_section line]
  else if starts_with ($"$") (lstrip line) then [bd ++ line ++ rs]
  else match split_two (strip line) with
       | Some (key, value) => [add_definition key; add value; $".PP"]
       | None => [add line]
       end).
(** The includes (help.py:90-122): [text name] is the text that is parsed in
    place of the marker, None if there is none of that name, which is a
    ValueError.  [fuel] bounds the depth of includes in included texts; without
    it Python's stack does. *)
Inductive failed := NoInclude | TooDeep.
Fixpoint parse_lines (text : str -> option (list str)) (fuel : nat) (lines : list str) : list str + failed :=
  match fuel with
  | O => inr TooDeep
  | S fuel =>
      fold_right (fun line rest =>
        match match parse_line line with
              | Some l => inl l
              | None =>
                  match text (skipn 2 (lstrip (rstrip line))) with
                  | Some l => parse_lines text fuel l
                  | None => inr NoInclude
                  end
              end with
        | inl l => match rest with inl r => inl (l ++ r) | e => e end
        | inr e => inr e
        end) (inl []) (wrap lines)
  end.

(** Type.__init_subclass__ (type.py:77-80): the name is that of the class in
    lower case.  It is set after the body of the class was executed, so the
    name "string[]" that ListOfStrings gives itself (type.py:227) is lost. *)
Definition type_name (t : ty) : str :=
  match t with
  | TString => $"string" | TPath => $"path" | TFileType => $"filetype" | TListOfStrings => $"listofstrings"
  | TNumber => $"number" | TMode => $"mode" | TSize => $"size" | TTime => $"time" | TDuration => $"duration"
  | TBoolean => $"boolean"
  end.

(** What the pages use of a plugin (plugin.py:41-68): name, __doc__, which is
    None for a class without a docstring, the attributes and the details, each
    as the text that an f-string makes of it *)
Record hplugin := HPlugin { h_name : str; h_doc : option str; h_attributes : list (str * ty * str);
  h_source : str; h_path : str; h_use_cache : bool; h_author : str; h_email : str; h_url : str }.

(** ManPage.render_attributes (help.py:223-238) *)
Definition attribute_title (plugin attr : str) : str :=
  if str_eqb plugin ($"file") then $"[file.]" ++ attr else plugin ++ $"." ++ attr.
Definition attribute_lines (plugin : str) (a : str * ty * str) : list str :=
  let '(attr, t, help_text) := a in
  [add_definition (attribute_title plugin attr);
   add ($"Type: " ++ type_name t ++ $"  ( " ++ join_with [32] (operators t) ++ $" )");
   add br; add help_text; add []].
Definition render_attributes (p : hplugin) : list str :=
  flat_map (attribute_lines (h_name p)) (h_attributes p) ++ [add []].

(** ManPage.render_plugin_detail (help.py:240-252) *)
Definition detail (title text : str) : list str := [add (title ++ $": " ++ text); add br].
Definition render_plugin_detail (p : hplugin) (full : bool) : list str :=
  detail ($"Name") (h_name p) ++ detail ($"Source") (h_source p) ++ detail ($"Path") (h_path p)
  ++ detail ($"Uses cache") (if h_use_cache p then $"Yes" else $"No")
  ++ if full then detail ($"Author") (h_author p) ++ detail ($"Email") (h_email p) ++ detail ($"Url") (h_url p) else [].

(** A page, or None for the AttributeError of [process] (help.py:159) when it
    is given None, which is the __doc__ of a class without a docstring *)
Definition page := option (list str).
Definition pcat (a b : page) : page := match a, b with Some x, Some y => Some (x ++ y) | _, _ => None end.
Fixpoint pages {A} (f : A -> page) (l : list A) : page :=
  match l with [] => Some [] | x :: t => pcat (f x) (pages f t) end.
Definition add_doc (d : option str) : page := match d with Some d => Some [add d] | None => None end.

Section Page.
  (** ManPage.add_header (help.py:192-197): the .TH line, and .nh *)
  Variable header : str -> str.
  Definition add_header (title : str) : list str := [header title; $".nh"].
  (** ManPage.start (help.py:214-221); an empty description counts as none *)
  Definition start (title : str) (description : option str) : list str :=
    add_header title ++
    match description with
    | Some (c :: d) => [add_section ($"Description"); add (c :: d); add []]
    | _ => []
    end.

  (** AttributesManPage (help.py:282-316), for the plugins in the order of
      get_attributes_manpage (registry.py:332-337) *)
  Definition attributes_description : str := $"This is a list of all the attributes that are available. Attributes are provided by plugins. For more details on a specific plugin use 'ff --help <plugin>'. Please note that if you got this help text by using 'man 7 ff', the information you get is limited to the builtin plugins. Use 'ff --help-attributes' to get the full attribute list from all plugins that are available right now.".
  Definition render_plugin (p : hplugin) : page :=
    pcat (pcat (Some [add_section (h_name p ++ $" Plugin"); add []]) (add_doc (h_doc p)))
         (Some ([add []] ++ render_attributes p)).
  Definition page_key (p : hplugin) : str := if str_eqb (h_name p) ($"file") then [] else h_name p.
  Definition attributes_manpage (registered : list hplugin) : page :=
    pcat (pcat (Some (start ($"ff Plugin Attributes Reference") (Some attributes_description)))
               (pages render_plugin (isort (fun a b => str_leb (page_key a) (page_key b)) registered)))
         (Some [add_section ($"See Also"); add ($"ff(1)")]).

  (** PluginManPage (help.py:319-347) for get_plugin_manpage
      (registry.py:322-330): None is the UsageError for a name that is not
      registered. *)
  Definition plugin_manpage (registered : list hplugin) (name : str) : option (list str) :=
    match find (fun p => str_eqb (h_name p) name) registered with
    | None => None
    | Some p => Some (
        start (h_name p ++ $" Plugin Reference") (h_doc p)
        ++ [add_section ($"Attributes"); add []] ++ render_attributes p
        ++ [add_section ($"Details")] ++ render_plugin_detail p true
        ++ [add_section ($"See Also"); add ($"ff(1), ff(7)")])
    end.

  (** TypesManPage (help.py:350-387) for get_types_manpage (registry.py:344-347);
      [doc] are the docstrings. *)
  Variable doc : ty -> option str.
  Definition types_description : str := $"This is a list of all the types that are available. Furthermore, there is information about which test operators are supported by each type and if and how attributes of certain types will be counted ('ff --count').".
  Definition count_name (t : ty) : str :=
    match count_of t with COUNT => $"count" | TOTAL => $"total" | UNCOUNTABLE => $"uncountable" end.
  Definition render_type (t : ty) : page :=
    pcat (pcat (Some [add_section (type_name t ++ $" Type");
                      add ($"Name:  " ++ type_name t); add br;
                      add ($"Operators:  " ++ join_with [32] (operators t)); add br;
                      add ($"Count: " ++ count_name t); add []])
               (add_doc (doc t)))
         (Some [add []]).
  Definition types_manpage (registered : list ty) : page :=
    pcat (pcat (Some (start ($"ff Types Reference") (Some types_description)))
               (pages render_type (isort (fun a b => str_leb (type_name a) (type_name b)) registered)))
         (Some [add_section ($"See Also"); add ($"ff(1), ff(7)")]).

  (** PluginsManPage (help.py:390-421) for get_plugins_manpage
      (registry.py:339-342) *)
  Definition plugins_description : str := $"This is a list of all the plugins that are currently available. For more details on a specific plugin use 'ff --help <plugin>'.".
  Definition render_listed (p : hplugin) : page :=
    pcat (Some ([add_section (h_name p ++ $" Plugin")] ++ render_plugin_detail p false ++ [add []])) (add_doc (h_doc p)).
  Definition plugins_manpage (registered : list hplugin) : page :=
    pcat (pcat (Some (start ($"ff Plugins Reference") (Some plugins_description)))
               (pages render_listed (isort (fun a b => str_leb (h_name a) (h_name b)) registered)))
         (Some [add_section ($"See Also"); add ($"ff(1), ff(7)")]).
End Page.
