(** How a page is read: the part of roff(7) that the pages use, and what it
    means that a text can be read. *)
From Coq Require Import List NArith Bool.
From Verif Require StrOrder TypeModel.
From Verif Require Import Py HelpModel.
Import ListNotations.
Open Scope N_scope.

(** What is shown of a line of text: \f and one more character change the
    font, \- is a minus sign.  Any other escape is not part of this reading and
    shows nothing. *)
Fixpoint unroff (s : str) : str :=
  match s with
  | [] => []
  | c :: t =>
      if c =? 92 then
        match t with
        | [] => []
        | d :: u =>
            if d =? 102 then match u with [] => [] | _ :: v => unroff v end
            else if d =? 45 then 45 :: unroff u
            else unroff u
        end
      else c :: unroff t
  end.

(** Backquotes only mark what they enclose. *)
Definition unticked (s : str) : str := filter (fun c => negb (c =? 96)) s.
(** The words of a text *)
Definition text_words (s : str) : list str := words (unticked s).

(** A line that begins with a dot or a single quote is a request and not text. *)
Definition control (s : str) : bool := match s with c :: _ => (c =? 46) || (c =? 39) | [] => false end.
(** The first argument of a request in double quotes *)
Fixpoint argument (s : str) : str :=
  match s with [] => [] | c :: t => if c =? 34 then [] else c :: argument t end.
(** The words that are shown for one line: the text; the title of a section
    and the tag of a paragraph; nothing for any other request. *)
Definition shown (line : str) : list str :=
  if control line then
    if starts_with ($".SH ") line then text_words (unroff (skipn 4 line))
    else if starts_with ($".IP " ++ [34]) line then text_words (unroff (argument (skipn 5 line)))
    else []
  else text_words (unroff line).
(** The words shown for the text that is given to man(1) *)
Definition page_words (text : str) : list str := flat_map shown (split_on NL text).
Definition page_text (lines : list str) : str := join_with [NL] lines.

(** A text can be read: there is no escape in it, and no paragraph begins with
    a dot or a single quote. *)
Definition begins_control (s : str) : Prop := exists w r, words s = w :: r /\ control w = true.
Definition Readable (s : str) : Prop :=
  ~ In 92 s /\ forall a b, s = b \/ s = a ++ [NL; NL] ++ b -> ~ begins_control b.

(** A paragraph of a template can be read: the same, and if it is a
    definition, that is, if there are two spaces in it, for its tag and its
    text. *)
Definition Definable (p : str) : Prop :=
  ~ In 92 p /\ ~ In NL p /\ ~ begins_control p /\
  (forall k v, p = k ++ [32; 32] ++ v -> words k <> [] -> ~ In 34 k /\ ~ begins_control v).
(** An include marker *)
Definition Include (p name : str) : Prop :=
  exists l r, p = l ++ $"::" ++ name ++ r /\ forallb is_space l = true /\ forallb is_space r = true /\
    (name = [] \/ exists a c, name = a ++ [c] /\ is_space c = false).
(** The words of the paragraphs of a template, with the included texts *)
Inductive Template (text : str -> option (list str)) : list str -> list str -> Prop :=
| T_end : Template text [] []
| T_text p ps ws : (forall name, ~ Include p name) -> Definable p -> Template text ps ws ->
    Template text (p :: ps) (text_words p ++ ws)
| T_include p name l inner ps ws : Include p name -> text name = Some l -> Template text (wrap l) inner ->
    Template text ps ws -> Template text (p :: ps) (inner ++ ws).

(** A name of a plugin or an attribute *)
Definition Name (s : str) : Prop := s <> [] /\ forall c, In c s -> is_w c = true.

(** The name of a type; ListOfStrings is not called string[] (a finding). *)
Definition label (t : TypeModel.ty) : str :=
  match t with
  | TypeModel.TString => $"string" | TypeModel.TPath => $"path" | TypeModel.TFileType => $"filetype"
  | TypeModel.TListOfStrings => $"listofstrings" | TypeModel.TNumber => $"number" | TypeModel.TMode => $"mode"
  | TypeModel.TSize => $"size" | TypeModel.TTime => $"time" | TypeModel.TDuration => $"duration"
  | TypeModel.TBoolean => $"boolean"
  end.
(** What --count does with the values of a type *)
Definition counted_as (t : TypeModel.ty) : str :=
  match t with
  | TypeModel.TSize | TypeModel.TDuration => $"total"
  | TypeModel.TListOfStrings => $"uncountable"
  | _ => $"count"
  end.

(** What the reference says about an attribute *)
Definition described (plugin attr : str) (type : str) (operators : list str) (help : str) : list str :=
  [if str_eqb plugin ($"file") then $"[file.]" ++ attr else plugin ++ $"." ++ attr]
  ++ [$"Type:"; type; $"("] ++ operators ++ [$")"] ++ text_words help.


(** What it says about the attributes of a plugin, and about a plugin *)
Definition attributes_of (p : hplugin) : list str :=
  flat_map (fun a => match a with (n, t, help) => described (h_name p) n (label t) (TypeModel.operators t) help end)
    (h_attributes p).
Definition doc_words (d : option str) : list str := match d with Some d => text_words d | None => [] end.
Definition section_of (p : hplugin) : list str :=
  [upper (h_name p); $"PLUGIN"] ++ doc_words (h_doc p) ++ attributes_of p.
(** The details of a plugin *)
Definition details_of (p : hplugin) : list str :=
  [$"Name:"; h_name p; $"Source:"] ++ text_words (h_source p) ++ [$"Path:"] ++ text_words (h_path p)
  ++ [$"Uses"; $"cache:"; if h_use_cache p then $"Yes" else $"No"].
Definition author_of (p : hplugin) : list str :=
  [$"Author:"] ++ text_words (h_author p) ++ [$"Email:"] ++ text_words (h_email p) ++ [$"Url:"] ++ text_words (h_url p).
Definition listed_of (p : hplugin) : list str :=
  [upper (h_name p); $"PLUGIN"] ++ details_of p ++ doc_words (h_doc p).
(** The description at the beginning, if there is one *)
Definition described_by (d : option str) : list str :=
  match d with Some (c :: d) => [$"DESCRIPTION"] ++ text_words (c :: d) | _ => [] end.
(** What it says about a type *)
Definition type_of (doc : TypeModel.ty -> option str) (t : TypeModel.ty) : list str :=
  [upper (label t); $"TYPE"; $"Name:"; label t; $"Operators:"] ++ TypeModel.operators t
  ++ [$"Count:"; counted_as t] ++ doc_words (doc t).
(** A plugin whose texts can be read *)
Definition Documented (p : hplugin) : Prop :=
  Name (h_name p) /\ (forall d, h_doc p = Some d -> Readable d) /\
  forall n t help, In (n, t, help) (h_attributes p) -> Name n /\ Readable help.
(** Details of one line without escapes *)
Definition line_text (s : str) : Prop := ~ In 92 s /\ ~ In NL s.
Definition Detailed (p : hplugin) : Prop :=
  line_text (h_source p) /\ line_text (h_path p) /\ line_text (h_author p) /\ line_text (h_email p) /\ line_text (h_url p).
(** The file plugin comes before the others, which are in the order of their names. *)
Definition Before (a b : hplugin) : Prop :=
  h_name a = $"file" \/ (h_name b <> $"file" /\ StrOrder.str_leb (h_name a) (h_name b) = true).
(** The header is a request. *)
Definition Header (header : str -> str) : Prop :=
  forall title, ~ In NL title -> exists r, header title = $".TH " ++ r /\ ~ In NL r.
