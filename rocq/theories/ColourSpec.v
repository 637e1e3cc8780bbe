(** Specification: which colours LS_COLORS gives, after dir_colors(5). *)
From Coq Require Import List NArith ZArith Bool.
From Verif Require Import Py PathSpec EntrySpec EntryModel ConsoleModel.
Import ListNotations.

(** LS_COLORS is a list of items key=value; the last one for a key counts. *)
Definition item (k v p : str) : Prop := p = k ++ 61%N :: v /\ ~ In 61%N k.
Definition LastItem (l : list str) (k v : str) : Prop :=
  exists l1 p l2, l = l1 ++ p :: l2 /\ item k v p /\ forall q v', In q l2 -> ~ item k v' q.
Definition Rule (env k v : str) : Prop := LastItem (split_on 58%N env) k v.
(** The escape sequence for a value *)
Definition sequence (v : str) : str := match v with [] => [] | _ => [27%N; 91%N] ++ v ++ [109%N] end.
(** What ends a colour *)
Definition Ending (env r : str) : Prop := Rule env ($"rs") r \/ (r = $"0" /\ forall v, ~ Rule env ($"rs") v).
(** [out] is the text in the colour for the key [k], if there is one. *)
Inductive InColour (env k text : str) : str -> Prop :=
| in_colour v r : Rule env k v -> Ending env r -> InColour env k text (sequence v ++ text ++ sequence r)
| no_colour : (forall v, ~ Rule env k v) -> InColour env k text text.
(** All keys are two characters long, or suffixes *.x with one dot. *)
Definition suffix (x : str) : str := 42%N :: DOT :: x.
Definition tidy (env : str) : Prop := forall p k v, In p (split_on 58%N env) -> item k v p ->
  length k = 2%nat \/ exists x, k = suffix x /\ x <> [] /\ ~ In DOT x /\ ~ In SLASH x.

(** The kind of a file and whether it can be executed, by its mode *)
Definition kind (e : centry) : str := format_name ((mode_of e / 4096) mod 16)%Z.
Definition runs (e : centry) : Prop :=
  ((mode_of e / 4096) mod 16 <> 4 /\ (mode_of e / 4096) mod 16 <> 10 /\
   (Z.testbit (mode_of e) 0 = true \/ Z.testbit (mode_of e) 3 = true \/ Z.testbit (mode_of e) 6 = true))%Z.
Definition shown_as_link (follow : bool) (e : centry) : Prop := kind e = $"symlink" /\ follow = false.

(** The name of a file that is no directory in colours *)
Inductive NameColour (env : str) (follow : bool) (e : centry) : str -> Prop :=
| colour_orphan out : shown_as_link follow e -> c_broken e = true ->
    InColour env ($"or") (e_name (c_entry e)) out -> NameColour env follow e out
| colour_link out : shown_as_link follow e -> c_broken e = false ->
    InColour env ($"ln") (e_name (c_entry e)) out -> NameColour env follow e out
| colour_exec out : ~ shown_as_link follow e -> runs e ->
    InColour env ($"ex") (e_name (c_entry e)) out -> NameColour env follow e out
| colour_suffix b x out : ~ shown_as_link follow e -> ~ runs e ->
    e_name (c_entry e) = b ++ DOT :: x -> ~ In DOT x -> x <> [] -> (exists c, In c b /\ c <> DOT) ->
    InColour env (suffix x) (e_name (c_entry e)) out -> NameColour env follow e out
| colour_none : ~ shown_as_link follow e -> ~ runs e ->
    (forall b x, e_name (c_entry e) = b ++ DOT :: x -> ~ In DOT x -> x = [] \/ forall c, In c b -> c = DOT) ->
    NameColour env follow e (e_name (c_entry e)).
(** A path: the directory in the colour of directories, then the name *)
Inductive PathColour (env : str) (follow : bool) (e : centry) : str -> Prop :=
| path_directory out : kind e = $"directory" -> InColour env ($"di") (e_path (c_entry e)) out -> PathColour env follow e out
| path_bare out : kind e <> $"directory" -> e_dir (c_entry e) = [] -> NameColour env follow e out -> PathColour env follow e out
| path_inside d out : kind e <> $"directory" -> e_dir (c_entry e) <> [] -> InColour env ($"di") (e_dir (c_entry e) ++ [SLASH]) d ->
    NameColour env follow e out -> PathColour env follow e (d ++ out).

(** * The separator *)
(** Backslash t and backslash n stand for a tab and the end of a line. *)
Inductive Unescaped : str -> str -> Prop :=
| un_end : Unescaped [] []
| un_tab s t : Unescaped s t -> Unescaped (92%N :: 116%N :: s) (9%N :: t)
| un_line s t : Unescaped s t -> Unescaped (92%N :: 110%N :: s) (10%N :: t)
| un_char c s t : (c = 92%N -> forall d s', s = d :: s' -> d <> 116%N /\ d <> 110%N) -> Unescaped s t -> Unescaped (c :: s) (c :: t).
