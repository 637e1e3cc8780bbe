(** Lines of a text, the first line of a script, what a Python file imports, and
    what belongs to a package. *)
From Coq Require Import List NArith ZArith Bool.
From Verif Require Import Py PathSpec PluginModel.
Import ListNotations.

(** ** Lines: ended by LF, CR or CR LF; the last one need not be.  The boolean
    says whether a line is ended. *)
Definition one_line (l : str) : Prop := ~ In 13%N l /\ ~ In 10%N l.
Definition ends_line (t rest : str) : Prop := t = [10%N] \/ t = [13%N; 10%N] \/ (t = [13%N] /\ forall r, rest <> 10%N :: r).
Inductive TextLines : str -> list (str * bool) -> Prop :=
| text_empty : TextLines [] []
| text_last l : one_line l -> l <> [] -> TextLines l [(l, false)]
| text_line l t rest ls : one_line l -> ends_line t rest -> TextLines rest ls -> TextLines (l ++ t ++ rest) ((l, true) :: ls).

(** ** The first line of a script *)
Definition FirstLine (s l : str) : Prop := ~ In 10%N l /\ (s = l \/ exists rest, s = l ++ 10%N :: rest).
(** v is the text of the shebang line of s. *)
Definition Shebang (s v : str) : Prop :=
  exists l blanks, FirstLine s l /\ l = $"#!" ++ v ++ blanks /\ forallb is_space blanks = true /\
    (forall w c, v = w ++ [c] -> is_space c = false) /\ (forall c, In c l -> (c < 128)%N).
Definition no_shebang (s : str) : Prop := forall l, FirstLine s l -> ~ exists r, l = $"#!" ++ r.

(** ** Imports.  [dirs]: the directory of the file as a package.  The name may
    lack the beginning of the package, because it is not known where it begins. *)
Definition package (dirs : list str) (level : nat) : list str := firstn (length dirs - (level - 1)) dirs.
Inductive imported (dirs : list str) : node -> str -> Prop :=
| imp_name names n : In n names -> imported dirs (Import names) n
| imp_from m : imported dirs (ImportFrom (Some m) 0) m
| imp_relative m k a b : package dirs (S k) = a ++ b -> b <> [] -> imported dirs (ImportFrom (Some m) (S k)) (join_with ($".") (b ++ [m]))
| imp_package k a b : package dirs (S k) = a ++ b -> b <> [] -> imported dirs (ImportFrom None (S k)) (join_with ($".") b).
(** All that is imported is listed, and nothing else; of a relative import some
    name. *)
Definition lists_imports (dirs : list str) (nodes : list node) (l : list str) : Prop :=
  (forall x, In x l -> exists n, In n nodes /\ imported dirs n x) /\
  (forall names n, In (Import names) nodes -> In n names -> In n l) /\
  (forall m k, In (ImportFrom m k) nodes -> exists x, In x l /\ imported dirs (ImportFrom m k) x).

(** ** Packages: what pacman -Ql prints.  Directories have a slash at the end. *)
Record owned := Owned { o_package : str; o_path : str; o_directory : bool }.
Definition owned_line (o : owned) : str := o_package o ++ $" " ++ o_path o ++ (if o_directory o then $"/" else []) ++ [10%N].
Definition good_owned (o : owned) : Prop :=
  o_package o <> [] /\ (forall c, In c (o_package o) -> is_space c = false) /\
  (exists p c, o_path o = SLASH :: p ++ [c] /\ c <> SLASH /\ is_space c = false).

(** ** Names of archives: .tar, .tar and the ending of a compressor, or the short
    form of this. *)
Definition tar_name (name : str) : Prop :=
  (exists base, name = base ++ $".tar") \/
  (exists base c, name = base ++ $".tar." ++ c /\ In c [$"gz"; $"bz2"; $"lz"; $"lzma"; $"xz"]) \/
  (exists base c, name = base ++ $".t" ++ c /\ In c [$"az"; $"gz"; $"pz"; $"b2"; $"bz"; $"bz2"; $"z2"; $"lz"; $"xz"]).
