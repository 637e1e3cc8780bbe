(** What the examples of libff/manpage.template:328-347 and EXAMPLES.md:1-132
    are said to find. *)
From Coq Require Import List NArith ZArith Bool.
From Verif Require Import Py EntryModel TestModel GrammarSpec ExprSpec.
Import ListNotations.
Local Open Scope Z_scope.

(** The format field of the mode is S_IFREG. *)
Definition Regular (e : entry) : Prop := (st_mode (e_status e) / 4096) mod 16 = 8.
Definition Directory (e : entry) : Prop := (st_mode (e_status e) / 4096) mod 16 = 4.
Definition Symlink (e : entry) : Prop := (st_mode (e_status e) / 4096) mod 16 = 10.
(** Permissions: r, w, x of the user are 8, 7, 6, of the group 5, 4, 3, of the
    others 2, 1, 0. *)
Definition Allows (e : entry) (i : Z) : Prop := Z.testbit (st_mode (e_status e)) i = true.

(** Values without capital letters are compared regardless of case, unless case
    matters always. *)
Definition letters (case : case_mode) (s : str) : str := match case with CaseSensitive => s | _ => lower s end.
(** A part of the text is w. *)
Definition Contains (w s : str) : Prop := exists x y, s = x ++ w ++ y.

(** Two ways to write the same element of an expression *)
Inductive Same : str -> str -> Prop :=
| same_open t u : is_open t -> is_open u -> Same t u
| same_close t u : is_close t -> is_close u -> Same t u
| same_and t u : is_AND t -> is_AND u -> Same t u
| same_or t u : is_OR t -> is_OR u -> Same t u
| same_not t u : is_NOT t -> is_NOT u -> Same t u
| same_test t u a o r v : is_test t -> is_test u -> Writes t a o r v -> Writes u a o r v -> Same t u.

(** EXAMPLES.md:68-79 *)
Definition video_short : list str :=
  [$"{{"; $"ext=mkv"; $"or"; $"ext=mp4"; $"}}"; $"and"; $"{{"; $"height+=720"; $"and"; $"height-=1080"; $"}}"].
Definition video_long : list str :=
  [$"("; $"ext = mkv"; $"or"; $"ext = mp4"; $")"; $"and"; $"("; $"height >= 720"; $"and"; $"height <= 1080"; $")"].
