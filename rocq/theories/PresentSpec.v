(** Specification: how results are presented, after the manual page. *)
From Coq Require Import List NArith ZArith Bool.
From Verif Require Import Py ArgumentsModel ArgumentsSpec ConsoleModel.
Import ListNotations.

(** Commands, statistics, one JSON array, one JSON object per line, lines with
    or without colours *)
Inductive presentation := Commands | Statistics | Array | Objects | Colours | Lines.
Definition commands (a : pargs) : Prop := given (a_exec a) \/ given (a_exec_batch a).
Definition colours (a : pargs) (terminal : bool) : Prop :=
  a_color a = $"always" \/ (a_color a = $"auto" /\ terminal = true).
(** What the arguments ask for *)
Inductive Asked (a : pargs) (terminal : bool) : presentation -> Prop :=
| asked_commands : commands a -> Asked a terminal Commands
| asked_statistics : ~ commands a -> given (a_count a) -> Asked a terminal Statistics
| asked_array : ~ commands a -> ~ given (a_count a) -> a_json a = Some ($"json") -> Asked a terminal Array
| asked_objects : ~ commands a -> ~ given (a_count a) -> a_json a = Some ($"jsonl") -> Asked a terminal Objects
| asked_colours : ~ commands a -> ~ given (a_count a) -> a_json a = None -> colours a terminal -> Asked a terminal Colours
| asked_lines : ~ commands a -> ~ given (a_count a) -> a_json a = None -> ~ colours a terminal -> Asked a terminal Lines.
(** All results must be known before the first one can be presented: they have
    to be sorted, counted, numbered, or put together. *)
Definition Waits (a : pargs) : Prop :=
  given (a_sort a) \/ given (a_count a) \/ a_limit a <> None \/ given (a_exec_batch a) \/ a_json a = Some ($"json").

(** What an implementation does *)
Definition presents (p : processing) : presentation :=
  let of c := match c with NullConsole => Statistics | JsonConsole => Array | JsonlConsole => Objects
                         | ColorConsole => Colours | TextConsole => Lines end in
  match p with
  | CollectiveExec | ImmediateExec => Commands
  | CollectiveConsole c | ImmediateConsole c => of c
  end.
Definition waits (p : processing) : Prop := p = CollectiveExec \/ exists c, p = CollectiveConsole c.
