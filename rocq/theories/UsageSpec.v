(** Specification: where the options are in the help text and in the manual page. *)
From Coq Require Import List NArith ZArith Bool.
From Verif Require HelpModel.
From Verif Require Import Py ArgsModel UsageModel LogSpec HelpSpec.
Import ListNotations.
Open Scope N_scope.

(** The names of an option with commas after all but the last, and what follows
    them *)
Fixpoint names (l : list str) : list str :=
  match l with [] => [] | [s] => [s] | s :: r => (s ++ $",") :: names r end.
Definition heading (o : hopt) : list str :=
  match ho_action o, ho_metavar o with
  | Arguments, Some m => [m]
  | StoreOptional, Some m => names (ho_strings o) ++ [$"[" ++ m ++ $"]"]
  | _, Some m => names (ho_strings o) ++ [m]
  | _, None => names (ho_strings o)
  end.
Definition head_text (o : hopt) : str := join_with [32] (heading o).

(** How an option is laid out: its names two columns from the left and its help
    text in column 27, beside them if there is room and below otherwise *)
Definition Laid (width : Z) (o : hopt) (block : str) : Prop :=
  exists lines, Filled width (repeat 32 27) (repeat 32 27) (ho_help o) lines /\
  if Nat.leb (length (head_text o)) 25 then
    exists gap, (2 + length (head_text o) + length gap = 27)%nat /\ forallb (N.eqb 32) gap = true /\
    match lines with
    | [] => block = $"  " ++ head_text o ++ gap ++ [NL]
    | l :: rest => exists t, l = repeat 32 27 ++ t /\ block = $"  " ++ head_text o ++ gap ++ join_with [NL] (t :: rest) ++ [NL]
    end
  else block = $"  " ++ head_text o ++ [NL] ++ join_with [NL] lines ++ [NL].
Inductive Block (width : Z) : item -> str -> Prop :=
| Block_group g : Block width (Group g) ([NL] ++ g ++ $":" ++ [NL])
| Block_option o s : Laid width o s -> Block width (Entry o) s.

(** An option has a name, and its help text begins with something *)
Definition Begins (i : item) : Prop :=
  match i with Entry o => ho_strings o <> [] /\ match ho_help o with [] => True | c :: _ => is_space c = false end | Group _ => True end.

(** Words that may be the name of an option *)
Definition Plain (w : str) : Prop :=
  w <> [] /\ forall c, In c w -> is_space c = false /\ is_sep c = false /\ c <> 34 /\ c <> 92.
Definition Trim (s : str) : Prop :=
  (exists c t, s = c :: t /\ is_space c = false) /\ (exists c t, s = t ++ [c] /\ is_space c = false).
Definition OneLine (s : str) : Prop := forall c, In c s -> is_sep c = false /\ c <> 92.
(** An option that can be put into the manual page: its names do not begin with a
    capital letter, a colon or a dollar sign, which have a meaning there *)
Definition Clean (i : item) : Prop :=
  match i with
  | Entry o =>
      ho_strings o <> [] /\ (exists w t, heading o = w :: t /\ exists c r, w = c :: r /\ ~ between 65 90 c = true /\ c <> 58 /\ c <> 36) /\
      (forall w, In w (heading o) -> Plain w) /\
      Trim (ho_help o) /\ OneLine (ho_help o) /\ ~ begins_control (ho_help o)
  | Group g =>
      (exists c t, g = c :: t /\ HelpModel.is_letter c = true) /\ OneLine g /\ is_sub [32; 32] g = false
  end.
(** What the page shows of an item *)
Definition item_words (i : item) : list str :=
  match i with
  | Entry o => text_words (head_text o) ++ text_words (ho_help o)
  | Group g => text_words (g ++ $":")
  end.
(** The lines of the page: a tagged paragraph for each option *)
Definition item_lines (i : item) : list str :=
  match i with
  | Entry o => [[]; $".IP " ++ [34] ++ $"\fB" ++ head_text o ++ $"\fR" ++ [34] ++ $" 4"; HelpModel.process (ho_help o); $".PP"]
  | Group g => [[]; HelpModel.process (g ++ $":")]
  end.
