(** C118: The manual page lists every exit code and every time pattern. *)
From Coq Require Import List NArith ZArith Bool.
From Verif Require StartModel WalkModel.
From Verif Require Import Py ArgsModel TimeModel UsageModel ListsModel HelpModel HelpSpec UsageSpec ListsSpec ManualProofs ListsProofs.
Import ListNotations.
Open Scope N_scope.

(** Every exit code of a command line that is refused and of a search is in the
    list, each once. *)
Theorem C118_codes : (forall e c, StartModel.exitcode e = Some c -> In c (map fst exceptions)) /\
  (forall A m fail (s : WalkModel.state A), WalkModel.exit_status A m fail s = 0%Z \/ In (WalkModel.exit_status A m fail s) (map fst exceptions)) /\
  NoDup (map fst exceptions) /\ ~ In 0%Z (map fst exceptions).
Proof.
  split; [exact codes_listed|]. split; [exact status_listed|]. exact codes_once.
Qed.
Print Assumptions C118_codes.
Example C118_codes_example : StartModel.exitcode ExpressionError = Some 12%Z /\
  In (12%Z, $"There was an error in a test definition." ++ [NL] ++ $"    ") exceptions.
Proof. split; [reflexivity|]. vm_compute. tauto. Qed.

(** A list of codes and meanings of one line, each with the blanks of its
    docstring behind it, becomes one tagged paragraph for each code. *)
Theorem C118_exit_codes : forall l m,
  Forall2 (fun x y => fst x = fst y /\ Padded (snd y) (snd x) /\ Meaning (snd y)) l m -> forall text fuel,
  parse_lines text (S fuel) (exit_lines l) = inl (flat_map item_lines (map exit_item m)) /\
  page_words (page_text (flat_map item_lines (map exit_item m))) = flat_map item_words (map exit_item m).
Proof. exact exit_page. Qed.
Print Assumptions C118_exit_codes.
(** The codes of ff are of this kind, so every page that includes them has them
    all. *)
Theorem C118_exit_codes_ff :
  Forall2 (fun x y => fst x = fst y /\ Padded (snd y) (snd x) /\ Meaning (snd y)) exceptions meanings /\
  forall debug fuel lines p out, In p (wrap lines) -> Include p ($"exit_codes") ->
  parse_lines (include debug) (S (S fuel)) lines = inl out -> exists a b, out = a ++ flat_map item_lines (map exit_item meanings) ++ b.
Proof. exact (conj exceptions_ok page_exit_codes). Qed.
Print Assumptions C118_exit_codes_ff.
Example C118_exit_codes_example : wrap [$"EXIT CODES"; $"    ::exit_codes"] = [$"EXIT CODES"; []; $"    ::exit_codes"] /\ Include ($"    ::exit_codes") ($"exit_codes") /\
  match parse_lines (include false) 2 [$"EXIT CODES"; $"    ::exit_codes"] with
  | inl out => firstn 6 out = [$".SH EXIT CODES"; []; []; $".IP " ++ [34] ++ $"\fB1\fR" ++ [34] ++ $" 4";
      $"The \fB\-\-fail\fR option was specified and there were no search results."; $".PP"]
  | inr _ => False
  end /\
  item_words (exit_item (3%Z, $"Bad commands.")) = [$"3"; $"Bad"; $"commands."].
Proof.
  split; [vm_compute; reflexivity|]. split; [|split; vm_compute; reflexivity].
  exists ($"    "), []. split; [reflexivity|]. split; [reflexivity|]. split; [reflexivity|]. right. exists ($"exit_code"), 115. split; reflexivity.
Qed.

(** Every format without line breaks, escapes and double blanks is a paragraph
    that shows its pattern, and there is only one such pattern. *)
Theorem C118_time_patterns : forall f l, Forall Showable (f :: l) -> forall text fuel, exists out,
  parse_lines text (S fuel) (time_lines (f :: l)) = inl out /\
  forall patterns, Forall2 Pattern (f :: l) patterns -> page_words (page_text out) = flat_map text_words patterns.
Proof. exact time_patterns_shown. Qed.
Print Assumptions C118_time_patterns.
Theorem C118_pattern : forall f, exists s, Pattern f s /\ forall t, Pattern f t -> t = s.
Proof. exact (fun f => ex_intro _ (doubled f) (conj (doubled_pattern f) (fun t P => pattern_unique f _ _ P (doubled_pattern f)))). Qed.
Print Assumptions C118_pattern.
(** The formats of ff are of this kind, so every page that includes them has
    them all. *)
Theorem C118_time_patterns_ff : Forall Showable (map snd time_formats) /\
  forall debug fuel lines p out patterns, In p (wrap lines) -> Include p ($"time_patterns") ->
  parse_lines (include debug) (S (S fuel)) lines = inl out -> Forall2 Pattern (map snd time_formats) patterns ->
  exists a x b, out = a ++ x ++ b /\ page_words (page_text x) = flat_map text_words patterns.
Proof. exact (conj formats_showable page_time_patterns). Qed.
Print Assumptions C118_time_patterns_ff.
Example C118_time_patterns_example : Pattern ($"%H:%M") ($"HH:MM") /\
  match parse_lines (include false) 2 [$"TIME"; $"    ::time_patterns"] with
  | inl out => firstn 5 out = [$".SH TIME"; []; []; $"\fIYY\-mm\-dd HH:MM:SS\fR"; []]
  | inr _ => False
  end.
Proof. split; [exact (doubled_pattern ($"%H:%M"))|]. vm_compute. reflexivity. Qed.

(** Everything else cannot be included. *)
Theorem C118_include : forall debug name, include debug name <> None <-> In name [$"help"; $"usage"; $"time_patterns"; $"exit_codes"].
Proof. exact include_names. Qed.
Print Assumptions C118_include.

(** The full statement: a time that is written as a pattern of the page says is
    understood.  It is false for the year, which has four digits. *)
Theorem C118_year_refuted : exists f s t, In f (map snd time_formats) /\ Pattern f s /\ Follows s t /\
  forall timestamp now clock, parse_time timestamp now clock t = Err ValueError.
Proof.
  exists ($"%Y-%m-%d"), ($"YY-mm-dd"), ($"24-01-31"). split; [vm_compute; tauto|]. split; [exact (doubled_pattern ($"%Y-%m-%d"))|].
  split; [|exact year_rejected].
  change (Follows [89; 89; 45; 109; 109; 45; 100; 100] [50; 52; 45; 48; 49; 45; 51; 49]).
  assert (D : ~ Directive 45) by (intros H; inversion H). repeat first [apply Follows_digits; [constructor|reflexivity|reflexivity|]|apply Follows_char; [exact D|]]. constructor.
Qed.
Print Assumptions C118_year_refuted.
