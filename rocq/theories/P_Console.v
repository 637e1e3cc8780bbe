(** Properties C54-C56, C68: the output on the console. *)
From Coq Require Import List NArith ZArith Bool.
From Verif Require Import Py PathModel EntryModel EntrySpec TypeModel FieldModel JsonModel JsonSpec JsonProofs ConsoleModel ConsoleSpec ConsoleProofs.
Import ListNotations.

(** C54.  An entry's line is the cells of all fields joined by the separator;
    there is no line if and only if it is suppressed.  Full statement: for
    every [st]; missing: colours although LS_COLORS is empty, for which it is
    false (C54_refuted), and files directly in the root directory (C68). *)
Theorem C54_lines_partial : forall get human st env follow all sep e fields,
  (st = Plain \/ (env <> [] /\ st = Coloured (read_colours env))) -> good_entry e -> good_fields get e fields ->
  (exists cells, process get human st follow all sep fields e = Ok (Some (join_with sep cells)) /\
     Forall2 (Cell get human st env e) fields cells /\ ~ Suppressed get all e fields) \/
  (process get human st follow all sep fields e = Ok None /\ Suppressed get all e fields).
Proof. intros get human st env follow all sep e fields H. exact (process_ok get human st env follow H all sep e fields). Qed.
(** Without colours there is only one such cell. *)
Theorem C54_cell_unique : forall get human env e f a b, Cell get human Plain env e f a -> Cell get human Plain env e f b -> a = b.
Proof. exact cell_fun. Qed.
(** Records always exist and contain all attributes. *)
Theorem C54_records : forall get human fields e, good_fields get e fields ->
  exists r, to_dict get human fields e = Ok r /\ IsRecord get human e fields r /\ forall k, In k (map fst r) <-> In k (map f_alias fields).
Proof. exact to_dict_whole. Qed.
(** A file a/b.c, a directory, and their attributes *)
Definition xe : centry := CEntry (Entry (Start ($"a") ($"/a") 1) ($"b.c") (Status 33188 1 1) ($"a/b.c") ($"/a/b.c") ($"a") ($"b.c") false) [] false.
Definition xd : centry := CEntry (Entry (Start ($"a") ($"/a") 1) ($"d") (Status 16877 1 1) ($"a/d") ($"/a/d") ($"a") ($"d") false) [] false.
Definition xget (e : centry) (a : str * str) : res value :=
  if str_eqb (snd a) ($"size") then Ok (VInt 1234)
  else if str_eqb (snd a) ($"path") then Ok (VStr (e_path (c_entry e)))
  else Err KeyErr.
Definition xhuman (_ : ty) (z : Z) : str := str_of_Z z ++ $"B".
Definition xf (n : str) (t : ty) (w m : option str) : field := Field ($"file", n) n t w m.
Definition xfields : list field :=
  [xf ($"size") TSize (Some ($"6")) (Some ($"h")); xf ($"path") TString (Some ($"-8")) None; xf ($"width") TNumber (Some ($"3")) (Some ($"n"))].
Definition xenv : str := $"di=34:*.c=1;2".
Example C54_hypotheses : good_entry xe /\ good_entry xd /\ good_fields xget xe xfields /\ xenv <> [].
Proof.
  split; [|split; [|split; [|discriminate]]]; [split; right; [right; repeat split|]; discriminate|split; [right; right; repeat split; discriminate|now left]|].
  intros f [<-|[<-|[<-|[]]]]; (split; [|intros w [= <-]; eexists; reflexivity]);
    ((right; eexists; split; reflexivity) || (left; reflexivity)).
Qed.
Example C54_example :
  process xget xhuman Plain false false ($",") xfields xe = Ok (Some ($" 1234B,a/b.c   ,")) /\
  process xget xhuman Plain false false ($",") [xf ($"path") TString None None; xf ($"width") TNumber None None] xe = Ok None /\
  process xget xhuman Plain false true ($",") [xf ($"path") TString None None; xf ($"width") TNumber None None] xe = Ok (Some ($"a/b.c,")) /\
  process xget xhuman (Coloured (read_colours xenv)) false false ($",") [xf ($"path") TString None None] xe =
    Ok (Some ([27%N] ++ $"[34ma/" ++ [27%N] ++ $"[0m" ++ [27%N] ++ $"[1;2mb.c" ++ [27%N] ++ $"[0m")) /\
  to_dict xget xhuman xfields xe = Ok [($"size", Some (VStr ($"1234B"))); ($"path", Some (VStr ($"a/b.c"))); ($"width", None)].
Proof. repeat split; reflexivity. Qed.
(** The claim without the hypothesis about LS_COLORS is false: directories,
    and all files in directories, are not printed. *)
Theorem C54_refuted : exists get human follow all sep e fields,
  good_entry e /\ good_fields get e fields /\ ~ Suppressed get all e fields /\
  process get human (Coloured (read_colours [])) follow all sep fields e = Ok None.
Proof.
  exists xget, xhuman, false, false, ($" "), xd, [xf ($"path") TString None None]. split; [apply C54_hypotheses|].
  split; [intros f [<-|[]]; split; [right; eexists; split; reflexivity|discriminate]|].
  split; [|reflexivity]. intros (_ & f & [<-|[]] & (NS & _) & _). apply NS. right. right. now left.
Qed.
Print Assumptions C54_lines_partial.
Print Assumptions C54_cell_unique.
Print Assumptions C54_records.
Print Assumptions C54_refuted.

(** C55.  [RendersIn st env p s]: the rendered string [s] shows [p], perhaps
    coloured, and knows its length.  Padding adds exactly the blanks that are
    missing, on the side the sign tells, and cuts nothing. *)
Theorem C55_padding : forall st env s p w, RendersIn st env p s -> Padded w p (s_value s) (pad_string s w).
Proof. exact pad_ok. Qed.
(** Every field that has a value renders to such a string, so that with a
    width the cell has that width. *)
Theorem C55_fields_partial : forall get human st env follow e f w n,
  (st = Plain \/ (env <> [] /\ st = Coloured (read_colours env))) -> good_entry e -> good_fields get e [f] ->
  f_width f = Some w -> py_int w = Some n -> ~ Missing get e f ->
  exists p t out, PlainText get human e f p /\ shown st env p t /\ format_field get human st follow e f = Ok out /\ Padded n p t out.
Proof. exact field_padded. Qed.
(** Full statement: without [~ Missing].  An empty cell is not padded. *)
Theorem C55_missing_refuted : exists get human e f w,
  good_entry e /\ good_fields get e [f] /\ f_width f = Some w /\ py_int w = Some 3%Z /\
  process get human Plain false true ($",") [f] e = Ok (Some []).
Proof.
  exists xget, xhuman, xe, (xf ($"width") TNumber (Some ($"3")) (Some ($"n"))), ($"3"). split; [apply C54_hypotheses|].
  split; [intros f [<-|[]]; split; [now left|intros w [= <-]; eexists; reflexivity]|]. repeat split.
Qed.
Example C55_example : RendersIn (Coloured (read_colours xenv)) xenv ($"ab") (String (esc ($"34") ++ $"ab" ++ esc ($"0")) 2) /\
  pad_string (String (esc ($"34") ++ $"ab" ++ esc ($"0")) 2) 4%Z = $"  " ++ esc ($"34") ++ $"ab" ++ esc ($"0") /\
  pad_string (plain ($"abcdef")) (-4)%Z = $"abcdef" /\ pad_string (plain ($"ab")) (-4)%Z = $"ab  ".
Proof.
  split; [|repeat split]. split; [|reflexivity]. apply decorated_around; [right; exists ($"di"); now left|now left].
Qed.
Print Assumptions C55_padding.
Print Assumptions C55_fields_partial.
Print Assumptions C55_missing_refuted.

(** C56.  The output is one array, which a reader of JSON (JsonSpec) reads as
    the list of the records of all entries, in their order. *)
Theorem C56_array : forall get human fields entries, (forall e, In e entries -> good_fields get e fields) ->
  exists records, Forall2 (fun e r => IsRecord get human e fields r) entries records /\
    json_console get human fields entries = Ok ($"[" ++ join_with ($",") (map dumps records) ++ $"]" ++ [10%N]) /\
    (Forall unicode_record records -> exists text, json_console get human fields entries = Ok text /\ read_json text = Some (JArr (map json_record records))).
Proof. exact json_whole. Qed.
(** --json=jsonl: one line per entry *)
Theorem C56_lines : forall get human fields e, good_fields get e fields ->
  exists r, IsRecord get human e fields r /\ jsonl_line get human fields e = Ok (dumps r ++ [10%N]) /\
    (unicode_record r -> read_json (dumps r ++ [10%N]) = Some (json_record r)).
Proof. exact jsonl_whole. Qed.
(** The array is always written by the one process that collects the results. *)
Theorem C56_collected : forall o, setup_processing o <> ImmediateConsole JsonConsole /\
  (o_json o = Some ($"json") -> o_exec o = false -> o_batch o = false -> o_count o = false -> setup_processing o = CollectiveConsole JsonConsole).
Proof. exact json_one_process. Qed.
Example C56_example :
  json_console xget xhuman xfields [xe; xd] =
    Ok ($"[{""size"": ""1234B"", ""path"": ""a/b.c"", ""width"": null},{""size"": ""1234B"", ""path"": ""a/d"", ""width"": null}]" ++ [10%N]) /\
  json_console xget xhuman xfields [] = Ok ($"[]" ++ [10%N]) /\
  (forall e, In e [xe; xd] -> good_fields xget e xfields) /\
  Forall unicode_record [[($"size", Some (VStr ($"1234B"))); ($"width", None)]] /\
  setup_processing (Chosen false false false false false (Some ($"json")) ($"auto") true) = CollectiveConsole JsonConsole.
Proof.
  split; [reflexivity|]. split; [reflexivity|]. split; [|split; [|reflexivity]].
  - intros e _ f [<-|[<-|[<-|[]]]]; (split; [|intros w [= <-]; eexists; reflexivity]); ((right; eexists; split; reflexivity) || (left; reflexivity)).
  - repeat constructor.
Qed.
Print Assumptions C56_array.
Print Assumptions C56_lines.
Print Assumptions C56_collected.

(** C68.  Colours only add escape sequences, whose values are those of
    LS_COLORS: taking them away gives the attribute's text.  Full statement:
    [inside …] instead of [good_entry]; missing: files in the root directory. *)
Theorem C68_text_partial : forall get human st env follow e f,
  (st = Plain \/ (env <> [] /\ st = Coloured (read_colours env))) -> good_entry e -> good_fields get e [f] -> ~ Missing get e f ->
  exists s p, render_field get human st follow e f = Ok s /\ PlainText get human e f p /\ shown st env p (s_value s) /\ s_length s = length p.
Proof. exact field_rendered. Qed.
(** With escape sequences removed by a reader of the output the two styles
    agree, if values are made of digits and semicolons and the text has no
    escape character. *)
Theorem C68_same_text : forall env p t, sgr env -> ~ In 27%N p -> Decorated env p t -> strip_sgr t = p.
Proof. exact strip_decorated. Qed.
Definition xr : centry := CEntry (Entry (Start ($"/") ($"/") 1) ($"b.c") (Status 33188 1 1) ($"/b.c") ($"/b.c") ($"/") ($"b.c") false) [] false.
Theorem C68_refuted : exists e f, mk_entry (e_start (c_entry e)) (e_relpath (c_entry e)) (e_status (c_entry e)) = Ok (c_entry e) /\
  inside (e_dir (c_entry e)) (e_name (c_entry e)) (e_path (c_entry e)) /\ good_fields xget e [f] /\
  PlainText xget xhuman e f ($"/b.c") /\ process xget xhuman Plain false false ($",") [f] e = Ok (Some ($"//b.c")).
Proof.
  exists xr, (xf ($"path") TString None None). split; [reflexivity|]. split; [right; left; split; reflexivity|].
  split; [intros f [<-|[]]; split; [right; eexists; split; reflexivity|discriminate]|].
  split; [|reflexivity]. apply (pt_path xget xhuman xr (xf ($"path") TString None None)); [reflexivity|]. intros [_ H]. discriminate H.
Qed.
Example C68_example : sgr xenv /\ strip_sgr (esc ($"34") ++ $"a/" ++ esc ($"0") ++ esc ($"1;2") ++ $"b.c" ++ esc ($"0")) = $"a/b.c" /\
  ~ Missing xget xe (xf ($"path") TString None None).
Proof.
  split; [|split; [reflexivity|]].
  - intros v [->|(k & I)]; [reflexivity|]. change (split_on 58%N xenv) with [$"di=34"; $"*.c=1;2"] in I.
    destruct I as [I|[I|[]]]; do 9 (destruct k as [|? k]; [first [discriminate I | injection I as <-; reflexivity]|try discriminate I; injection I as _ I]).
  - intros [NS _]. apply NS. right. right. now left.
Qed.
Print Assumptions C68_text_partial.
Print Assumptions C68_same_text.
Print Assumptions C68_refuted.
