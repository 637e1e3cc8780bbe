(** Property C130: the array of --json on standard output, with several
    processes, buffers and interruptions. *)
From Coq Require Import List NArith ZArith Bool Lia.
From Verif Require Import Py TypeModel FieldModel JsonModel JsonSpec JsonProofs ConsoleModel ConsoleSpec ConsoleProofs PrintModel ArrayModel ArrayProofs ArrayRuns.
Import ListNotations.
Local Open Scope nat_scope.

(** The text of the array *)
Definition array (records : list (list (str * option value))) : str := $"[" ++ join_with ($",") (map dumps records) ++ $"]" ++ [10%N].
(** The main process has ended and no exception was raised. *)
Definition ended (x : world) : Prop := m_calls (w_main x) = [] /\ m_deeds (w_main x) = [] /\ m_failed (w_main x) = false.
(** json.dump writes these pieces for the records. *)
Definition Pieces (pieces : list (list str)) (records : list (list (str * option value))) : Prop :=
  Forall2 (fun p r => concat p = dumps r) pieces records.

(** At every moment, also after an exception, standard output has a beginning of
    the array. *)
Theorem C130_beginning : forall records pieces size tty workers x, Pieces pieces records ->
  moves size tty (launch (main_deeds true workers pieces)) x -> exists rest, array records = w_out x ++ rest.
Proof. exact (fun records pieces size tty workers x P M => array_beginning records pieces P size tty workers x M). Qed.
Print Assumptions C130_beginning.
(** In the end it is the whole array, whatever the other processes still do. *)
Theorem C130_whole : forall records pieces size tty workers x, Pieces pieces records ->
  moves size tty (launch (main_deeds true workers pieces)) x -> ended x -> w_out x = array records.
Proof. exact (fun records pieces size tty workers x P M E => match E with conj C (conj D F) => array_whole records pieces P size tty workers x M C D F end). Qed.
Print Assumptions C130_whole.
(** A reader that accepts what is on standard output, at whatever moment, has got
    all records; only the line break may be missing. *)
Theorem C130_read : forall records pieces size tty workers x v, Pieces pieces records -> Forall unicode_record records ->
  moves size tty (launch (main_deeds true workers pieces)) x -> read_json (w_out x) = Some v ->
  v = JArr (map json_record records) /\ (w_out x = array records \/ w_out x ++ [10%N] = array records).
Proof. exact (fun records pieces size tty workers x v P U M => array_read records pieces P size tty workers x M v U). Qed.
Print Assumptions C130_read.
(** The end can be reached with every number of processes. *)
Theorem C130_ends : forall size tty workers pieces, exists x, moves size tty (launch (main_deeds true workers pieces)) x /\ ended x.
Proof. exact (fun size tty workers pieces => run_through size tty (main_deeds true workers pieces) [] false [] []). Qed.
Print Assumptions C130_ends.
(** So what is printed are the records of the entries, as in C56. *)
Theorem C130_console : forall get human fields entries, (forall e, In e entries -> good_fields get e fields) ->
  exists records, Forall2 (fun e r => IsRecord get human e fields r) entries records /\
    forall pieces size tty workers x, Pieces pieces records -> moves size tty (launch (main_deeds true workers pieces)) x -> ended x ->
      json_console get human fields entries = Ok (w_out x).
Proof.
  exact (fun get human fields entries G => match json_whole get human fields entries G with
    | ex_intro _ records (conj F (conj E _)) => ex_intro _ records (conj F (fun pieces size tty workers x P M N =>
        eq_trans E (f_equal Ok (eq_sym (C130_whole records pieces size tty workers x P M N))))) end).
Qed.
Print Assumptions C130_console.

(** If ff fails after the output was set up (a start directory that does not
    exist, an interrupt), an opening bracket remains, which is not JSON. *)
Theorem C130_failed_refuted : forall size, 1 <= size -> exists pieces records workers x, Pieces pieces records /\
  moves size false (launch (main_deeds true workers pieces)) x /\
  m_failed (w_main x) = true /\ m_calls (w_main x) = [] /\ m_deeds (w_main x) = [] /\ w_workers x = [] /\
  w_out x = $"[" /\ read_json (w_out x) = None.
Proof. exact failed_run. Qed.
Print Assumptions C130_failed_refuted.
(** ff itself does not flush the opening bracket before it forks.  If
    multiprocessing did not do it either, every process would print one. *)
Theorem C130_flush_refuted : forall size, 3 <= size -> exists x, moves size false (launch (main_deeds false 1 [])) x /\ ended x /\
  Forall (fun p => calls p = [] /\ ops p = []) (w_workers x) /\ read_json (w_out x) = None.
Proof. exact unflushed_run. Qed.
Print Assumptions C130_flush_refuted.

(** Two records in pieces; a buffer so small that it overflows, three processes. *)
Definition ex_records : list (list (str * option value)) := [[($"size", Some (VInt 12))]; [($"size", None)]].
Definition ex_pieces : list (list str) := [[$"{"; encode_string ($"size"); $": "; $"12"; $"}"]; [$"{" ++ encode_string ($"size") ++ $": null}"]].
Example C130_example : Pieces ex_pieces ex_records /\ Forall unicode_record ex_records /\
  array ex_records = $"[{""size"": 12},{""size"": null}]" ++ [10%N] /\
  (exists x, moves 4 true (launch (main_deeds true 3 ex_pieces)) x /\ ended x /\
    read_json (w_out x) = Some (JArr (map json_record ex_records))) /\
  read_json ($"[{""size"": 12}") = None.
Proof.
  assert (P : Pieces ex_pieces ex_records) by (repeat constructor).
  assert (U : Forall unicode_record ex_records).
  { repeat (apply Forall_cons; [repeat (apply Forall_cons; [split; [repeat constructor|exact I]|]); apply Forall_nil|]). apply Forall_nil. }
  split; [exact P|]. split; [exact U|]. split; [reflexivity|]. split; [|reflexivity].
  destruct (C130_ends 4 true 3 ex_pieces) as (x & M & E). exists x. split; [exact M|]. split; [exact E|].
  rewrite (C130_whole ex_records ex_pieces 4 true 3 x P M E). reflexivity.
Qed.
