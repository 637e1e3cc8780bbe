(** Model of the way of a record to standard output:
    /repo/libff/console.py:78-83 (JsonlConsole._print_record) and 241-253
    (Console._write_line), with CPython's text and buffer layers below. *)
From Coq Require Import List NArith ZArith Bool Arith.
From Verif Require Import Py FieldModel JsonModel.
Import ListNotations.

(** What is done to sys.stdout: write of a text, given by its bytes and whether
    the text contains a line break (\n or \r), and flush *)
Inductive op := Write (breaks : bool) (bytes : str) | Flush.

Section Encoding.
  (** The encodings of sys.stdout and of the file system (errors=strict), by
      characters: None is a UnicodeEncodeError.  Simplified: encodings that have
      a state are left out. *)
  Variable out fs : char -> option str.

  Fixpoint encode_with (enc : char -> option str) (s : str) : option str :=
    match s with
    | [] => Some []
    | c :: s => match enc c, encode_with enc s with Some b, Some t => Some (b ++ t) | _, _ => None end
    end.
  (** codecs.backslashreplace_errors for one character *)
  Definition hex_padded (width : nat) (c : char) : str :=
    let s := format_base 16 (Z.of_N c) in repeat 48%N (width - length s) ++ s.
  Definition backslash (c : char) : str :=
    if (c <? 256)%N then $"\x" ++ hex_padded 2 c
    else if (c <? 65536)%N then $"\u" ++ hex_padded 4 c
    else $"\U" ++ hex_padded 8 c.
  (** s.encode(encoding, "backslashreplace").decode(encoding), with the encoding
      of the file system (console.py:112, 247) *)
  Definition replaced (s : str) : str :=
    flat_map (fun c => match fs c with Some _ => [c] | None => backslash c end) s.

  Definition has_break (s : str) : bool := existsb (fun c => N.eqb c 10 || N.eqb c 13) s.
  (** sys.stdout.write(s): the text is encoded before anything is kept; true: an
      exception is raised *)
  Definition write (s : str) : list op * bool :=
    match encode_with out s with Some b => ([Write (has_break s) b], false) | None => ([], true) end.
  (** One after the other, until the first exception *)
  Fixpoint then_ (l : list (list op * bool)) : list op * bool :=
    match l with
    | [] => ([], false)
    | (w, true) :: _ => (w, true)
    | (w, false) :: l => let '(w', r) := then_ l in (w ++ w', r)
    end.
  (** print(s, end=e) *)
  Definition print (s e : str) : list op * bool := then_ [write s; write e].

  (** console.py:241-253 *)
  Definition write_line (newline line : str) : list op * bool :=
    let '(w, raised) := print line newline in
    if raised then
      let '(w', raised') := print (replaced line) newline in
      if raised' then (w ++ w', true) else (w ++ w' ++ [Flush], false)
    else (w ++ [Flush], false).
  (** console.py:78-83; json.dump writes the pieces of the text one by one *)
  Definition print_record (pieces : list str) : list op * bool :=
    then_ (map write pieces ++ [write [10%N]; ([Flush], false)]).

  (** The calls of one process, until the first exception *)
  Inductive call := CLine (newline line : str) | CRecord (pieces : list str).
  Definition call_ops (c : call) : list op * bool :=
    match c with CLine newline line => write_line newline line | CRecord pieces => print_record pieces end.
  Definition program (calls : list call) : list op := fst (then_ (map call_ops calls)).
End Encoding.

Section Stdout.
  (** The size of the buffers (8192 in CPython) and whether standard output is a
      terminal (then it is line buffered) *)
  Variable size : nat.
  Variable tty : bool.

  (** [act b o ws b']: with b in the buffer, o may lead to the system calls
      write(ws) one after the other and leave b' in the buffer.  TextIOWrapper
      and BufferedWriter keep what they get until a flush, a line break on a
      terminal or an overflow; what goes out in case of an overflow is left
      open.  Each write is complete: no short writes. *)
  Inductive act (b : str) : op -> list str -> str -> Prop :=
  | act_keep breaks t : (tty && breaks = false)%bool -> length (b ++ t) <= size -> act b (Write breaks t) [] (b ++ t)
  | act_break t : tty = true -> length (b ++ t) <= size -> act b (Write true t) [b ++ t] []
  | act_overflow breaks t ws b' : size < length (b ++ t) -> concat ws ++ b' = b ++ t -> act b (Write breaks t) ws b'
  | act_flush : length b <= size -> act b Flush [b] []
  | act_flush_long ws : size < length b -> concat ws = b -> act b Flush ws [].

  (** A process with its buffer, the system calls it has still to make and what
      it has to do after them; and what has been written so far *)
  Record process := Process { buffer : str; calls : list str; ops : list op }.
  Record state := State { procs : list process; written : str }.
  Inductive step : state -> state -> Prop :=
  | step_act before after b o l ws b' w : act b o ws b' ->
      step (State (before ++ Process b [] (o :: l) :: after) w) (State (before ++ Process b' ws l :: after) w)
  | step_call before after b c cs l w :
      step (State (before ++ Process b (c :: cs) l :: after) w) (State (before ++ Process b cs l :: after) (w ++ c)).
  Inductive steps : state -> state -> Prop :=
  | steps_refl s : steps s s
  | steps_more s t u : steps s t -> step t u -> steps s u.
  Definition begin (programs : list (list op)) : state := State (map (Process [] []) programs) [].
End Stdout.
