(** Model of the messages of ff: /repo/libff/logger.py:28-94. *)
From Coq Require Import List NArith ZArith Bool.
From Verif Require Import Py WrapModel.
Import ListNotations.

(** The calls of the methods in lines 53-94; a message is given by its str() *)
Inductive call :=
| Warning (message : str) (tag : option str)
| Hint (message : str) (tag : option str)
| Error (message : str) (exitcode : option Z)
| Info (message : str)
| Debug (category message : str)
| Exception (message traceback : str) (exitcode : option Z).
(** What happens after the call *)
Inductive effect := Goes_on | Exits (code : Z) | Raises (e : exc).
(** [tags_emitted] belongs to the class: all loggers of a process share it, and
    new processes begin with a copy. *)
Record logger := Logger { tags : list str; categories : option (list str) }.

Section Log.
  Variable split : str -> list str.
  (** OUTPUT_WIDTH *)
  Variable width : Z.

  (** Lines 39-51: the tags afterwards and what is written *)
  Definition print_message (l : logger) (category message : str) (tag : option str) : logger * res str :=
    match tag with
    | Some t => if str_in t (tags l) then (l, Ok []) else
        (Logger (t :: tags l) (categories l),
         do s <- fill split width [] (blanks (length category + 2)) (category ++ $": " ++ message); Ok (s ++ [NL]))
    | None => (l, do s <- fill split width [] (blanks (length category + 2)) (category ++ $": " ++ message); Ok (s ++ [NL]))
    end.
  Definition ending (exitcode : option Z) : effect := match exitcode with Some n => Exits n | None => Goes_on end.
  Definition printed (x : logger * res str) (after : str) (e : effect) : logger * str * effect :=
    match x with (l, Ok s) => (l, s ++ after, e) | (l, Err e) => (l, [], Raises e) end.
  (** Lines 53-94, with assertions (without them there is no [debug]) *)
  Definition perform (l : logger) (c : call) : logger * str * effect :=
    match c with
    | Warning m tag => printed (print_message l ($"WARNING") m tag) [] Goes_on
    | Hint m tag => printed (print_message l ($"HINT") m tag) [] Goes_on
    | Error m code => printed (print_message l ($"ERROR") m None) [] (ending code)
    | Info m => printed (print_message l ($"INFO") m None) [] Goes_on
    | Debug category m =>
        match categories l with
        | None => (l, [], Raises TypeErr)
        | Some cs =>
            if str_in ($"all") cs || str_in category cs then (l, $"DEBUG:" ++ category ++ $": " ++ m ++ [NL], Goes_on) else (l, [], Goes_on)
        end
    | Exception m traceback code => printed (print_message l ($"INTERNAL") (m ++ $":") None) traceback (ending code)
    end.
  (** The calls of one process, until one ends it: what each of them has written *)
  Fixpoint log (l : logger) (cs : list call) : list str * effect :=
    match cs with
    | [] => ([], Goes_on)
    | c :: cs =>
        match perform l c with
        | (l, s, Goes_on) => let (ss, e) := log l cs in (s :: ss, e)
        | (l, s, e) => ([s], e)
        end
    end.
  (** The calls of several processes as they follow each other; each process has
      its own logger. *)
  Fixpoint logs (ls : nat -> logger) (cs : list (nat * call)) : list str :=
    match cs with
    | [] => []
    | (p, c) :: cs => let '(l, s, _) := perform (ls p) c in s :: logs (fun q => if Nat.eqb q p then l else ls q) cs
    end.
End Log.
