(** Model of shlex.split with the default arguments (posix, no comments,
    whitespace_split), transcribed from CPython's Lib/shlex.py:133-268 (3.12), as
    used by /repo/libff/arguments.py:174-185. *)
From Coq Require Import List NArith Bool.
From Verif Require Import Py.
Import ListNotations.

(** shlex.py:42-46 *)
Definition whitespace (c : char) : bool := existsb (N.eqb c) [32; 9; 13; 10]%N.
Definition quotes (c : char) : bool := existsb (N.eqb c) [39; 34]%N.
Definition escape (c : char) : bool := N.eqb c 92%N.
(** The attribute [state] and, for the state of an escape, the variable
    [escapedstate]: None for 'a' *)
Inductive state := Space | Word | Quote (q : char) | Escape (escaped : option char).

(** One token after the other (shlex.py:100-131, 133-268, 292-297).  [token] and
    [quoted] are those of read_token, which begins with ' ', "" and False again
    after a token.  At the end a token that is empty and not quoted is None and
    ends the iteration. *)
Fixpoint lex (st : state) (token : str) (quoted : bool) (s : str) : res (list str) :=
  let emit rest := if match token with [] => quoted | _ => true end then do l <- rest; Ok (token :: l) else rest in
  match s with
  | [] =>
      match st with
      | Space | Word => emit (Ok [])
      | Quote _ | Escape _ => Err ValueError
      end
  | c :: s =>
      match st with
      | Space =>
          if whitespace c then emit (lex Space [] false s)
          else if escape c then lex (Escape None) token quoted s
          else if quotes c then lex (Quote c) token quoted s
          else lex Word [c] quoted s
      | Quote q =>
          if N.eqb c q then lex Word token true s
          else if escape c && N.eqb q 34 then lex (Escape (Some q)) token true s
          else lex (Quote q) (token ++ [c]) true s
      | Escape None => lex Word (token ++ [c]) quoted s
      | Escape (Some q) =>
          lex (Quote q) ((if negb (escape c) && negb (N.eqb c q) then token ++ [92%N] else token) ++ [c]) quoted s
      | Word =>
          if whitespace c then emit (lex Space [] false s)
          else if quotes c then lex (Quote c) token quoted s
          else if escape c then lex (Escape None) token quoted s
          else lex Word (token ++ [c]) quoted s
      end
  end.
Definition shlex_split (s : str) : res (list str) := lex Space [] false s.
