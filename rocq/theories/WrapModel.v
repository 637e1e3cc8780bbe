(** Model of textwrap.fill of the standard library (Lib/textwrap.py) with the
    arguments that /repo/libff/logger.py:50-51 and libff/argparse.py:259-260 give
    it.  The regular expression that splits a text into chunks is a parameter. *)
From Coq Require Import List NArith ZArith Bool.
From Verif Require Import Py.
Import ListNotations.
Local Open Scope Z_scope.

Definition len (s : str) : Z := Z.of_nat (length s).
Definition blanks (n : nat) : str := repeat 32%N n.
(** textwrap._whitespace *)
Definition is_ws (c : char) : bool := between 9 13 c || (c =? 32)%N.
(** str.expandtabs(8); the column starts anew after a line feed and a carriage return *)
Fixpoint expandtabs (column : nat) (s : str) : str :=
  match s with
  | [] => []
  | c :: t =>
      if (c =? 9)%N then let n := (8 - column mod 8)%nat in blanks n ++ expandtabs (column + n) t
      else c :: expandtabs (if (c =? 10)%N || (c =? 13)%N then 0 else S column) t
  end.
(** _munge_whitespace *)
Definition munge (s : str) : str := map (fun c => if is_ws c then 32%N else c) (expandtabs 0 s).

(** not chunk.strip() *)
Definition hollow (c : str) : bool := forallb is_space c.
Definition total (l : list str) : Z := fold_right (fun c n => len c + n) 0 l.
(** The inner loop of _wrap_chunks *)
Fixpoint fit (width cur_len : Z) (chunks : list str) : list str * list str :=
  match chunks with
  | [] => ([], [])
  | c :: rest =>
      if cur_len + len c <=? width then let (l, r) := fit width (cur_len + len c) rest in (c :: l, r) else ([], chunks)
  end.
(** str.rfind of a hyphen *)
Fixpoint rfind (s : str) : option nat :=
  match s with
  | [] => None
  | c :: t => match rfind t with Some n => Some (S n) | None => if (c =? 45)%N then Some O else None end
  end.
(** _handle_long_word: how much of the chunk goes on the line *)
Definition cut (chunk : str) (space : nat) : nat :=
  if Z.of_nat space <? len chunk then
    match rfind (firstn space chunk) with
    | Some h => if (0 <? h)%nat && existsb (fun c => negb (c =? 45)%N) (firstn h chunk) then S h else space
    | None => space
    end
  else space.

Section Wrap.
  (** wordsep_re.split *)
  Variable split : str -> list str.
  Variable width : Z.
  Variable initial_indent subsequent_indent : str.
  Definition indent (first : bool) : str := if first then initial_indent else subsequent_indent.
  (** One turn of the loop of _wrap_chunks: the line and the remaining chunks;
      [first]: there are no lines yet.  The chunks are not reversed here. *)
  Definition one_line (first : bool) (chunks : list str) : list str * list str :=
    let w := width - len (indent first) in
    let chunks := match chunks with c :: r => if hollow c && negb first then r else chunks | [] => [] end in
    let (line, rest) := fit w 0 chunks in
    let (line, rest) :=
      match rest with
      | c :: more =>
          if w <? len c then
            let e := cut c (Z.to_nat (if w <? 1 then 1 else w - total line)) in (line ++ [firstn e c], skipn e c :: more)
          else (line, rest)
      | [] => (line, [])
      end in
    (match rev line with c :: l => if hollow c then rev l else line | [] => [] end, rest).
  Fixpoint wrap_chunks (fuel : nat) (first : bool) (chunks : list str) : res (list str) :=
    match chunks with
    | [] => Ok []
    | _ :: _ =>
        match fuel with
        | O => Err OutOfFuel
        | S fuel =>
            let (line, rest) := one_line first chunks in
            match line with
            | [] => wrap_chunks fuel first rest
            | _ :: _ => do l <- wrap_chunks fuel false rest; Ok ((indent first ++ concat line) :: l)
            end
        end
    end.
  Definition size (chunks : list str) : nat := fold_right (fun c n => (S (length c) + n)%nat) O chunks.
  (** TextWrapper.wrap and fill; the fuel is enough unless the text begins with a
      blank (WrapProofs.v), textwrap itself can loop then. *)
  Definition wrap (text : str) : res (list str) :=
    let chunks := filter (fun c => match c with [] => false | _ => true end) (split (munge text)) in
    if width <=? 0 then Err ValueError else wrap_chunks (size chunks) true chunks.
  Definition fill (text : str) : res str := do l <- wrap text; Ok (join_with [NL] l).
End Wrap.

(** shutil.get_terminal_size((100, 100)): COLUMNS if it is a number above zero, else
    what the terminal says, if there is one and it knows; minus two
    (/repo/libff/__init__.py:55) *)
Definition output_width (columns terminal : option Z) : Z :=
  let known (x : option Z) := match x with Some n => if 0 <? n then Some n else None | None => None end in
  match known columns with
  | Some n => n
  | None => match known terminal with Some n => n | None => 100 end
  end - 2.
