(** Specification: what a message looks like and which messages are shown. *)
From Coq Require Import List NArith ZArith Bool.
From Verif Require Import Py LogModel.
Import ListNotations.
Local Open Scope Z_scope.

(** A text without its white space *)
Definition ink (s : str) : str := filter (fun c => negb (is_space c)) s.
(** Some lines are a text: nothing but white space is lost, added or moved, the
    first is indented by [first], the others by [next], and none is longer than
    the screen is wide, unless there is no room beside the indentation. *)
Record Filled (width : Z) (first next text : str) (lines : list str) : Prop := {
  filled_ink : ink (concat lines) = ink text;
  filled_first : forall l rest, lines = l :: rest -> exists t, l = first ++ t;
  filled_next : forall l rest, lines = l :: rest -> Forall (fun l => exists t, l = next ++ t) rest;
  filled_width : forall l, In l lines -> Z.of_nat (length l) <= width \/
    (length l <= S (length first))%nat \/ (length l <= S (length next))%nat }.
(** What the function that splits texts has to do *)
Definition Splits (split : str -> list str) : Prop := forall s, concat (split s) = s.

(** The word in front of a message, its text and its tag *)
Definition message_of (c : call) : option (str * str * option str) :=
  match c with
  | Warning m tag => Some ($"WARNING", m, tag)
  | Hint m tag => Some ($"HINT", m, tag)
  | Error m _ => Some ($"ERROR", m, None)
  | Info m => Some ($"INFO", m, None)
  | Exception m _ _ => Some ($"INTERNAL", m ++ $":", None)
  | Debug _ _ => None
  end.
Definition tag_of (c : call) : option str := match message_of c with Some (_, _, t) => t | None => None end.
(** What follows the message *)
Definition trailer (c : call) : str := match c with Exception _ traceback _ => traceback | _ => [] end.
(** Whether the call ends ff, and how *)
Definition exit_of (c : call) : option Z := match c with Error _ code | Exception _ _ code => code | _ => None end.
(** A message without a tag is shown, one with a tag unless one with this tag was
    there before. *)
Definition Shown (before : list call) (c : call) : Prop :=
  match tag_of c with None => True | Some t => forall c', In c' before -> tag_of c' <> Some t end.
(** What is written for a message: its lines *)
Definition Written (width : Z) (c : call) (s : str) : Prop :=
  match message_of c with
  | Some (word, m, _) => exists lines,
      Filled width [] (repeat 32%N (length word + 2)) (word ++ $": " ++ m) lines /\
      s = join_with [NL] lines ++ [NL] ++ trailer c
  | None => True
  end.
(** Debug messages of the chosen categories *)
Definition Chosen (categories : list str) (category : str) : Prop := In ($"all") categories \/ In category categories.
(** What is right to write for a call *)
Definition Fine (width : Z) (categories : list str) (before : list call) (c : call) (s : str) : Prop :=
  match c with
  | Debug category m =>
      (Chosen categories category -> s = $"DEBUG:" ++ category ++ $": " ++ m ++ [NL]) /\ (~ Chosen categories category -> s = [])
  | _ => (Shown before c -> Written width c s) /\ (~ Shown before c -> s = [])
  end.
(** The calls of one of several processes *)
Definition calls_of (p : nat) (cs : list (nat * call)) : list call := map snd (filter (fun x => Nat.eqb (fst x) p) cs).
