(** What a test string means, independent of regular expressions. *)
From Coq Require Import List NArith ZArith Bool.
From Verif Require Import Py.
Import ListNotations.
Local Open Scope N_scope.

(** A word: letters, digits, underscores; a name: a word, or two joined by a
    dot. *)
Definition word (s : str) : Prop := s <> [] /\ forall c, In c s -> is_w c = true.
Definition name (s : str) : Prop := word s \/ exists p n, word p /\ word n /\ s = p ++ $"." ++ n.
Definition blanks (s : str) : Prop := forall c, In c s -> is_space c = true.

(** The operators and what they are read as. *)
Inductive operator : str -> str -> Prop :=
| op_eq : operator ($"=") ($"=")
| op_in : operator ($":") ($":")
| op_re : operator ($"~") ($"~")
| op_glob : operator ($"%") ($"%")
| op_ge : operator ($">=") ($"+=")
| op_gt : operator ($">") ($"+")
| op_le : operator ($"<=") ($"-=")
| op_lt : operator ($"<") ($"-")
| op_pe : operator ($"+=") ($"+=")
| op_p : operator ($"+") ($"+")
| op_me : operator ($"-=") ($"-=")
| op_m : operator ($"-") ($"-").

(** The reference as written: nothing, or a name or nothing in braces. *)
Inductive reference : option str -> str -> Prop :=
| ref_none : reference None []
| ref_same : reference (Some []) ($"{}")
| ref_name n : name n -> reference (Some n) ($"{" ++ n ++ $"}").

(** A value: not empty, on one line. *)
Definition value (v : str) : Prop := v <> [] /\ ~ In NL v.
(** Does not start with a character satisfying p. *)
Definition not_starting (p : char -> Prop) (s : str) : Prop :=
  match s with [] => True | c :: _ => ~ p c end.

(** The text of a test, with blanks b1 before and b2 after the attribute, b3
    before the value, b4 after it. *)
Definition written (b1 a b2 op ref b3 v b4 : str) : str := b1 ++ a ++ b2 ++ op ++ ref ++ b3 ++ v ++ b4.

(** Some way to read s as a test. *)
Definition Test (s : str) (a o : str) (r : option str) (v : str) : Prop :=
  exists b1 b2 op ref b3 b4,
    s = written b1 a b2 op ref b3 v b4 /\ blanks b1 /\ blanks b2 /\ blanks b3 /\ blanks b4 /\
    name a /\ operator op o /\ reference r ref /\ value v.

(** The canonical way to write a test: the value does not start with a blank,
    nor with something that belongs to the operator or to a reference; after
    the value there is nothing, or a newline and blanks. *)
Inductive Writes : str -> str -> str -> option str -> str -> Prop :=
| Writes_intro b1 a b2 op o r ref b3 v b4 :
    blanks b1 -> name a -> blanks b2 -> operator op o -> reference r ref -> blanks b3 -> value v ->
    blanks b4 -> not_starting (fun c => c <> NL) b4 ->
    not_starting (fun c => is_space c = true) v ->
    (b3 = [] -> r = None -> not_starting (eq 123) v) ->
    (b3 = [] -> r = None -> In op [$">"; $"<"; $"+"; $"-"] -> not_starting (eq 61) v) ->
    Writes (written b1 a b2 op ref b3 v b4) a o r v.
