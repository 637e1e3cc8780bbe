(** Specification for C125 and C126: what a line looks like on standard output,
    and whose lines there are. *)
From Coq Require Import List NArith Bool.
From Verif Require Import Py BaseSpec CacheModel PrintModel.
Import ListNotations.

(** The bytes of a text *)
Definition Bytes (enc : char -> option str) (s b : str) : Prop :=
  exists parts, Forall2 (fun c p => enc c = Some p) s parts /\ b = concat parts.

(** A character in hexadecimal digits, with \x, \u or \U, whichever is the
    shortest that suffices *)
Definition Escape (c : char) (e : str) : Prop :=
  exists letter width h, e = 92%N :: letter :: h /\ length h = width /\ Digits 16 h c /\
    ((c < 256)%N /\ letter = 120%N /\ width = 2 \/
     (256 <= c < 65536)%N /\ letter = 117%N /\ width = 4 \/
     (65536 <= c)%N /\ letter = 85%N /\ width = 8).
(** A text in which exactly the characters that the encoding does not have are
    escaped *)
Inductive Shown (enc : char -> option str) : str -> str -> Prop :=
| shown_nil : Shown enc [] []
| shown_same c b s t : enc c = Some b -> Shown enc s t -> Shown enc (c :: s) (c :: t)
| shown_escape c e s t : enc c = None -> Escape c e -> Shown enc s t -> Shown enc (c :: s) (e ++ t).

(** What a call prints *)
Inductive Prints (out fs : char -> option str) : call -> str -> Prop :=
| prints_line newline line b n : Bytes out line b -> Bytes out newline n -> Prints out fs (CLine newline line) (b ++ n)
| prints_escaped newline line s b n : (exists c, In c line /\ out c = None) -> Shown fs line s -> Bytes out s b ->
    Bytes out newline n -> Prints out fs (CLine newline line) (b ++ n)
| prints_record pieces b n : Bytes out (concat pieces) b -> Bytes out [10%N] n -> Prints out fs (CRecord pieces) (b ++ n).
(** There is no line break in it, other than that at the end *)
Definition Unbroken (c : call) : Prop :=
  let s := match c with CLine _ line => line | CRecord pieces => concat pieces end in ~ In 10%N s /\ ~ In 13%N s.
(** The operations write exactly these bytes and then flush. *)
Definition Wrote (ops : list op) (b : str) : Prop :=
  exists ws, ops = map (fun w => Write (fst w) (snd w)) ws ++ [Flush] /\ concat (map snd ws) = b.

(** The entries of a log that come from process i *)
Definition of_process (i : nat) (log : list (nat * str)) : list str :=
  map snd (filter (fun e => Nat.eqb (fst e) i) log).

(** Two encodings *)
Definition ascii (c : char) : option str := if (c <? 128)%N then Some [c] else None.
Definition utf8 (c : char) : option str := if is_surrogate c then None else Some (utf8_char c).
