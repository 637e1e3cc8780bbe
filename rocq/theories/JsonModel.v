(** What json.dump writes: CPython's json.encoder with its default settings
    (ensure_ascii, no indentation), for the values that occur. *)
From Coq Require Import List NArith ZArith Bool.
From Verif Require Import Py TypeModel FieldModel.
Import ListNotations.

(** '{0:04x}'.format(n) *)
Definition hex4 (n : N) : str :=
  let s := format_base 16 (Z.of_N n) in repeat 48%N (4 - length s) ++ s.
(** json.encoder.py_encode_basestring_ascii: the replacement of a character *)
Definition encode_char (c : char) : str :=
  if N.eqb c 92 then $"\\" else if N.eqb c 34 then $"\""" 
  else if N.eqb c 10 then $"\n" else if N.eqb c 13 then $"\r" else if N.eqb c 9 then $"\t"
  else if N.eqb c 12 then $"\f" else if N.eqb c 8 then $"\b"
  else if (32 <=? c)%N && (c <=? 126)%N then [c]
  else if (c <? 65536)%N then $"\u" ++ hex4 c
  else let n := (c - 65536)%N in
       $"\u" ++ hex4 (N.lor 55296 (N.land (N.shiftr n 10) 1023)) ++ $"\u" ++ hex4 (N.lor 56320 (N.land n 1023)).
Definition encode_string (s : str) : str := 34%N :: flat_map encode_char s ++ [34%N].

(** The values of records: None or an attribute's value *)
Definition dumps_value (v : option value) : str :=
  match v with
  | None => $"null"
  | Some (VBool b) => if b then $"true" else $"false"
  | Some (VInt z) => str_of_Z z
  | Some (VStr s) => encode_string s
  | Some (VList l) => $"[" ++ join_with ($", ") (map encode_string l) ++ $"]"
  end.
Definition dumps_item (kv : str * option value) : str := encode_string (fst kv) ++ $": " ++ dumps_value (snd kv).
Definition dumps (record : list (str * option value)) : str :=
  $"{" ++ join_with ($", ") (map dumps_item record) ++ $"}".
