(** A reader of JSON texts (RFC 8259).  Numbers that are not integers are not
    read.  Strings are sequences of UTF-16 code units, as in the RFC. *)
From Coq Require Import List NArith ZArith Bool.
From Verif Require Import Py TypeModel.
Import ListNotations.

Inductive json := JNull | JBool (b : bool) | JInt (z : Z) | JStr (u : list N) | JArr (l : list json) | JObj (l : list (list N * json)).

(** the code units of a character *)
Definition utf16 (c : char) : list N :=
  if (c <? 65536)%N then [c] else [55296 + (c - 65536) / 1024; 56320 + (c - 65536) mod 1024]%N.
Fixpoint skip_ws (s : str) : str :=
  match s with
  | c :: t => if N.eqb c 32 || N.eqb c 9 || N.eqb c 10 || N.eqb c 13 then skip_ws t else s
  | [] => []
  end.
Definition hex_value (c : char) : option N :=
  if ((48 <=? c) && (c <=? 57))%N then Some (c - 48)%N
  else if ((97 <=? c) && (c <=? 102))%N then Some (c - 87)%N
  else if ((65 <=? c) && (c <=? 70))%N then Some (c - 55)%N else None.
Definition hex4_value (a b c d : char) : option N :=
  match hex_value a, hex_value b, hex_value c, hex_value d with
  | Some a, Some b, Some c, Some d => Some (((a * 16 + b) * 16 + c) * 16 + d)%N
  | _, _, _, _ => None
  end.
Definition short_escape (c : char) : option N :=
  if N.eqb c 34 then Some 34%N else if N.eqb c 92 then Some 92%N else if N.eqb c 47 then Some 47%N
  else if N.eqb c 98 then Some 8%N else if N.eqb c 102 then Some 12%N else if N.eqb c 110 then Some 10%N
  else if N.eqb c 114 then Some 13%N else if N.eqb c 116 then Some 9%N else None.
Definition prepend {A B} (a : list A) (o : option (list A * B)) : option (list A * B) :=
  match o with Some (l, b) => Some (a ++ l, b) | None => None end.
(** what follows the opening quotation mark *)
Fixpoint read_chars (s : str) : option (list N * str) :=
  match s with
  | [] => None
  | c :: t =>
      if N.eqb c 34 then Some ([], t)
      else if N.eqb c 92 then
        match t with
        | [] => None
        | x :: t =>
            if N.eqb x 117 then
              match t with
              | h1 :: h2 :: h3 :: h4 :: t =>
                  match hex4_value h1 h2 h3 h4 with Some u => prepend [u] (read_chars t) | None => None end
              | _ => None
              end
            else match short_escape x with Some u => prepend [u] (read_chars t) | None => None end
        end
      else if (c <? 32)%N then None
      else prepend (utf16 c) (read_chars t)
  end.
Definition read_string (s : str) : option (list N * str) :=
  match s with c :: t => if N.eqb c 34 then read_chars t else None | [] => None end.
(** digits, without leading zeros, not followed by a fraction or an exponent *)
Fixpoint take_digits (s : str) : str * str :=
  match s with
  | c :: t => if ((48 <=? c) && (c <=? 57))%N then let '(d, r) := take_digits t in (c :: d, r) else ([], s)
  | [] => ([], [])
  end.
Definition digits_number (s : str) : N := fold_left (fun a c => a * 10 + (c - 48))%N s 0%N.
Definition read_natural (s : str) : option (N * str) :=
  let '(d, r) := take_digits s in
  match d with
  | [] => None
  | c :: more =>
      if N.eqb c 48 && negb (match more with [] => true | _ => false end) then None
      else match r with
           | x :: _ => if N.eqb x 46 || N.eqb x 101 || N.eqb x 69 then None else Some (digits_number d, r)
           | [] => Some (digits_number d, r)
           end
  end.
Definition read_number (s : str) : option (json * str) :=
  match s with
  | c :: t =>
      if N.eqb c 45 then match read_natural t with Some (n, r) => Some (JInt (- Z.of_N n), r) | None => None end
      else match read_natural s with Some (n, r) => Some (JInt (Z.of_N n), r) | None => None end
  | [] => None
  end.
Definition read_word (w : str) (v : json) (s : str) : option (json * str) :=
  if starts_with w s then Some (v, skipn (length w) s) else None.

Section Elements.
  Variable read : str -> option (json * str).
  (** elements up to the closing bracket *)
  Fixpoint read_elements (n : nat) (s : str) : option (list json * str) :=
    match n with
    | O => None
    | S n =>
        match read s with
        | None => None
        | Some (v, s) =>
            match skip_ws s with
            | c :: t => if N.eqb c 93 then Some ([v], t)
                        else if N.eqb c 44 then prepend [v] (read_elements n t) else None
            | [] => None
            end
        end
    end.
  Definition read_member (s : str) : option (list N * json * str) :=
    match read_string (skip_ws s) with
    | None => None
    | Some (k, s) =>
        match skip_ws s with
        | c :: t => if N.eqb c 58 then match read t with Some (v, s) => Some (k, v, s) | None => None end else None
        | [] => None
        end
    end.
  Fixpoint read_members (n : nat) (s : str) : option (list (list N * json) * str) :=
    match n with
    | O => None
    | S n =>
        match read_member s with
        | None => None
        | Some (k, v, s) =>
            match skip_ws s with
            | c :: t => if N.eqb c 125 then Some ([(k, v)], t)
                        else if N.eqb c 44 then prepend [(k, v)] (read_members n t) else None
            | [] => None
            end
        end
    end.
End Elements.
Fixpoint read_value (fuel : nat) (s : str) : option (json * str) :=
  match fuel with
  | O => None
  | S fuel =>
      match skip_ws s with
      | [] => None
      | c :: t =>
          if N.eqb c 34 then match read_chars t with Some (u, r) => Some (JStr u, r) | None => None end
          else if N.eqb c 91 then
            match skip_ws t with
            | d :: r => if N.eqb d 93 then Some (JArr [], r)
                        else match read_elements (read_value fuel) (length t) t with
                             | Some (l, r) => Some (JArr l, r) | None => None end
            | [] => None
            end
          else if N.eqb c 123 then
            match skip_ws t with
            | d :: r => if N.eqb d 125 then Some (JObj [], r)
                        else match read_members (read_value fuel) (length t) t with
                             | Some (l, r) => Some (JObj l, r) | None => None end
            | [] => None
            end
          else if N.eqb c 110 then read_word ($"null") JNull (c :: t)
          else if N.eqb c 116 then read_word ($"true") (JBool true) (c :: t)
          else if N.eqb c 102 then read_word ($"false") (JBool false) (c :: t)
          else read_number (c :: t)
      end
  end.
(** a whole text *)
Definition read_json (s : str) : option json :=
  match read_value (length s) s with
  | Some (v, r) => match skip_ws r with [] => Some v | _ => None end
  | None => None
  end.

(** the JSON values of attributes and records *)
Definition json_string (s : str) : json := JStr (flat_map utf16 s).
Definition json_value (v : option value) : json :=
  match v with
  | None => JNull
  | Some (VBool b) => JBool b
  | Some (VInt z) => JInt z
  | Some (VStr s) => json_string s
  | Some (VList l) => JArr (map json_string l)
  end.
Definition json_record (r : list (str * option value)) : json :=
  JObj (map (fun kv => (flat_map utf16 (fst kv), json_value (snd kv))) r).
(** texts and values made of Unicode code points *)
Definition unicode (s : str) : Prop := Forall (fun c => (c < 1114112)%N) s.
Definition unicode_value (v : option value) : Prop :=
  match v with Some (VStr s) => unicode s | Some (VList l) => Forall unicode l | _ => True end.
Definition unicode_record (r : list (str * option value)) : Prop :=
  Forall (fun kv => unicode (fst kv) /\ unicode_value (snd kv)) r.
