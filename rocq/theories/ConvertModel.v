(** Model of /repo/libff/convert.py: durations (79-130) and sizes (25, 48-76). *)
From Coq Require Import List NArith ZArith Bool.
From Verif Require Import Py Re FloatLib.
Import ListNotations.
Local Open Scope Z_scope.

(** f"{n:02}" for a non-negative number. *)
Definition pad2 (n : Z) : str :=
  let s := str_of_Z n in if Nat.ltb (length s) 2 then $"0" ++ s else s.

(** libff/convert.py:79-89 format_duration, for non-negative integers. *)
Definition format_duration (seconds : Z) : str :=
  let hours := seconds / 3600 in
  let minutes := (seconds mod 3600) / 60 in
  let seconds := seconds mod 60 in
  if negb (hours =? 0) then str_of_Z hours ++ $"h" ++ pad2 minutes ++ $"m" ++ pad2 seconds ++ $"s"
  else str_of_Z minutes ++ $"m" ++ pad2 seconds ++ $"s".

(** libff/convert.py:92 *)
Definition duration_pattern : str := $"(\d+)([smhdwMy])?".
Definition duration_re : re :=
  Eval vm_compute in match compile false duration_pattern with COk r => r | _ => Eps end.
Lemma duration_re_ok : compile false duration_pattern = COk duration_re.
Proof. reflexivity. Qed.

(** libff/convert.py:111-124 *)
Definition unit_seconds (u : option str) : Z :=
  match u with
  | None => 0
  | Some u =>
      if str_eqb u ($"s") then 1
      else if str_eqb u ($"m") then 60
      else if str_eqb u ($"h") then 3600
      else if str_eqb u ($"d") then 86400
      else if str_eqb u ($"w") then 604800
      else if str_eqb u ($"M") then 2592000
      else if str_eqb u ($"y") then 31536000
      else 0
  end.

(** libff/convert.py:104-124, the loop over the matches.  [pos] is the position
    after the previous match, [end_] the variable end.  int(count) cannot fail
    on a group of digits; the branch is kept.  (CPython limits int() to 4300
    digits; that limit is not modelled.) *)
Fixpoint duration_loop (l : list (str * str * caps)) (pos end_ duration : Z) : res (Z * Z) :=
  match l with
  | [] => Ok (end_, duration)
  | (skip, text, cs) :: l =>
      let start := pos + Z.of_nat (length skip) in
      if negb (start =? end_) then Err ValueError
      else
        match group 1 cs with
        | None => Err TypeErr
        | Some count =>
            let end_ := start + Z.of_nat (length count) + 1 in
            match py_int count with
            | None => Err ValueError
            | Some n =>
                duration_loop l (start + Z.of_nat (length text)) end_
                  (duration + n * unit_seconds (group 2 cs))
            end
        end
  end.

(** libff/convert.py:94-130 parse_duration *)
Definition parse_duration (s : str) : res Z :=
  match py_int s with
  | Some n => Ok (n * 60)
  | None =>
      do ' (end_, duration) <- duration_loop (fst (scan duration_re s)) 0 0 0;
      if negb (end_ =? Z.of_nat (length s)) then Err ValueError else Ok duration
  end.

(** libff/convert.py:25 *)
Definition UNITS : list str :=
  [ []; $"K"; $"M"; $"G"; $"T"; $"P"; $"E"; $"Z"; $"Y" ].

(** libff/convert.py:48-52 *)
Definition size_pattern : str :=
  let units := tl UNITS in   (* unit for unit in UNITS if unit *)
  $"(\d+)b?$|(\d+(?:[\.]\d+)?)(" ++
  join_with ($"|") units ++ $"|" ++
  join_with ($"|") (map (fun u => u ++ $"B") units) ++ $"|" ++
  join_with ($"|") (map (fun u => u ++ $"iB") units) ++
  $")?$".
Definition size_re : re :=
  Eval vm_compute in match compile true size_pattern with COk r => r | _ => Eps end.
Lemma size_re_ok : compile true size_pattern = COk size_re.
Proof. reflexivity. Qed.

(** UNITS.index(prefix) *)
Fixpoint index_of (x : str) (l : list str) : option Z :=
  match l with
  | [] => None
  | y :: t => if str_eqb x y then Some 0 else option_map Z.succ (index_of x t)
  end.

(** float(number) for a group that matched [\d+(?:[\.]\d+)?] *)
Definition float_of (s : str) : fl :=
  match split_on DOT s with
  | [a; b] => rn (Z.of_N (digits_val (a ++ b))) (10 ^ Z.of_nat (length b))
  | _ => rn (Z.of_N (digits_val s)) 1
  end.

(** libff/convert.py:54-76 parse_size.  In float * int the integer is converted
    to the nearest double first. *)
Definition parse_size (s : str) : res Z :=
  let string := upper s in
  match re_match size_re string with
  | None => Err ValueError
  | Some (_, cs) =>
      match group 1 cs with
      | Some number_in_bytes =>
          match py_int number_in_bytes with Some n => Ok n | None => Err ValueError end
      | None =>
          match group 3 cs with
          | None => Err ValueError
          | Some unit =>
              let prefix := firstn 1 unit in
              let suffix := skipn 1 unit in
              match index_of prefix UNITS with
              | None => Err ValueError
              | Some exp =>
                  let base := if str_eqb suffix ($"B") then 1000 else 1024 in
                  match group 2 cs with
                  | None => Err TypeErr
                  | Some number => fint (fmul (float_of number) (rn (base ^ exp) 1))
                  end
              end
          end
      end
  end.
