(** Model of convert.format_time and convert.parse_time
    (/repo/libff/convert.py:133-181), with the parts of Python's float(),
    datetime.strptime and datetime that they use.  What the operating system
    knows, the clock and the local time zone, are parameters. *)
From Coq Require Import List NArith ZArith Bool.
From Verif Require Import Py Re FloatLib ConvertModel.
Import ListNotations.
Local Open Scope Z_scope.

(** float(s).  Surrounding white space, a sign, inf, infinity, nan or a decimal
    number with an exponent; single underscores between digits.  None is
    ValueError.  Like in [py_int], digits outside of ASCII are rejected. *)
Inductive pyfloat := PNan | PInf | PNum (negative : bool) (f : fl).
Definition is_e (c : char) : bool := N.eqb c 101 || N.eqb c 69.
(** The part before the first e, the part after it *)
Fixpoint split_exp (s : str) : str * option str :=
  match s with
  | [] => ([], None)
  | c :: t => if is_e c then ([], Some t) else let (a, b) := split_exp t in (c :: a, b)
  end.
Definition opt_digits (s : str) : option str := match s with [] => Some [] | _ => int_digits s end.
Definition signed (s : str) : bool * str :=
  match s with
  | c :: t => if N.eqb c 43 then (false, t) else if N.eqb c 45 then (true, t) else (false, s)
  | [] => (false, [])
  end.
Definition mantissa (s : str) : option (str * Z) :=
  match split_on DOT s with
  | [a] => option_map (fun a => (a, 0)) (int_digits a)
  | [a; b] =>
      match a, b with
      | [], [] => None
      | _, _ =>
          match opt_digits a, opt_digits b with
          | Some a, Some b => Some (a ++ b, - Z.of_nat (length b))
          | _, _ => None
          end
      end
  | _ => None
  end.
Definition exponent (s : option str) : option Z :=
  match s with
  | None => Some 0
  | Some t =>
      let (neg, u) := signed t in
      option_map (fun d => if neg then - Z.of_N (digits_val d) else Z.of_N (digits_val d)) (int_digits u)
  end.
Definition py_float (s : str) : option pyfloat :=
  let (neg, u) := signed (strip s) in
  let l := lower u in
  if str_eqb l ($"inf") || str_eqb l ($"infinity") then Some PInf
  else if str_eqb l ($"nan") then Some PNan
  else
    let (a, b) := split_exp u in
    match mantissa a, exponent b with
    | Some (digits, e1), Some e2 =>
        let n := Z.of_N (digits_val digits) in
        let e := e1 + e2 in
        Some (PNum neg (if 0 <=? e then rn (n * 10 ^ e) 1 else rn n (10 ^ (- e))))
    | _, _ => None
    end.
(** int(f) *)
Definition int_of_float (f : pyfloat) : res Z :=
  match f with
  | PNan => Err ValueError
  | PInf => Err OverflowErr
  | PNum neg f => do n <- fint f; Ok (if neg then - n else n)
  end.

(** datetime.datetime without microseconds and time zone *)
Record datetime := DT { year : Z; month : Z; day : Z; hour : Z; minute : Z; second : Z }.
(** datetime.py: _is_leap, _days_in_month *)
Definition is_leap (y : Z) : bool := (y mod 4 =? 0) && (negb (y mod 100 =? 0) || (y mod 400 =? 0)).
Definition days_in_month (y m : Z) : Z :=
  if (m =? 2) && is_leap y then 29
  else nth (Z.to_nat m) [-1; 31; 28; 31; 30; 31; 30; 31; 31; 30; 31; 30; 31] 0.
(** datetime.py: _check_date_fields, _check_time_fields *)
Definition make_datetime (y mo d h mi s : Z) : res datetime :=
  if (1 <=? y) && (y <=? 9999) && (1 <=? mo) && (mo <=? 12) && (1 <=? d) && (d <=? days_in_month y mo) &&
     (0 <=? h) && (h <=? 23) && (0 <=? mi) && (mi <=? 59) && (0 <=? s) && (s <=? 59)
  then Ok (DT y mo d h mi s) else Err ValueError.

(** _strptime.TimeRE: the patterns of the directives used.  [pattern] replaces
    white space in a format by [\s+]. *)
Definition directive (c : char) : str :=
  if N.eqb c 89 then $"(?P<Y>\d\d\d\d)"
  else if N.eqb c 109 then $"(?P<m>1[0-2]|0[1-9]|[1-9])"
  else if N.eqb c 100 then $"(?P<d>3[0-1]|[1-2]\d|0[1-9]|[1-9]| [1-9])"
  else if N.eqb c 72 then $"(?P<H>2[0-3]|[0-1]\d|\d)"
  else if N.eqb c 77 then $"(?P<M>[0-5]\d|\d)"
  else $"(?P<S>6[0-1]|[0-5]\d|\d)".
Fixpoint pattern (format : str) : str :=
  match format with
  | [] => []
  | c :: t =>
      if N.eqb c 37 then match t with [] => [] | x :: u => directive x ++ pattern u end
      else if is_space c then $"\s+" ++ pattern t
      else c :: pattern t
  end.
(** The number of the group of a directive *)
Fixpoint group_of (d : char) (format : str) (n : nat) : option nat :=
  match format with
  | [] => None
  | c :: t =>
      if N.eqb c 37 then
        match t with [] => None | x :: u => if N.eqb x d then Some n else group_of d u (S n) end
      else group_of d t n
  end.
Definition field (format : str) (cs : caps) (d : char) (default : Z) : res Z :=
  match group_of d format 1 with
  | None => Ok default
  | Some n =>
      match group n cs with
      | Some t => match py_int t with Some z => Ok z | None => Err ValueError end
      | None => Err KeyErr
      end
  end.
(** _strptime._strptime: the string has to be used up; the date is checked
    there (line "datetime_date(year, month, day)"), the time by
    datetime.__new__. *)
Definition strptime (s format : str) : res datetime :=
  match compile true (pattern format) with
  | COk r =>
      match re_match r s with
      | Some ([], cs) =>
          do y <- field format cs 89%N 1900; do mo <- field format cs 109%N 1; do d <- field format cs 100%N 1;
          do h <- field format cs 72%N 0; do mi <- field format cs 77%N 0; do sec <- field format cs 83%N 0;
          make_datetime y mo d h mi sec
      | _ => Err ValueError
      end
  | _ => Err Unmodelled
  end.

(** Lexicographic order: datetime.__gt__ *)
Definition dt_gt (a b : datetime) : bool :=
  let later (x y : Z) (rest : bool) := (y <? x) || ((x =? y) && rest) in
  later (year a) (year b) (later (month a) (month b) (later (day a) (day b)
    (later (hour a) (hour b) (later (minute a) (minute b) (later (second a) (second b) false))))).
(** d - datetime.timedelta(days=1) *)
Definition day_before (d : datetime) : res datetime :=
  if 1 <? day d then Ok (DT (year d) (month d) (day d - 1) (hour d) (minute d) (second d))
  else if 1 <? month d then
    Ok (DT (year d) (month d - 1) (days_in_month (year d) (month d - 1)) (hour d) (minute d) (second d))
  else if 1 <? year d then Ok (DT (year d - 1) 12 31 (hour d) (minute d) (second d))
  else Err OverflowErr.

(** libff/convert.py:139-148 *)
Inductive format_kind := FDateTime | FDate | FTime.
Definition time_formats : list (format_kind * str) :=
  [ (FDateTime, $"%Y-%m-%d %H:%M:%S");
    (FDateTime, $"%Y-%m-%d %H:%M");
    (FDateTime, $"%Y%m%d%H%M");
    (FDate, $"%Y-%m-%d");
    (FDate, $"%Y%m%d");
    (FTime, $"%H:%M:%S");
    (FTime, $"%H:%M");
    (FTime, $"%H%M") ].

(** A number with at least two digits: strftime with %m, %d, %H, %M, %S *)
Definition two (z : Z) : str := let s := str_of_Z z in match s with [_] => 48%N :: s | _ => s end.
(** libff/convert.py:133-136.  [d] is the local time; %Y is not padded by the C
    library. *)
Definition format_time (d : datetime) : str :=
  str_of_Z (year d) ++ $"-" ++ two (month d) ++ $"-" ++ two (day d) ++ $" " ++
  two (hour d) ++ $":" ++ two (minute d) ++ $":" ++ two (second d).

Section Parse.
  (** datetime.timestamp() of a local time, as an integer *)
  Variable timestamp : datetime -> res Z.
  (** datetime.now(); its microseconds do not matter: the times compared with
      it have none *)
  Variable now : datetime.
  (** time.time() in microseconds.  The subtraction in line 178 is exact in the
      model, it is one of doubles in Python. *)
  Variable clock : Z.

  (** libff/convert.py:165-175, for one string that was understood *)
  Definition moment (kind : format_kind) (d : datetime) : res Z :=
    match kind with
    | FTime =>
        let t := DT (year now) (month now) (day now) (hour d) (minute d) (second d) in
        do t <- (if dt_gt t now then day_before t else Ok t);
        timestamp t
    | _ => timestamp d
    end.
  (** libff/convert.py:161-175; None: no format fits *)
  Fixpoint try_formats (l : list (format_kind * str)) (s : str) : option (res Z) :=
    match l with
    | [] => None
    | (kind, format) :: l =>
        match strptime s format with
        | Err ValueError => try_formats l s
        | Err e => Some (Err e)
        | Ok d => Some (moment kind d)
        end
    end.
  (** libff/convert.py:150-181 *)
  Definition parse_time (s : str) : res Z :=
    match py_float s with
    | Some f => int_of_float f
    | None =>
        match (if (4 <=? length s)%nat then try_formats time_formats s else None) with
        | Some r => r
        | None => do n <- parse_duration s; Ok (Z.quot (clock - n * 1000000) 1000000)
        end
    end.
End Parse.
