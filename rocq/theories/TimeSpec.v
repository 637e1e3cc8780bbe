(** Dates and times as texts, and the calendar.  Of the model only the type of
    dates is used. *)
From Coq Require Import List NArith ZArith Bool.
From Verif Require Import Py TimeModel.
Import ListNotations.
Local Open Scope Z_scope.

(** A text of [n] decimal digits for a number *)
Fixpoint value (t : str) (acc : Z) : Z :=
  match t with [] => acc | c :: t => value t (10 * acc + (Z.of_N c - 48)) end.
Definition digit (c : char) : Prop := (48 <= c <= 57)%N.
Definition Num (n : nat) (z : Z) (t : str) : Prop := length t = n /\ Forall digit t /\ value t 0 = z.

(** The Gregorian calendar: leap years have 366 days. *)
Definition leap (y : Z) : Prop := (4 | y) /\ (~ (100 | y) \/ (400 | y)).
Definition long_month (m : Z) : Prop := In m [1; 3; 5; 7; 8; 10; 12].
Definition month_length (y m n : Z) : Prop :=
  (long_month m /\ n = 31) \/ (In m [4; 6; 9; 11] /\ n = 30) \/
  (m = 2 /\ ((leap y /\ n = 29) \/ (~ leap y /\ n = 28))).
Definition valid (d : datetime) : Prop :=
  1 <= year d <= 9999 /\ 1 <= month d <= 12 /\ (exists n, month_length (year d) (month d) n /\ 1 <= day d <= n) /\
  0 <= hour d <= 23 /\ 0 <= minute d <= 59 /\ 0 <= second d <= 59.
(** Seconds since 1970-01-01 00:00:00, counted in days since 0000-03-01: years
    begin in March, so that a leap day is the last day of a year. *)
Definition days (y m d : Z) : Z :=
  let y' := if m <=? 2 then y - 1 else y in
  let m' := (m + 9) mod 12 in
  365 * y' + y' / 4 - y' / 100 + y' / 400 + (153 * m' + 2) / 5 + (d - 1).
Definition seconds (d : datetime) : Z :=
  86400 * (days (year d) (month d) (day d) - days 1970 1 1) + 3600 * hour d + 60 * minute d + second d.
(** A time zone without daylight saving time *)
Definition zone (offset : Z) (d : datetime) : res Z := Ok (seconds d - offset).

(** A zone that goes from one to two hours ahead of UTC at the local time
    [change]; local times that are left out are read with the old offset *)
Definition summer (change : datetime) (d : datetime) : res Z :=
  Ok (seconds d - (if seconds d <? seconds change + 3600 then 3600 else 7200)).
Definition same_daytime (d e : datetime) : Prop := hour e = hour d /\ minute e = minute d /\ second e = second d.

(** The texts of the manual page (man/ff.1:235-251) *)
Definition ymd (sep : str) (d : datetime) (s : str) : Prop :=
  exists y m dd, Num 4 (year d) y /\ Num 2 (month d) m /\ Num 2 (day d) dd /\ s = y ++ sep ++ m ++ sep ++ dd.
Definition hm (sep : str) (d : datetime) (s : str) : Prop :=
  exists h m, Num 2 (hour d) h /\ Num 2 (minute d) m /\ s = h ++ sep ++ m.
Definition hms (d : datetime) (s : str) : Prop :=
  exists t u, hm ($":") d t /\ Num 2 (second d) u /\ s = t ++ $":" ++ u.

(** What is accepted besides: one digit is enough, except for the year; any
    white space between date and time; a blank may stand for the first digit
    of a day. *)
Definition Short (z : Z) (t : str) : Prop := Num 1 z t \/ Num 2 z t.
Definition ShortDay (z : Z) (t : str) : Prop := Short z t \/ exists c, t = [32%N; c] /\ Num 1 z [c].
Definition Blank (w : str) : Prop := w <> [] /\ Forall (fun c => is_space c = true) w.
Definition date_text (sep : str) (d : datetime) (s : str) : Prop :=
  exists y m dd, Num 4 (year d) y /\ Short (month d) m /\ ShortDay (day d) dd /\ s = y ++ sep ++ m ++ sep ++ dd.
Definition minute_text (sep : str) (d : datetime) (s : str) : Prop :=
  exists h m, Short (hour d) h /\ Short (minute d) m /\ s = h ++ sep ++ m.
Definition second_text (d : datetime) (s : str) : Prop :=
  exists t u, minute_text ($":") d t /\ Short (second d) u /\ s = t ++ $":" ++ u.
Definition moment_text (d : datetime) (s : str) : Prop :=
  (exists a w b, date_text ($"-") d a /\ Blank w /\ second_text d b /\ s = a ++ w ++ b) \/
  (second d = 0 /\ exists a w b, date_text ($"-") d a /\ Blank w /\ minute_text ($":") d b /\ s = a ++ w ++ b) \/
  (second d = 0 /\ exists a b, date_text [] d a /\ minute_text [] d b /\ s = a ++ b) \/
  (hour d = 0 /\ minute d = 0 /\ second d = 0 /\ (date_text ($"-") d s \/ date_text [] d s)).
Definition daytime_text (d : datetime) (s : str) : Prop :=
  second_text d s \/ (second d = 0 /\ minute_text ($":") d s).
(** The texts that float() may take for a number: a sign only in front or
    after an e, and nothing but digits, underscores and points otherwise *)
Definition sign (t : str) : Prop := In t [[]; $"+"; $"-"].
Definition number_char (c : char) : Prop := digit c \/ In c ($"_.").
Definition decimal (t : str) : Prop :=
  exists sg body ex, sign sg /\ Forall number_char body /\ t = sg ++ body ++ ex /\
    (ex = [] \/ exists e sg' more, In e ($"eE") /\ sign sg' /\ Forall number_char more /\ ex = e :: sg' ++ more).
Definition special (t : str) : Prop :=
  exists sg w, sign sg /\ t = sg ++ w /\ In (lower w) [$"inf"; $"infinity"; $"nan"].
Definition number_text (s : str) : Prop :=
  exists a t b, s = a ++ t ++ b /\ Forall (fun c => is_space c = true) (a ++ b) /\ (decimal t \/ special t).
(** The number with a sign in front *)
Definition negate (sg : str) (z : Z) : Z := if str_eqb sg ($"-") then - z else z.
(** [n] is [v] times ten to the power of [sg k] *)
Definition scaled (sg : str) (v k n : Z) : Prop := (sg = $"-" /\ v = n * 10 ^ k) \/ (sg <> $"-" /\ n = v * 10 ^ k).
