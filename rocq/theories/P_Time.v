(** Dates and times: C70-C72. *)
From Coq Require Import List NArith ZArith Bool Lia.
From Verif Require Import Py ConvertSpec TimeModel TimeSpec TimeProofs TimeMoreProofs.
Import ListNotations.
Local Open Scope Z_scope.

(** C70: a date, or a date and a time, with dashes and colons, stands for that
    local time, whatever the clock says. *)
Theorem C70_moment : forall timestamp now clock d s, valid d ->
  (exists a w b, date_text ($"-") d a /\ Blank w /\ second_text d b /\ s = a ++ w ++ b) \/
  (second d = 0 /\ exists a w b, date_text ($"-") d a /\ Blank w /\ minute_text ($":") d b /\ s = a ++ w ++ b) \/
  (hour d = 0 /\ minute d = 0 /\ second d = 0 /\ date_text ($"-") d s) ->
  parse_time timestamp now clock s = timestamp d.
Proof. exact parse_moment. Qed.
Print Assumptions C70_moment.
(** The forms with dashes and colons of the manual page *)
Theorem C70_documented_partial : forall timestamp now clock d a b s, valid d -> ymd ($"-") d a ->
  (hms d b /\ s = a ++ $" " ++ b) \/ (second d = 0 /\ hm ($":") d b /\ s = a ++ $" " ++ b) \/
  (hour d = 0 /\ minute d = 0 /\ second d = 0 /\ s = a) ->
  parse_time timestamp now clock s = timestamp d.
Proof. exact parse_documented. Qed.
Print Assumptions C70_documented_partial.
Definition noon : datetime := DT 2020 5 12 12 0 0.
Lemma noon_valid : valid noon.
Proof.
  unfold valid. cbn. repeat (split; [lia|]). split; [exists 31; split; [left; split; [unfold long_month; cbn; auto 9|reflexivity]|lia]|lia].
Qed.
Example C70_moment_example : valid noon /\
  (second noon = 0 /\ exists a w b, date_text ($"-") noon a /\ Blank w /\ minute_text ($":") noon b /\
    $"2020-5-12  12:0" = a ++ w ++ b) /\
  parse_time (zone 7200) noon 0 ($"2020-5-12  12:0") = Ok 1589277600.
Proof.
  split; [exact noon_valid|]. split; [|vm_compute; reflexivity]. split; [reflexivity|].
  exists ($"2020-5-12"), ($"  "), ($"12:0"). split; [|split; [|split; [|reflexivity]]].
  - exists ($"2020"), ($"5"), ($"12"). split; [|split; [left|split; [left; right|reflexivity]]];
      repeat split; repeat constructor; cbn; lia.
  - split; [discriminate|]. repeat constructor.
  - exists ($"12"), ($"0"). split; [right; repeat split; repeat constructor; cbn; lia|].
    split; [left; repeat split; repeat constructor; cbn; lia|reflexivity].
Qed.
Example C70_documented_example : ymd ($"-") noon ($"2020-05-12") /\ hms noon ($"12:00:00").
Proof.
  split.
  - exists ($"2020"), ($"05"), ($"12"). repeat split; repeat constructor; cbn; lia.
  - exists ($"12:00"), ($"00"). split; [exists ($"12"), ($"00")|]; repeat split; repeat constructor; cbn; lia.
Qed.

(** A string of digits is a number of seconds, before any date is tried. *)
Theorem C70_digits : forall timestamp now clock t, t <> [] -> Forall digit t -> value t 0 < 2 ^ 53 ->
  parse_time timestamp now clock t = Ok (value t 0).
Proof. exact parse_digits. Qed.
Print Assumptions C70_digits.
Example C70_digits_example : $"202005121200" <> [] /\ Forall digit ($"202005121200") /\
  value ($"202005121200") 0 = 202005121200 /\ 202005121200 < 2 ^ 53.
Proof. split; [discriminate|]. split; [repeat constructor; cbn; lia|]. split; reflexivity. Qed.
(** The same with a sign, and with up to six digits after a point, which are
    dropped. *)
Theorem C70_number : forall timestamp now clock sg t, sign sg -> t <> [] -> Forall digit t -> value t 0 < 2 ^ 53 ->
  parse_time timestamp now clock (sg ++ t) = Ok (negate sg (value t 0)).
Proof. exact parse_signed. Qed.
Print Assumptions C70_number.
Theorem C70_fraction : forall timestamp now clock sg t f, sign sg -> t <> [] -> Forall digit t -> value t 0 < 2 ^ 33 ->
  f <> [] -> Forall digit f -> (length f <= 6)%nat ->
  parse_time timestamp now clock (sg ++ t ++ $"." ++ f) = Ok (negate sg (value t 0)).
Proof. exact parse_fraction. Qed.
Print Assumptions C70_fraction.
Example C70_fraction_example : sign ($"-") /\ Forall digit ($"1589234400") /\ value ($"1589234400") 0 < 2 ^ 33 /\ Forall digit ($"999999") /\
  negate ($"-") (value ($"1589234400") 0) = -1589234400.
Proof.
  split; [right; right; now left|]. split; [repeat constructor; cbn; lia|]. split; [reflexivity|].
  split; [repeat constructor; cbn; lia|reflexivity].
Qed.
(** With an exponent it denotes the number times that power of ten, if this is
    an integer. *)
Theorem C70_exponent : forall timestamp now clock sg t e xs x n, sign sg -> t <> [] -> Forall digit t -> e = $"e" \/ e = $"E" ->
  sign xs -> x <> [] -> Forall digit x -> scaled xs (value t 0) (value x 0) n -> n < 2 ^ 53 ->
  parse_time timestamp now clock (sg ++ t ++ e ++ xs ++ x) = Ok (negate sg n).
Proof. exact parse_exponent. Qed.
Print Assumptions C70_exponent.
Example C70_exponent_example : Forall digit ($"1500") /\ sign ($"-") /\ scaled ($"-") (value ($"1500") 0) (value ($"2") 0) 15 /\ scaled ($"+") (value ($"15") 0) (value ($"8") 0) 1500000000 /\ 1500000000 < 2 ^ 53.
Proof.
  split; [repeat constructor; cbn; lia|]. split; [right; right; now left|]. split; [left; split; reflexivity|].
  split; [right; split; [discriminate|reflexivity]|reflexivity].
Qed.
(** So the three documented forms without dashes and colons never denote a
    date or a time. *)
Theorem C70_compact_refuted :
  (exists d s, valid d /\ hour d = 0 /\ minute d = 0 /\ second d = 0 /\ ymd [] d s /\
    forall now clock, parse_time (zone 0) now clock s = Ok 20200512 /\ zone 0 d = Ok 1589241600) /\
  (exists d a b, valid d /\ second d = 0 /\ ymd [] d a /\ hm [] d b /\
    forall now clock, parse_time (zone 0) now clock (a ++ b) = Ok 202005121200 /\ zone 0 d = Ok 1589284800) /\
  (exists d s, valid d /\ second d = 0 /\ hm [] d s /\
    forall now clock, parse_time (zone 0) now clock s = Ok 1200).
Proof.
  split; [|split].
  - exists (DT 2020 5 12 0 0 0), ($"20200512"). split.
    { unfold valid. cbn. repeat (split; [lia|]). split; [exists 31; split; [left; split; [unfold long_month; cbn; auto 9|reflexivity]|lia]|lia]. }
    repeat (split; [reflexivity|]). split; [exists ($"2020"), ($"05"), ($"12"); repeat split; repeat constructor; cbn; lia|].
    intros now clock. split; [|vm_compute; reflexivity].
    rewrite C70_digits; [reflexivity|discriminate|repeat constructor; cbn; lia|reflexivity].
  - exists noon, ($"20200512"), ($"1200"). split; [exact noon_valid|]. split; [reflexivity|].
    split; [exists ($"2020"), ($"05"), ($"12"); repeat split; repeat constructor; cbn; lia|].
    split; [exists ($"12"), ($"00"); repeat split; repeat constructor; cbn; lia|].
    intros now clock. split; [|vm_compute; reflexivity].
    rewrite C70_digits; [reflexivity|discriminate|repeat constructor; cbn; lia|reflexivity].
  - exists noon, ($"1200"). split; [exact noon_valid|]. split; [reflexivity|].
    split; [exists ($"12"), ($"00"); repeat split; repeat constructor; cbn; lia|].
    intros now clock. rewrite C70_digits; [reflexivity|discriminate|repeat constructor; cbn; lia|reflexivity].
Qed.
Print Assumptions C70_compact_refuted.
(** A duration is that long ago. *)
Theorem C70_ago : forall timestamp now clock s n, Duration s n -> s <> [] ->
  parse_time timestamp now clock s = Ok (Z.quot (clock - n * 1000000) 1000000).
Proof. exact parse_ago. Qed.
Print Assumptions C70_ago.
Example C70_ago_example : Duration ($"90m") 5400 /\ $"90m" <> [] /\
  parse_time (zone 0) noon 1589284800500000 ($"90m") = Ok 1589279400.
Proof.
  split; [|split; [discriminate|vm_compute; reflexivity]].
  apply (dur_cons ($"90") 109%N 60 [] 0).
  - split; [discriminate|]. intros c [<-|[<-|[]]]; cbn; lia.
  - constructor.
  - constructor.
Qed.
(** Whatever else is accepted is a number, a moment or a time of day with
    shortened fields, or a sequence of digits and single characters. *)
Theorem C70_accepted : forall timestamp now clock s t, parse_time timestamp now clock s = Ok t ->
  number_text s \/
  (exists d, valid d /\ moment_text d s /\ timestamp d = Ok t) \/
  (exists d e, valid d /\ daytime_text d s /\ same_daytime d e /\ timestamp e = Ok t) \/
  (exists n, Sloppy s n /\ t = Z.quot (clock - n * 1000000) 1000000).
Proof. exact parse_accepted. Qed.
Print Assumptions C70_accepted.
Example C70_accepted_example :
  parse_time (zone 0) noon 0 ($"202005 9") = zone 0 (DT 2020 5 9 0 0 0) /\ parse_time (zone 0) noon 0 ($"2020-02-30") = Err ValueError.
Proof. split; vm_compute; reflexivity. Qed.
(** Not every text that is no time is rejected: a date that does not exist,
    and something after it, is the current time. *)
Theorem C70_rejected_refuted : forall timestamp now clock,
  parse_time timestamp now clock ($"2020-02-30T") = Ok (Z.quot clock 1000000) /\
  parse_time timestamp now clock [] = Ok (Z.quot clock 1000000).
Proof. exact not_rejected. Qed.
Print Assumptions C70_rejected_refuted.

(** C71: a time that was printed is read back, if the local time has four
    digits in its year and happens only once. *)
Theorem C71_roundtrip_partial : forall localtime timestamp now clock t,
  valid (localtime t) -> 1000 <= year (localtime t) -> timestamp (localtime t) = Ok t ->
  parse_time timestamp now clock (format_time (localtime t)) = Ok t.
Proof. exact print_read. Qed.
Print Assumptions C71_roundtrip_partial.
Example C71_example : valid noon /\ 1000 <= year noon /\ zone 7200 noon = Ok 1589277600 /\
  format_time noon = $"2020-05-12 12:00:00".
Proof. split; [exact noon_valid|]. split; [discriminate|]. split; vm_compute; reflexivity. Qed.
(** If a local time happens twice, one of the two is not read back. *)
Theorem C71_twice_refuted : forall (localtime : Z -> datetime) timestamp now clock t t', t <> t' -> localtime t = localtime t' ->
  ~ (forall u, parse_time timestamp now clock (format_time (localtime u)) = Ok u).
Proof. exact print_twice. Qed.
Print Assumptions C71_twice_refuted.
(** Years before 1000 are printed with fewer digits, which are not read. *)
Theorem C71_early_refuted : forall timestamp now clock,
  format_time (DT 999 12 31 23 59 59) = $"999-12-31 23:59:59" /\
  parse_time timestamp now clock (format_time (DT 999 12 31 23 59 59)) = Err ValueError.
Proof. exact early_year. Qed.
Print Assumptions C71_early_refuted.

(** C72: a time of day is the last such time, in a zone without daylight
    saving time. *)
Theorem C72_last_partial : forall offset now clock d s, valid now -> valid d -> daytime_text d s -> (4 <= length s)%nat ->
  ~ (year now = 1 /\ month now = 1 /\ day now = 1) ->
  exists r e, parse_time (zone offset) now clock s = Ok r /\ valid e /\ same_daytime d e /\ r = seconds e - offset /\
    seconds e <= seconds now < seconds e + 86400.
Proof. exact last_time. Qed.
Print Assumptions C72_last_partial.
Example C72_example : valid noon /\ daytime_text (DT 1 1 1 23 10 0) ($"23:10") /\
  parse_time (zone 0) noon 0 ($"23:10") = zone 0 (DT 2020 5 11 23 10 0).
Proof.
  split; [exact noon_valid|]. split; [|vm_compute; reflexivity]. right. split; [reflexivity|].
  exists ($"23"), ($"10"). split; [right|split; [right|reflexivity]]; repeat split; repeat constructor; cbn; lia.
Qed.
(** When the clock has just been put forward, a time of day that was left out
    lies in the future. *)
Theorem C72_last_refuted : exists change now d s r n, valid now /\ valid d /\ daytime_text d s /\
  (forall clock, parse_time (summer change) now clock s = Ok r) /\ summer change now = Ok n /\ n < r.
Proof. exact left_out. Qed.
Print Assumptions C72_last_refuted.
