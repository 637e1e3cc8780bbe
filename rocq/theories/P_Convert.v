(** Properties C14-C16: durations and sizes. *)
From Coq Require Import List NArith ZArith Bool.
From Verif Require Import Py Re FloatLib ConvertModel ConvertSpec DurationProofs SizeProofs.
Import ListNotations.
Local Open Scope Z_scope.

(** C14: formatting and parsing a number of seconds gives it back. *)
Theorem C14_duration_roundtrip : forall n, 0 <= n -> parse_duration (format_duration n) = Ok n.
Proof. exact duration_roundtrip. Qed.
Print Assumptions C14_duration_roundtrip.
Example C14_example : format_duration 7265 = $"2h01m05s" /\ format_duration 59 = $"0m59s".
Proof. split; reflexivity. Qed.

(** C15: every well-formed duration is accepted with the sum of its parts; a
    plain number means minutes. *)
Theorem C15_duration_value : forall s v, Duration s v -> parse_duration s = Ok v.
Proof. exact parse_duration_value. Qed.
Print Assumptions C15_duration_value.
Theorem C15_minutes : forall s, digits s -> parse_duration s = Ok (decimal s * 60).
Proof. exact parse_duration_minutes. Qed.
Print Assumptions C15_minutes.
Example C15_example : Duration ($"1d12h") (36 * 3600).
Proof.
  apply (dur_cons ($"1") 100%N (24 * 60 * 60) ($"12h") (12 * 3600)).
  - split; [discriminate|]. intros c [<-|[]]. split; discriminate.
  - constructor.
  - apply (dur_cons ($"12") 104%N (60 * 60) [] 0); [|constructor|constructor].
    split; [discriminate|]. intros c [<-|[<-|[]]]; split; discriminate.
Qed.
(** ... but other strings are accepted as well: the empty string and unknown
    units count as zero. *)
Theorem C15_others_rejected_refuted :
  exists s v, parse_duration s = Ok v /\ s <> [] /\ ~ digits s /\ forall w, ~ Duration s w.
Proof.
  exists ($"12x"), 0. split; [vm_compute; reflexivity|]. split; [discriminate|]. split.
  - intros [_ H]. specialize (H 120%N (or_intror (or_intror (or_introl eq_refl)))).
    destruct H as [_ H]. now apply H.
  - intros w H. destruct (duration_last _ _ H) as (a & c & k & E & Hc); [discriminate|].
    apply (app_inj_tail [49%N; 50%N] a 120%N c) in E as [_ <-]. inversion Hc.
Qed.
Print Assumptions C15_others_rejected_refuted.
(** What is accepted exactly: a Python integer (in minutes), or a sequence of
    <digits><any character that is no digit>. *)
Theorem C15_accepted_exactly : forall s v, parse_duration s = Ok v <->
  match py_int s with Some n => v = n * 60 | None => Sloppy s v end.
Proof. exact parse_duration_exact. Qed.
Print Assumptions C15_accepted_exactly.
(** The rejection half, for strings over digits and unit letters: everything
    accepted is a number of minutes or a (possibly empty) duration. *)
Theorem C15_others_rejected_partial : forall s v,
  (forall c, In c s -> (48 <= c <= 57)%N \/ exists k, unit_of c k) ->
  parse_duration s = Ok v -> (digits s /\ v = decimal s * 60) \/ Duration s v.
Proof. exact parse_duration_only. Qed.
Print Assumptions C15_others_rejected_partial.
Example C15_partial_example :
  (forall c, In c ($"1h30") -> (48 <= c <= 57)%N \/ exists k, unit_of c k) /\
  parse_duration ($"1h30") = Err ValueError /\ parse_duration ($"1h30m") = Ok 5400.
Proof.
  split; [|split; vm_compute; reflexivity].
  intros c [<-|[<-|[<-|[<-|[]]]]]; try (left; split; discriminate). right. eexists. constructor.
Qed.

(** C16: plain bytes, exactly. *)
Theorem C16_bytes : forall ds, digits ds -> parse_size ds = Ok (decimal ds).
Proof. exact parse_size_bytes. Qed.
Print Assumptions C16_bytes.
Theorem C16_bytes_b : forall ds b, digits ds -> isB b -> parse_size (ds ++ [b]) = Ok (decimal ds).
Proof. exact parse_size_b. Qed.
Print Assumptions C16_bytes_b.
(** With units the number goes through a double: *)
Theorem C16_units_refuted :
  exists ds u b, digits ds /\ SizeUnit u b /\ parse_size (ds ++ u) <> Ok (decimal ds * b).
Proof.
  exists ($"1"), ($"YB"), (1000 ^ 8). split; [|split].
  - split; [discriminate|]. intros c [<-|[]]. split; discriminate.
  - apply su_si; [|now left]. exists 89%N. split; [vm_compute; tauto|now left].
  - vm_compute. discriminate.
Qed.
Print Assumptions C16_units_refuted.
(** ... exact below 2^53 for powers of 1024 ... *)
Theorem C16_binary_units_partial : forall ds u k,
  digits ds -> SizeUnit u (1024 ^ k) -> 1 <= k <= 8 -> decimal ds < 2 ^ 53 ->
  parse_size (ds ++ u) = Ok (decimal ds * 1024 ^ k).
Proof. exact parse_size_1024. Qed.
Print Assumptions C16_binary_units_partial.
Example C16_binary_example : SizeUnit ($"kIb") (1024 ^ 1) /\ parse_size ($"12kIb") = Ok (12 * 1024).
Proof.
  split; [|vm_compute; reflexivity].
  apply su_iec; [|now left|now right]. exists 75%N. split; [vm_compute; tauto|now right].
Qed.
(** ... and for powers of 1000 if the result divided by 8^k is below 2^53. *)
Theorem C16_decimal_units_partial : forall ds u k,
  digits ds -> SizeUnit u (1000 ^ k) -> 1 <= k <= 8 ->
  decimal ds * 125 ^ k < 2 ^ 53 -> 125 ^ k < 2 ^ 53 ->
  parse_size (ds ++ u) = Ok (decimal ds * 1000 ^ k).
Proof. exact parse_size_1000. Qed.
Print Assumptions C16_decimal_units_partial.
Example C16_decimal_example : SizeUnit ($"Gb") (1000 ^ 3) /\ 4000 * 125 ^ 3 < 2 ^ 53.
Proof.
  split; [|reflexivity]. apply su_si; [|now right]. exists 71%N. split; [vm_compute; tauto|now left].
Qed.
(** Decimal fractions of powers of 1024: the integer part of the exact value,
    if its numerator, reduced by some common divisor g, is below 2^53. *)
Theorem C16_fractions_partial : forall ds es u k g,
  digits ds -> digits es -> SizeUnit u (1024 ^ k) -> 1 <= k <= 8 -> 0 < g ->
  (g | decimal (ds ++ es) * 1024 ^ k) -> (g | 10 ^ Z.of_nat (length es)) ->
  decimal (ds ++ es) * 1024 ^ k < g * 2 ^ 53 ->
  parse_size (ds ++ DOT :: es ++ u) = Ok (decimal (ds ++ es) * 1024 ^ k / 10 ^ Z.of_nat (length es)).
Proof. exact parse_size_dec. Qed.
Print Assumptions C16_fractions_partial.
Example C16_fraction_example :
  parse_size ($"1.1k") = Ok (11 * 1024 / 10) /\ (2 | 11 * 1024 ^ 1) /\ (2 | 10 ^ 1) /\ 11 * 1024 ^ 1 < 2 * 2 ^ 53.
Proof.
  split; [vm_compute; reflexivity|]. split; [now exists 5632|]. split; [now exists 5|reflexivity].
Qed.
(** Everything that is not a size is rejected, up to one trailing newline; no
    other exception but the overflow of a double occurs. *)
Theorem C16_rejects_partial : forall s, parse_size s = Err ValueError <->
  ~ exists t e, s = t ++ e /\ (e = [] \/ e = [NL]) /\ SizeText t.
Proof. exact parse_size_accepts. Qed.
Print Assumptions C16_rejects_partial.
Theorem C16_errors : forall s e, parse_size s = Err e -> e = ValueError \/ e = OverflowErr.
Proof. exact parse_size_errors. Qed.
Print Assumptions C16_errors.
Theorem C16_newline_refuted : exists s v, parse_size s = Ok v /\ ~ SizeText s.
Proof.
  exists (($"5K") ++ [NL]), 5120. split; [vm_compute; reflexivity|].
  assert (Hin : In NL (($"5K") ++ [NL])) by (right; right; now left).
  remember (($"5K") ++ [NL]) as s. clear Heqs. intros H.
  assert (D : forall ds, digits ds -> ~ In NL ds) by (intros ds Hd; now apply digits_no).
  assert (U : forall u n, SizeUnit u n -> ~ In NL u).
  { intros u n Hu HN. apply unit_upper in Hu as [Hu _]. apply uunits_no_nl in Hu.
    apply Hu. change NL with (upper_c NL). now apply in_map. }
  assert (B : forall b, isB b -> b <> NL) by (intros b [->| ->]; discriminate).
  destruct H as [ds H|ds b H Hb|ds u n H Hu|ds es u n H H' Hu].
  - now apply D in Hin.
  - apply in_app_or in Hin as [Hin|[Hin|[]]]; [now apply D in Hin|now apply B in Hb].
  - apply in_app_or in Hin as [Hin|Hin]; [now apply D in Hin|eapply U; eauto].
  - apply in_app_or in Hin as [Hin|[Hin|Hin]]; [now apply D in Hin|discriminate|].
    apply in_app_or in Hin as [Hin|Hin]; [now apply D in Hin|eapply U; eauto].
Qed.
Print Assumptions C16_newline_refuted.
