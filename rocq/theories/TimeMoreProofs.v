(** More about convert.parse_time: nothing else is understood; the round trip
    with format_time; times of day. *)
From Coq Require Import List NArith ZArith Bool Lia.
From Verif Require DurationProofs.
From Verif Require Import Py Re FloatLib ConvertModel ConvertSpec TimeModel TimeSpec TimeProofs.
Import ListNotations.
Local Open Scope Z_scope.

(** * What is accepted *)
Lemma int_digits_strict s d : int_digits s = Some d -> forall c, In c s -> digit c \/ c = 95%N.
Proof.
  revert d. assert (G : forall n s d, (length s <= n)%nat -> int_digits s = Some d -> forall c, In c s -> digit c \/ c = 95%N).
  { clear s. induction n as [|n IH]; intros s d L H; (destruct s as [|c t]; [discriminate|]); cbn [length] in L; [lia|].
    cbn [int_digits] in H. destruct (is_d c) eqn:C; [|discriminate]. apply is_d_iff in C.
    intros x [<-|Hx]; [now left|]. destruct t as [|u t']; [destruct Hx|].
    destruct (N.eqb_spec u 95) as [->|].
    - destruct (int_digits t') eqn:E; [|discriminate]. destruct Hx as [<-|Hx]; [now right|].
      eapply IH; [|exact E|exact Hx]. cbn [length] in L. lia.
    - destruct (int_digits (u :: t')) eqn:E; [|discriminate]. eapply IH; [|exact E|exact Hx]. lia. }
  intros d. now apply (G (length s)).
Qed.
Lemma split_exp_none s : (forall c, In c s -> is_e c = false) -> split_exp s = (s, None).
Proof.
  induction s as [|c s IH]; intros H; cbn [split_exp]; [reflexivity|]. rewrite (H c) by now left.
  rewrite IH by (intros x Hx; apply H; now right). reflexivity.
Qed.
Lemma int_digits_float u d : int_digits u = Some d -> split_exp u = (u, None) /\ mantissa u = Some (d, 0).
Proof.
  intros H. assert (S := int_digits_strict u d H). split.
  - apply split_exp_none. intros c Hc. apply S in Hc. unfold is_e. destruct Hc as [Hc| ->]; [|reflexivity].
    unfold digit in Hc. destruct (N.eqb_spec c 101); [lia|]. destruct (N.eqb_spec c 69); [lia|]. reflexivity.
  - unfold mantissa. rewrite split_on_nosep; [now rewrite H|]. intros Hc. apply S in Hc.
    unfold digit, DOT in Hc. lia.
Qed.
Lemma int_float s z : py_int s = Some z -> py_float s <> None.
Proof.
  unfold py_int, py_float. destruct (strip s) as [|c r] eqn:E; [discriminate|]. unfold signed.
  assert (G : forall u d neg, int_digits u = Some d ->
    (let l := lower u in
     if str_eqb l ($"inf") || str_eqb l ($"infinity") then Some PInf
     else if str_eqb l ($"nan") then Some PNan
     else let (a, b) := split_exp u in
       match mantissa a, exponent b with
       | Some (digits, e1), Some e2 =>
           let n := Z.of_N (digits_val digits) in let e := e1 + e2 in
           Some (PNum neg (if 0 <=? e then rn (n * 10 ^ e) 1 else rn n (10 ^ (- e))))
       | _, _ => None
       end) <> None).
  { intros u d neg H. apply int_digits_float in H as [H1 H2]. cbv zeta. destruct (_ || _)%bool; [discriminate|].
    destruct (str_eqb _ _); [discriminate|]. rewrite H1, H2. cbn [exponent]. discriminate. }
  destruct (c =? 43)%N; [|destruct (c =? 45)%N].
  - destruct (int_digits r) eqn:D'; [|discriminate]. intros _. eapply G, D'.
  - destruct (int_digits r) eqn:D'; [|discriminate]. intros _. eapply G, D'.
  - destruct (int_digits (c :: r)) eqn:D'; [|discriminate]. intros _. eapply G, D'.
Qed.
Lemma shape8_digits d s : shape8 d s -> s <> [] /\ Forall digit s.
Proof.
  intros (_ & h & mi & Nh & Nmi & ->). cbn [app]. split.
  - destruct Nh as [(L & _)|(L & _)]; destruct h; discriminate.
  - apply Forall_app. split; [destruct Nh as [(_ & F & _)|(_ & F & _)]|destruct Nmi as [(_ & F & _)|(_ & F & _)]]; exact F.
Qed.
Section Accepted.
  Variables (timestamp : datetime -> res Z) (now : datetime) (clock : Z).
  Lemma moment_time d t : moment timestamp now FTime d = Ok t ->
    exists e, same_daytime d e /\ timestamp e = Ok t.
  Proof.
    unfold moment. set (x := DT _ _ _ _ _ _). intros H.
    assert (X : same_daytime d x) by repeat split.
    destruct (dt_gt x now); cbn [bindr] in H; [|exists x; auto].
    destruct (day_before x) as [y|e] eqn:B; [|discriminate]. cbn [bindr] in H. exists y. split; [|exact H].
    unfold day_before in B. destruct (1 <? day x); [injection B as <-; exact X|].
    destruct (1 <? month x); [injection B as <-; exact X|]. destruct (1 <? year x); [injection B as <-; exact X|discriminate].
  Qed.
  Ltac next S d V H :=
    cbn [try_formats];
    match goal with |- context [strptime ?s ?f] =>
      let E := fresh "E" in destruct (S s) as [E|(d & E & V & H)]; rewrite E; [clear E|intros [= T]; clear E] end.
  Lemma try_accepted s t : py_float s = None -> try_formats timestamp now time_formats s = Some (Ok t) ->
    (exists d, valid d /\ moment_text d s /\ timestamp d = Ok t) \/
    (exists d e, valid d /\ daytime_text d s /\ same_daytime d e /\ timestamp e = Ok t).
  Proof.
    intros NF. unfold time_formats.
    next sound1 d V H. 2:{ left. exists d. split; [exact V|]. split; [left; exact H|exact T]. }
    next sound2 d V H. 2:{ left. exists d. split; [exact V|]. split; [right; left; exact H|exact T]. }
    next sound3 d V H. 2:{ left. exists d. split; [exact V|]. split; [right; right; left; exact H|exact T]. }
    next sound4 d V H. 2:{ left. exists d. split; [exact V|]. split; [right; right; right|exact T].
      destruct H as (A & B & C & H). repeat (split; [assumption|]). now left. }
    next sound5 d V H. 2:{ left. exists d. split; [exact V|]. split; [right; right; right|exact T].
      destruct H as (A & B & C & H). repeat (split; [assumption|]). now right. }
    next sound6 d V H. 2:{ right. apply moment_time in T as (e & S & T). exists d, e.
      split; [exact V|]. split; [left; exact H|]. auto. }
    next sound7 d V H. 2:{ right. apply moment_time in T as (e & S & T). exists d, e.
      split; [exact V|]. split; [right; exact H|]. auto. }
    next sound8 d V H. 2:{ exfalso. apply shape8_digits in H as [N F]. rewrite float_digits in NF by assumption. discriminate. }
    discriminate.
  Qed.
  Lemma parse_accepted s t : parse_time timestamp now clock s = Ok t ->
    number_text s \/
    (exists d, valid d /\ moment_text d s /\ timestamp d = Ok t) \/
    (exists d e, valid d /\ daytime_text d s /\ same_daytime d e /\ timestamp e = Ok t) \/
    (exists n, Sloppy s n /\ t = Z.quot (clock - n * 1000000) 1000000).
  Proof.
    unfold parse_time. destruct (py_float s) as [f|] eqn:F; [intros _; left; eapply float_number, F|].
    destruct (if (4 <=? length s)%nat then _ else None) as [r|] eqn:T.
    - intros ->. destruct (4 <=? length s)%nat; [|discriminate].
      apply try_accepted in T as [T|T]; [auto|auto|exact F].
    - destruct (parse_duration s) as [n|] eqn:D'; [|discriminate]. cbn [bindr]. intros [= <-].
      right. right. right. exists n. split; [|reflexivity]. apply DurationProofs.parse_duration_exact in D'.
      destruct (py_int s) eqn:I; [|exact D']. apply int_float in I. contradiction.
  Qed.
  (** Durations *)
  Lemma decimal_chars t a b c : TimeSpec.decimal t -> Forall (fun c => is_space c = true) (a ++ b) ->
    (57 < c)%N -> c <> 95%N -> ~ In c ($"eE") -> is_space c = false -> ~ In c (a ++ t ++ b).
  Proof.
    intros (sg & body & ex & I & Fb & -> & X) Sp G U E NS Hc.
    rewrite Forall_app, !Forall_forall in Sp. rewrite Forall_forall in Fb.
    assert (Sg : forall g, sign g -> ~ In c g).
    { intros g [<-|[<-|[<-|[]]]] H; [destruct H| |]; (destruct H as [H|[]]; rewrite <- H in G; now vm_compute in G). }
    assert (Nc : forall x, number_char x -> x <> c).
    { intros x [Hx|[Hx|[Hx|[]]]] ->; [unfold digit in Hx; lia| |]; rewrite <- Hx in *; [now apply U|now vm_compute in G]. }
    rewrite !in_app_iff in Hc. destruct Hc as [H|[[H|[H|H]]|H]].
    - apply Sp in H. congruence.
    - now apply (Sg sg).
    - now apply (Nc c (Fb c H)).
    - destruct X as [->|(e & sg' & more & Ie & I' & Fm & ->)]; [destruct H|]. destruct H as [<-|H]; [contradiction|].
      apply in_app_or in H as [H|H]; [now apply (Sg sg')|]. rewrite Forall_forall in Fm. now apply (Nc c (Fm c H)).
    - apply Sp in H. congruence.
  Qed.
  Lemma unit_char u k : unit_of u k -> (57 < u)%N /\ u <> 95%N /\ ~ In u ($"eE") /\ is_space u = false /\ ~ plain u.
  Proof.
    intros H. repeat split; try (destruct H; first [reflexivity|discriminate]).
    - intros I. destruct H; vm_compute in I; decompose [or] I; try discriminate; contradiction.
    - intros [P|[P|[P|P]]]; destruct H; try discriminate P; unfold digit in P; lia.
  Qed.
  Lemma fails_plain f shape s : sound f shape -> (forall d s, shape d s -> Forall plain s) -> ~ Forall plain s ->
    strptime s f = Err ValueError.
  Proof. intros S C N. destruct (S s) as [H|(d & _ & _ & H)]; [exact H|]. now apply C in H. Qed.
  Lemma parse_ago s n : Duration s n -> s <> [] ->
    parse_time timestamp now clock s = Ok (Z.quot (clock - n * 1000000) 1000000).
  Proof.
    intros H N. assert (P := DurationProofs.parse_duration_value s n H).
    destruct H as [|ds u k s n Hd Hu Hs]; [easy|]. assert (U := unit_char u k Hu).
    destruct U as (U1 & U2 & U3 & U4 & U5).
    assert (NP : ~ Forall plain (ds ++ u :: s)).
    { rewrite Forall_forall. intros F. apply U5, F, in_or_app. right. now left. }
    unfold parse_time. destruct (py_float _) as [f|] eqn:F.
    - exfalso. apply float_number in F. destruct F as (a & t & b & E & Sp & S).
      (* the first character is a digit *)
      destruct Hd as [Nd Fd]. destruct ds as [|c ds]; [easy|]. assert (C : digit c) by (apply Fd; now left).
      destruct a as [|x a].
      2:{ injection E as -> _. inversion Sp as [|? ? X _]; subst. apply is_d_iff, is_d_not_space in C. congruence. }
      cbn [app] in E. destruct S as [S|(sg & w & I & -> & W)].
      + apply (decimal_chars t [] b u S Sp U1 U2 U3 U4). cbn [app]. rewrite <- E. right. apply in_or_app. right. now left.
      + destruct I as [<-|[<-|[<-|[]]]]; [|injection E as -> _; unfold digit in C; lia..].
        destruct w as [|x w]; [destruct W as [W|[W|[W|[]]]]; discriminate W|]. injection E as <- _.
        assert (Pc : plain c) by now left. apply plain_lower in Pc. cbn [lower map] in W.
        destruct W as [W|[W|[W|[]]]]; injection W as W _; rewrite <- W in Pc; tauto.
    - unfold time_formats. cbn [try_formats].
      rewrite (fails_plain _ _ _ sound1 plain1 NP), (fails_plain _ _ _ sound2 plain2 NP), (fails_plain _ _ _ sound3 plain3 NP),
        (fails_plain _ _ _ sound4 plain4 NP), (fails_plain _ _ _ sound5 plain5 NP), (fails_plain _ _ _ sound6 plain6 NP),
        (fails_plain _ _ _ sound7 plain7 NP), (fails_plain _ _ _ sound8 plain8 NP).
      rewrite P. now destruct (4 <=? length _)%nat.
  Qed.
End Accepted.

(** * The round trip *)
Lemma below (f : Z -> bool) lo n : forallb (fun k => f (lo + Z.of_nat k)) (List.seq 0%nat (Z.to_nat n)) = true ->
  forall z, lo <= z < lo + n -> f z = true.
Proof.
  intros H z Hz. rewrite forallb_forall in H. specialize (H (Z.to_nat (z - lo))).
  rewrite Z2Nat.id in H by lia. replace (lo + (z - lo)) with z in H by lia. apply H, in_seq. lia.
Qed.
Definition is_num (n : nat) (z : Z) (t : str) : bool := Nat.eqb (length t) n && forallb is_d t && (value t 0 =? z).
Lemma is_num_Num n z t : is_num n z t = true -> Num n z t.
Proof.
  unfold is_num. rewrite !andb_true_iff, Nat.eqb_eq, Z.eqb_eq. intros [[L F] V]. repeat split; auto.
  rewrite forallb_forall in F. apply Forall_forall. intros c Hc. now apply is_d_iff, F.
Qed.
Lemma two_Num z : 0 <= z <= 99 -> Num 2 z (two z).
Proof.
  intros H. apply is_num_Num. apply (below (fun z => is_num 2 z (two z)) 0 100); [vm_compute; reflexivity|lia].
Qed.
Lemma year_Num z : 1000 <= z <= 9999 -> Num 4 z (str_of_Z z).
Proof.
  intros H. apply is_num_Num. apply (below (fun z => is_num 4 z (str_of_Z z)) 1000 9000); [vm_compute; reflexivity|lia].
Qed.
Lemma Num2_Short z t : Num 2 z t -> Short z t.
Proof. now right. Qed.
Lemma format_roundtrip timestamp now clock d : valid d -> 1000 <= year d ->
  parse_time timestamp now clock (format_time d) = timestamp d.
Proof.
  intros V Y. assert (Q := valid_bounds d V). assert (Y9 : year d <= 9999) by apply V.
  apply parse_moment; [exact V|]. left. unfold format_time.
  exists (str_of_Z (year d) ++ $"-" ++ two (month d) ++ $"-" ++ two (day d)), ($" "),
    ((two (hour d) ++ $":" ++ two (minute d)) ++ $":" ++ two (second d)).
  split; [|split; [|split]].
  - eexists _, _, _. split; [apply year_Num; lia|]. split; [apply Num2_Short, two_Num; lia|].
    split; [left; apply Num2_Short, two_Num; lia|]. reflexivity.
  - split; [discriminate|]. constructor; [reflexivity|constructor].
  - eexists _, _. split; [|split; [apply Num2_Short, two_Num; lia|reflexivity]].
    eexists _, _. split; [apply Num2_Short, two_Num; lia|]. split; [apply Num2_Short, two_Num; lia|]. reflexivity.
  - now rewrite <- !app_assoc.
Qed.

(** * The calendar *)
Lemma div_step b y : 0 < b -> y / b = (y - 1) / b + (if y mod b =? 0 then 1 else 0).
Proof.
  intros B. assert (E := Z.div_mod y b ltac:(lia)). assert (M := Z.mod_pos_bound y b B).
  destruct (Z.eqb_spec (y mod b) 0) as [Z0|N0].
  - replace ((y - 1) / b) with (y / b - 1); [lia|]. apply Z.div_unique with (b - 1); lia.
  - replace ((y - 1) / b) with (y / b); [lia|]. apply Z.div_unique with (y mod b - 1); lia.
Qed.
Lemma leap_step y : y / 4 - y / 100 + y / 400
  = (y - 1) / 4 - (y - 1) / 100 + (y - 1) / 400 + (if is_leap y then 1 else 0).
Proof.
  rewrite (div_step 4 y), (div_step 100 y), (div_step 400 y) by lia. unfold is_leap.
  assert (A : y mod 400 = 0 -> y mod 100 = 0).
  { rewrite !Z.mod_divide by lia. intros [k ->]. exists (k * 4). lia. }
  assert (B : y mod 100 = 0 -> y mod 4 = 0).
  { rewrite !Z.mod_divide by lia. intros [k ->]. exists (k * 25). lia. }
  destruct (Z.eqb_spec (y mod 4) 0), (Z.eqb_spec (y mod 100) 0), (Z.eqb_spec (y mod 400) 0); cbn [andb orb negb]; lia.
Qed.
Ltac consts :=
  repeat match goal with
  | |- context [Z.leb ?a 2] => let v := eval vm_compute in (Z.leb a 2) in change (Z.leb a 2) with v
  | |- context [Z.div (153 * ?a + 2) 5] =>
      let v := eval vm_compute in (Z.div (153 * a + 2) 5) in change (Z.div (153 * a + 2) 5) with v
  | |- context [Z.eqb ?a 2] => let v := eval vm_compute in (Z.eqb a 2) in change (Z.eqb a 2) with v
  | |- context [nth ?a ?b 0] => let v := eval vm_compute in (nth a b 0) in change (nth a b 0) with v
  end.
Lemma day_before_seconds x y : valid x -> day_before x = Ok y -> valid y /\ seconds y = seconds x - 86400 /\ same_daytime x y.
Proof.
  intros (Y & M & (n & L & D') & T) H. unfold day_before in H.
  destruct (Z.ltb_spec 1 (day x)).
  { injection H as <-. split; [|split; [|repeat split]].
    - unfold valid. cbn [year month day hour minute second]. repeat (split; [lia|]). split; [|exact T].
      exists n. split; [exact L|lia].
    - unfold seconds, days. cbn [year month day hour minute second]. lia. }
  assert (D1 : day x = 1) by lia.
  destruct (Z.ltb_spec 1 (month x)).
  { injection H as <-. split; [|split; [|repeat split]].
    - unfold valid. cbn [year month day hour minute second]. repeat (split; [lia|]). split; [|exact T].
      exists (days_in_month (year x) (month x - 1)). split; [apply days_in_month_length; lia|].
      split; [|lia]. assert (G := days_in_month_length (year x) (month x - 1) ltac:(lia)).
      destruct G as [[_ ->]|[[_ ->]|[_ [[_ ->]|[_ ->]]]]]; lia.
    - assert (C : In (month x) [2; 3; 4; 5; 6; 7; 8; 9; 10; 11; 12]) by (cbn [In]; lia).
      unfold seconds. cbn [year month day hour minute second]. rewrite D1.
      assert (E : days (year x) (month x) 1 = days (year x) (month x - 1) (days_in_month (year x) (month x - 1)) + 1).
      2:{ rewrite E. lia. }
      cbn [In] in C. decompose [or] C; try contradiction; match goal with E : _ = month x |- _ => rewrite <- E end;
        unfold days, days_in_month; consts; cbv iota; cbn [andb]; cbv iota; assert (S := leap_step (year x));
        destruct (is_leap (year x)); lia. }
  destruct (Z.ltb_spec 1 (year x)); [|discriminate].
  injection H as <-. split; [|split; [|repeat split]].
  - unfold valid. cbn [year month day hour minute second]. repeat (split; [lia|]). split; [|exact T].
    exists 31. split; [|lia]. left. split; [unfold long_month; cbn [In]; tauto|reflexivity].
  - unfold seconds. cbn [year month day hour minute second]. assert (month x = 1) as -> by lia. rewrite D1.
    unfold days. consts. cbv iota. lia.
Qed.

(** * Times of day *)
Lemma dt_gt_same x n : year x = year n -> month x = month n -> day x = day n -> valid x -> valid n ->
  dt_gt x n = (seconds n <? seconds x).
Proof.
  intros Y M D' Vx Vn. assert (Bx := valid_bounds x Vx). assert (Bn := valid_bounds n Vn).
  assert (S : seconds x - seconds n = 3600 * (hour x - hour n) + 60 * (minute x - minute n) + (second x - second n)).
  { unfold seconds. rewrite Y, M, D'. lia. }
  unfold dt_gt. rewrite Y, M, D', !Z.ltb_irrefl, !Z.eqb_refl. cbn [orb andb].
  apply eq_true_iff_eq. rewrite Z.ltb_lt.
  destruct (Z.ltb_spec (hour n) (hour x)), (Z.eqb_spec (hour x) (hour n)),
    (Z.ltb_spec (minute n) (minute x)), (Z.eqb_spec (minute x) (minute n)),
    (Z.ltb_spec (second n) (second x)), (Z.eqb_spec (second x) (second n)); cbn [orb andb];
    (split; [intros; try discriminate; lia|intros; try reflexivity; lia]).
Qed.
Lemma last_time offset now clock d s : valid now -> valid d -> daytime_text d s -> (4 <= length s)%nat ->
  ~ (year now = 1 /\ month now = 1 /\ day now = 1) ->
  exists r e, parse_time (zone offset) now clock s = Ok r /\ valid e /\ same_daytime d e /\ r = seconds e - offset /\
    seconds e <= seconds now < seconds e + 86400.
Proof.
  intros Vn Vd H L F. rewrite (parse_daytime _ _ _ d) by assumption. unfold moment, at_time.
  cbn [hour minute second]. set (x := DT _ _ _ _ _ _).
  assert (Bn := valid_bounds now Vn). assert (Bd := valid_bounds d Vd).
  assert (Vx : valid x).
  { destruct Vn as (Y & M & X & _). unfold valid, x. cbn [year month day hour minute second].
    repeat (split; [assumption|]). lia. }
  assert (S : seconds x - seconds now = 3600 * (hour d - hour now) + 60 * (minute d - minute now) + (second d - second now)).
  { unfold seconds, x. cbn [year month day hour minute second]. lia. }
  rewrite dt_gt_same by (try reflexivity; assumption).
  destruct (Z.ltb_spec (seconds now) (seconds x)).
  - destruct (day_before x) as [y|] eqn:B.
    + apply day_before_seconds in B as (Vy & Sy & Dy); [|exact Vx]. cbn [bindr]. unfold zone.
      exists (seconds y - offset), y.
      split; [reflexivity|]. split; [exact Vy|]. split; [exact Dy|]. split; [reflexivity|]. lia.
    + exfalso. unfold day_before in B. apply F. destruct Vn as (Y & M & (n & _ & D') & _).
      change (day x) with (day now) in B. change (month x) with (month now) in B. change (year x) with (year now) in B.
      destruct (Z.ltb_spec 1 (day now)); [discriminate|]. destruct (Z.ltb_spec 1 (month now)); [discriminate|].
      destruct (Z.ltb_spec 1 (year now)); [discriminate|]. lia.
  - cbn [bindr]. unfold zone. exists (seconds x - offset), x.
    split; [reflexivity|]. split; [exact Vx|]. split; [repeat split|]. split; [reflexivity|]. lia.
Qed.

Lemma parse_documented timestamp now clock d a b s : valid d -> ymd ($"-") d a ->
  (hms d b /\ s = a ++ $" " ++ b) \/ (second d = 0 /\ hm ($":") d b /\ s = a ++ $" " ++ b) \/
  (hour d = 0 /\ minute d = 0 /\ second d = 0 /\ s = a) ->
  parse_time timestamp now clock s = timestamp d.
Proof.
  intros V (y & m & dd & Ny & Nm & Nd & ->) H.
  assert (A : date_text ($"-") d (y ++ $"-" ++ m ++ $"-" ++ dd)).
  { exists y, m, dd. split; [exact Ny|]. split; [now right|]. split; [left; now right|reflexivity]. }
  assert (W : Blank ($" ")) by (split; [discriminate|repeat constructor]).
  assert (M : forall t, hm ($":") d t -> minute_text ($":") d t).
  { intros t (h & mi & Nh & Nmi & ->). exists h, mi. split; [now right|]. split; [now right|reflexivity]. }
  apply parse_moment; [exact V|]. destruct H as [[(t & u & Ht & Nu & ->) ->]|[(Z & Hb & ->)|(Z1 & Z2 & Z3 & ->)]].
  - left. eexists _, _, _. split; [exact A|]. split; [exact W|]. split; [|reflexivity].
    exists t, u. split; [now apply M|]. split; [now right|reflexivity].
  - right. left. split; [exact Z|]. eexists _, _, _. split; [exact A|]. split; [exact W|]. split; [exact (M _ Hb)|reflexivity].
  - right. right. repeat (split; [assumption|]). exact A.
Qed.
Lemma not_rejected timestamp now clock :
  parse_time timestamp now clock ($"2020-02-30T") = Ok (Z.quot clock 1000000) /\
  parse_time timestamp now clock [] = Ok (Z.quot clock 1000000).
Proof.
  assert (C : Z.quot (clock - 0 * 1000000) 1000000 = Z.quot clock 1000000) by (f_equal; lia).
  split; rewrite <- C; vm_compute; reflexivity.
Qed.
Lemma print_read (localtime : Z -> datetime) timestamp now clock t :
  valid (localtime t) -> 1000 <= year (localtime t) -> timestamp (localtime t) = Ok t ->
  parse_time timestamp now clock (format_time (localtime t)) = Ok t.
Proof. intros V Y T. now rewrite format_roundtrip. Qed.
Lemma print_twice (localtime : Z -> datetime) timestamp now clock t t' : t <> t' -> localtime t = localtime t' ->
  ~ (forall u, parse_time timestamp now clock (format_time (localtime u)) = Ok u).
Proof. intros N E H. apply N. assert (A := H t). assert (B := H t'). rewrite E in A. congruence. Qed.
Lemma early_year timestamp now clock :
  format_time (DT 999 12 31 23 59 59) = $"999-12-31 23:59:59" /\
  parse_time timestamp now clock (format_time (DT 999 12 31 23 59 59)) = Err ValueError.
Proof. split; vm_compute; reflexivity. Qed.
Lemma left_out : exists change now d s r n, valid now /\ valid d /\ daytime_text d s /\
  (forall clock, parse_time (summer change) now clock s = Ok r) /\ summer change now = Ok n /\ n < r.
Proof.
  exists (DT 2020 3 29 2 0 0), (DT 2020 3 29 3 10 0), (DT 2020 3 29 2 30 0), ($"02:30"), 1585445400, 1585444200.
  assert (L : long_month 3) by (unfold long_month; cbn; auto).
  split; [|split; [|split; [|split; [|split]]]].
  - unfold valid. cbn. repeat (split; [lia|]). split; [exists 31; split; [left; auto|lia]|lia].
  - unfold valid. cbn. repeat (split; [lia|]). split; [exists 31; split; [left; auto|lia]|lia].
  - right. split; [reflexivity|]. exists ($"02"), ($"30").
    split; [right|split; [right|reflexivity]]; repeat split; repeat constructor; cbn; lia.
  - intros clock. rewrite (parse_daytime _ _ _ (DT 2020 3 29 2 30 0)).
    + vm_compute. reflexivity.
    + unfold valid. cbn. repeat (split; [lia|]). split; [exists 31; split; [left; auto|lia]|lia].
    + right. split; [reflexivity|]. exists ($"02"), ($"30").
      split; [right|split; [right|reflexivity]]; repeat split; repeat constructor; cbn; lia.
    + cbn. lia.
  - vm_compute. reflexivity.
  - lia.
Qed.

(** * Numbers with a sign and a fraction *)
Lemma rn_finite p q : 0 <= p -> 0 < q -> p < q * 2 ^ 1000 -> rn p q <> FInf.
Proof.
  intros Hp Hq L. unfold rn. destruct (Z.eqb_spec p 0) as [->|Hp0]; [discriminate|].
  destruct (flog2_spec p q ltac:(lia) Hq) as [S1 S2]. cbn zeta in *.
  set (g := flog2 p q) in *. clearbody g.
  assert (W : 2 ^ 1024 = 16777216 * 2 ^ 1000) by (vm_compute; reflexivity).
  rewrite W. clear W. assert (PW : 1 <= 2 ^ 1000) by (vm_compute; discriminate). set (W := 2 ^ 1000) in *. clearbody W.
  destruct (Z.leb_spec 0 (g - 52)) as [He|He].
  - destruct (Z.leb_spec (16777216 * W * 1) (round_half_even p (q * 2 ^ (g - 52)) * 2 ^ (g - 52))) as [B|B]; [|discriminate].
    exfalso. destruct (S1 ltac:(lia)) as [L' _].
    replace g with ((g - 52) + 52) in L' by lia. rewrite pow2_split in L' by lia.
    set (e := g - 52) in *. clearbody e. assert (Pe := pow2_pos e He).
    assert (R := rhe_error p (q * 2 ^ e) ltac:(nia)).
    set (M := round_half_even p (q * 2 ^ e)) in *. clearbody M. change (2 ^ 52) with 4503599627370496 in L'.
    set (E := 2 ^ e) in *. clearbody E.
    assert (M * E * q <= 2 * p) by nia. assert (16777216 * W * q <= M * E * q) by nia. nia.
  - set (e := - (g - 52)) in *. assert (He' : 0 < e) by (unfold e; lia). clearbody e. assert (Pe := pow2_pos e ltac:(lia)).
    set (E := 2 ^ e) in *. clearbody E.
    destruct (Z.leb_spec (16777216 * W * E) (round_half_even (p * E) q)) as [B|B]; [|discriminate].
    exfalso. assert (R := rhe_error (p * E) q Hq). set (M := round_half_even (p * E) q) in *. clearbody M.
    assert (M * q <= p * E + q) by nia. assert (p * E <= q * W * E) by nia.
    assert (M <= W * E + 1) by nia. nia.
Qed.
Lemma rn_floor n f l : 0 <= n < 2 ^ 33 -> 0 <= l <= 6 -> 0 <= f < 10 ^ l ->
  fint (rn (n * 10 ^ l + f) (10 ^ l)) = Ok n.
Proof.
  intros Hn Hl Hf. assert (P : 1 <= 10 ^ l <= 10 ^ 6) by (split; [assert (0 < 10 ^ l) by (apply Z.pow_pos_nonneg; lia); lia|apply Z.pow_le_mono_r; lia]).
  change (10 ^ 6) with 1000000 in P. change (2 ^ 33) with 8589934592 in Hn. set (q := 10 ^ l) in *. clearbody q.
  destruct (Z.eq_dec f 0) as [->|F].
  - destruct (rn_exact n 0 0 (n * q + 0) q) as (num & den & -> & D' & E); change (2 ^ 0) with 1 in *; try lia.
    cbn [fint]. f_equal. replace num with (n * den) by lia. apply Z.div_mul. lia.
  - destruct (rn (n * q + f) q) as [|num den] eqn:E.
    + exfalso. revert E. apply rn_finite; nia.
    + apply rn_error in E as [D' R]; [|nia|lia]. change (2 ^ 53) with 9007199254740992 in R.
      cbn [fint]. f_equal. symmetry. apply Z.div_unique with (num - den * n); [|lia]. left.
      assert (p_lt : (n * q + f) <= q * (8589934592)) by nia.
      assert (A : Z.abs (num * q - (n * q + f) * den) * 1048576 <= q * den).
      { nia. }
      split.
      * assert (- den < num * q - (n * q + f) * den) by nia. nia.
      * assert (num * q - (n * q + f) * den < den) by nia. nia.
Qed.

Lemma strip_ends s c d m : s = c :: m ++ [d] -> is_space c = false -> is_space d = false -> strip s = s.
Proof.
  intros -> C D'. unfold strip, strip_p. rewrite lstrip_p_id by exact C. apply rstrip_p_id.
  rewrite app_comm_cons, rev_app_distr. exact D'.
Qed.
Lemma digits_last t : t <> [] -> Forall digit t -> exists m d, t = m ++ [d] /\ digit d.
Proof.
  intros N F. destruct (exists_last N) as (m & d & ->). exists m, d. split; [reflexivity|].
  apply Forall_app in F as [_ F]. now inversion F.
Qed.
Lemma digit_space c : digit c -> is_space c = false.
Proof. intros H. now apply is_d_not_space, is_d_iff. Qed.
Lemma no_word u c r : u = c :: r -> digit c -> str_eqb (lower u) ($"inf") || str_eqb (lower u) ($"infinity") = false /\
  str_eqb (lower u) ($"nan") = false.
Proof.
  intros -> C. assert (P : plain c) by now left. apply plain_lower in P. cbn [lower map].
  assert (W : forall x w y, x = 105%N \/ x = 110%N -> str_eqb (lower_c c :: w) (x :: y) = false).
  { intros x w y X. destruct (str_eqb _ _) eqn:E; [|reflexivity]. apply str_eqb_eq in E. injection E as E _.
    destruct P. destruct X; congruence. }
  change ($"inf") with (105%N :: $"nf"). change ($"infinity") with (105%N :: $"nfinity"). change ($"nan") with (110%N :: $"an").
  rewrite !W by auto. auto.
Qed.
Lemma value_app a b : forall acc, value (a ++ b) acc = value b (value a acc).
Proof. induction a as [|c a IH]; intros acc; cbn [value app]; [reflexivity|]. apply IH. Qed.
Lemma value_acc t : forall acc, value t acc = acc * 10 ^ Z.of_nat (length t) + value t 0.
Proof.
  induction t as [|c t IH]; intros acc; cbn [value length].
  - change (10 ^ Z.of_nat 0) with 1. lia.
  - rewrite IH, (IH (10 * 0 + _)). rewrite Nat2Z.inj_succ, Z.pow_succ_r by lia. ring.
Qed.
Lemma value_bound t : Forall digit t -> 0 <= value t 0 < 10 ^ Z.of_nat (length t).
Proof.
  induction t as [|c t IH]; intros F; cbn [value length].
  - change (10 ^ Z.of_nat 0) with 1. lia.
  - inversion F as [|? ? C F']; subst. specialize (IH F'). rewrite value_acc.
    rewrite Nat2Z.inj_succ, Z.pow_succ_r by lia. unfold digit in C. nia.
Qed.
Lemma dotless t : Forall digit t -> ~ In DOT t.
Proof. rewrite Forall_forall. intros F H. apply F in H. unfold digit, DOT in H. lia. Qed.
Lemma parse_fraction timestamp now clock sg t f : sign sg -> t <> [] -> Forall digit t -> value t 0 < 2 ^ 33 ->
  f <> [] -> Forall digit f -> (length f <= 6)%nat ->
  parse_time timestamp now clock (sg ++ t ++ $"." ++ f) = Ok (negate sg (value t 0)).
Proof.
  intros S Nt Ft V Nf Ff Lf. set (u := t ++ $"." ++ f).
  destruct t as [|c t']; [easy|]. assert (C : digit c) by now inversion Ft.
  assert (St : strip (sg ++ u) = sg ++ u).
  { destruct (digits_last f Nf Ff) as (m & d & -> & Hd). apply digit_space in Hd. unfold u.
    destruct S as [<-|[<-|[<-|[]]]]; cbn [app].
    - apply (strip_ends _ c d (t' ++ $"." ++ m)); [now rewrite <- app_assoc|now apply digit_space|exact Hd].
    - apply (strip_ends _ 43%N d (c :: t' ++ $"." ++ m)); [cbn [app]; now rewrite <- app_assoc|reflexivity|exact Hd].
    - apply (strip_ends _ 45%N d (c :: t' ++ $"." ++ m)); [cbn [app]; now rewrite <- app_assoc|reflexivity|exact Hd]. }
  assert (Sg : signed (sg ++ u) = (str_eqb sg ($"-"), u)).
  { destruct S as [<-|[<-|[<-|[]]]]; [|reflexivity|reflexivity]. cbn [app]. unfold u. cbn [app signed].
    unfold digit in C. destruct (N.eqb_spec c 43); [lia|]. destruct (N.eqb_spec c 45); [lia|]. reflexivity. }
  unfold parse_time, py_float. rewrite St, Sg.
  destruct (no_word u c (t' ++ $"." ++ f) eq_refl C) as [-> ->].
  rewrite split_exp_none.
  2:{ intros x Hx. unfold u in Hx. unfold is_e. rewrite !in_app_iff in Hx. rewrite Forall_forall in Ft, Ff.
      destruct Hx as [Hx|[[<-|[]]|Hx]]; [apply Ft in Hx|reflexivity|apply Ff in Hx]; unfold digit in Hx;
        (destruct (N.eqb_spec x 101); [lia|]; destruct (N.eqb_spec x 69); [lia|reflexivity]). }
  unfold mantissa. change u with ((c :: t') ++ DOT :: f). rewrite split_on_app, split_on_nosep by now apply dotless.
  assert (Ec : opt_digits (c :: t') = Some (c :: t')) by (apply int_digits_all; [discriminate|now apply digits_forallb]).
  assert (Ef : opt_digits f = Some f) by (destruct f; [easy|]; apply int_digits_all; [discriminate|now apply digits_forallb]).
  rewrite Ec, Ef. cbn [exponent].
  assert (Lf' : (1 <= length f)%nat) by (destruct f; [easy|cbn; lia]).
  destruct (Z.leb_spec 0 (- Z.of_nat (length f) + 0)); [lia|].
  replace (- (- Z.of_nat (length f) + 0)) with (Z.of_nat (length f)) by lia.
  rewrite <- value_digits by (apply Forall_app; auto). rewrite value_app, value_acc. cbn [int_of_float].
  rewrite rn_floor; [reflexivity| |lia|now apply value_bound].
  split; [|exact V]. now apply value_bound.
Qed.
Lemma parse_signed timestamp now clock sg t : sign sg -> t <> [] -> Forall digit t -> value t 0 < 2 ^ 53 ->
  parse_time timestamp now clock (sg ++ t) = Ok (negate sg (value t 0)).
Proof.
  intros S Nt Ft V. destruct t as [|c t']; [easy|]. assert (C : digit c) by now inversion Ft.
  assert (P := parse_digits timestamp now clock (c :: t') Nt Ft V). unfold parse_time in P.
  assert (Fd := float_digits (c :: t') Nt Ft). unfold py_float in Fd.
  rewrite strip_digits in Fd by now apply digits_forallb.
  assert (Sd : signed (c :: t') = (false, c :: t')).
  { cbn [signed]. unfold digit in C. destruct (N.eqb_spec c 43); [lia|]. destruct (N.eqb_spec c 45); [lia|]. reflexivity. }
  rewrite Sd in Fd.
  assert (St : strip (sg ++ c :: t') = sg ++ c :: t').
  { destruct (digits_last (c :: t') Nt Ft) as (m & d & E & Hd). apply digit_space in Hd.
    destruct S as [<-|[<-|[<-|[]]]].
    - apply strip_digits. now apply digits_forallb.
    - apply (strip_ends _ 43%N d m); [cbn [app]; now rewrite E|reflexivity|exact Hd].
    - apply (strip_ends _ 45%N d m); [cbn [app]; now rewrite E|reflexivity|exact Hd]. }
  assert (Sg : signed (sg ++ c :: t') = (str_eqb sg ($"-"), c :: t')).
  { destruct S as [<-|[<-|[<-|[]]]]; [exact Sd|reflexivity|reflexivity]. }
  assert (E : py_float (sg ++ c :: t') = Some (PNum (str_eqb sg ($"-")) (rn (value (c :: t') 0) 1))).
  { unfold py_float. rewrite St, Sg. destruct (no_word (c :: t') c t' eq_refl C) as [W1 W2]. rewrite W1, W2 in *.
    destruct (split_exp (c :: t')) as [a b]. destruct (mantissa a) as [[ds e1]|]; [|discriminate].
    destruct (exponent b) as [e2|]; [|discriminate]. injection Fd as Fd. now rewrite Fd. }
  unfold parse_time. rewrite E. rewrite float_digits in P by assumption. cbn [int_of_float] in *.
  destruct (fint _) as [n|]; [|discriminate]. cbn [bindr] in *. injection P as ->. reflexivity.
Qed.

Lemma split_exp_at s c t : (forall c, In c s -> is_e c = false) -> is_e c = true -> split_exp (s ++ c :: t) = (s, Some t).
Proof.
  intros H C. induction s as [|d s IH]; cbn [app split_exp]; [now rewrite C|]. rewrite (H d) by now left.
  rewrite IH by (intros x Hx; apply H; now right). reflexivity.
Qed.
Lemma digits_no_e t : Forall digit t -> forall c, In c t -> is_e c = false.
Proof.
  intros F c H. rewrite Forall_forall in F. apply F in H. unfold digit in H. unfold is_e.
  destruct (N.eqb_spec c 101); [lia|]. destruct (N.eqb_spec c 69); [lia|reflexivity].
Qed.
Lemma signed_of sg u c t : sign sg -> u = c :: t -> digit c -> signed (sg ++ u) = (str_eqb sg ($"-"), u).
Proof.
  intros S -> C. destruct S as [<-|[<-|[<-|[]]]]; [|reflexivity|reflexivity]. cbn [app signed].
  unfold digit in C. destruct (N.eqb_spec c 43); [lia|]. destruct (N.eqb_spec c 45); [lia|]. reflexivity.
Qed.
Lemma parse_exponent timestamp now clock sg t e xs x n : sign sg -> t <> [] -> Forall digit t -> e = $"e" \/ e = $"E" ->
  sign xs -> x <> [] -> Forall digit x -> scaled xs (value t 0) (value x 0) n -> n < 2 ^ 53 ->
  parse_time timestamp now clock (sg ++ t ++ e ++ xs ++ x) = Ok (negate sg n).
Proof.
  intros Sg Nt Ft He Sx Nx Fx SC L. set (u := t ++ e ++ xs ++ x).
  destruct t as [|c t']; [easy|]. assert (C : digit c) by now inversion Ft.
  destruct x as [|d x']; [easy|]. assert (D : digit d) by now inversion Fx.
  assert (St : strip (sg ++ u) = sg ++ u).
  { destruct (digits_last (d :: x') Nx Fx) as (m & l & E & Hl). apply digit_space in Hl. unfold u. rewrite E.
    destruct Sg as [<-|[<-|[<-|[]]]]; cbn [app].
    - apply (strip_ends _ c l (t' ++ e ++ xs ++ m)); [now rewrite <- !app_assoc|now apply digit_space|exact Hl].
    - apply (strip_ends _ 43%N l (c :: t' ++ e ++ xs ++ m)); [cbn [app]; now rewrite <- !app_assoc|reflexivity|exact Hl].
    - apply (strip_ends _ 45%N l (c :: t' ++ e ++ xs ++ m)); [cbn [app]; now rewrite <- !app_assoc|reflexivity|exact Hl]. }
  unfold parse_time, py_float. rewrite St, (signed_of sg u c _ Sg eq_refl C).
  destruct (no_word u c (t' ++ e ++ xs ++ d :: x') eq_refl C) as [-> ->].
  assert (SE : split_exp u = (c :: t', Some (xs ++ d :: x'))).
  { unfold u. destruct He as [-> | ->]; [apply (split_exp_at (c :: t') 101%N)|apply (split_exp_at (c :: t') 69%N)]; try reflexivity; now apply digits_no_e. }
  rewrite SE. unfold mantissa. rewrite split_on_nosep by now apply dotless.
  rewrite (int_digits_all (c :: t')) by (discriminate || now apply digits_forallb). cbn [option_map].
  cbn [exponent]. rewrite (signed_of xs _ d x' Sx eq_refl D).
  rewrite (int_digits_all (d :: x')) by (discriminate || now apply digits_forallb). cbn [option_map].
  rewrite <- (value_digits (c :: t')), <- (value_digits (d :: x')) by assumption.
  assert (V0 : 0 <= value (c :: t') 0) by (rewrite value_digits by exact Ft; lia).
  assert (K0 : 0 <= value (d :: x') 0) by (rewrite value_digits by exact Fx; lia).
  set (v := value (c :: t') 0) in *. set (k := value (d :: x') 0) in *. clearbody v k.
  assert (P : 0 < 10 ^ k) by (apply Z.pow_pos_nonneg; lia).
  set (f := if 0 <=? _ then _ else _).
  assert (R : exists num den, f = FFin num den /\ 0 < den /\ num = n * den).
  { assert (0 <= n) by (destruct SC as [[_ E]|[_ E]]; nia). unfold f. destruct SC as [[-> E]|[N E]].
    - change (str_eqb ($"-") ($"-")) with true. cbv iota. rewrite !Z.add_0_l. destruct (Z.leb_spec 0 (- k)).
      + assert (k = 0) by lia. subst k. change (10 ^ (- 0)) with 1. change (10 ^ 0) with 1 in E.
        destruct (rn_exact n 0 0 (v * 1) 1) as (num & den & -> & D' & E'); try lia. exists num, den. split; [reflexivity|]. split; [exact D'|]. change (2 ^ 0) with 1 in E'. lia.
      + rewrite Z.opp_involutive. destruct (rn_exact n 0 0 v (10 ^ k)) as (num & den & -> & D' & E'); try lia.
        exists num, den. split; [reflexivity|]. split; [exact D'|]. change (2 ^ 0) with 1 in E'. lia.
    - assert (B : str_eqb xs ($"-") = false) by (destruct Sx as [<-|[<-|[<-|[]]]]; [reflexivity|reflexivity|easy]).
      rewrite B. rewrite !Z.add_0_l. destruct (Z.leb_spec 0 k); [|lia].
      destruct (rn_exact n 0 0 (v * 10 ^ k) 1) as (num & den & -> & D' & E'); try lia.
      exists num, den. split; [reflexivity|]. split; [exact D'|]. change (2 ^ 0) with 1 in E'. lia. }
  destruct R as (num & den & -> & D' & ->). cbn [int_of_float fint bindr]. rewrite Z.div_mul by lia. reflexivity.
Qed.
