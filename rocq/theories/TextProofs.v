(** The texts of values. *)
From Coq Require Import List NArith ZArith Bool Lia.
From Verif Require Import Py TypeModel RegistryModel ConvertModel ConvertSpec DurationProofs FieldModel BaseSpec BaseProofs JsonProofs CountModel TextSpec.
Import ListNotations.

Lemma commas_join l : Commas l (join_with ($",") l).
Proof.
  induction l as [|x l IH]; [constructor|]. destruct l as [|y l]; [constructor|].
  change (join_with ($",") (x :: y :: l)) with (x ++ 44%N :: join_with ($",") (y :: l)). now constructor.
Qed.
Lemma commas_fun l s : Commas l s -> forall s', Commas l s' -> s = s'.
Proof. induction 1; intros s' H'; inversion H'; subst; auto. now rewrite (IHCommas s0). Qed.
Lemma digits_val_snoc s c : digits_val (s ++ [c]) = (digits_val s * 10 + (c - 48))%N.
Proof. unfold digits_val. now rewrite fold_left_app. Qed.
Lemma digits_decimal s : s <> [] -> forallb is_d s = true -> Digits 10 s (digits_val s).
Proof.
  induction s as [|c s IH] using rev_ind; [easy|]. intros _ H. rewrite forallb_app in H. apply andb_prop in H as [H1 H2].
  cbn [forallb] in H2. rewrite andb_true_r in H2. unfold is_d in H2. apply andb_prop in H2 as [Ha Hb].
  assert (D : digit_value c = Some (c - 48)%N) by (unfold digit_value; now rewrite Ha, Hb).
  assert (L : (c - 48 < 10)%N) by (apply N.leb_le in Hb; lia).
  destruct s as [|d s].
  - constructor; assumption.
  - rewrite digits_val_snoc. apply digits_more; auto. apply IH; [discriminate|exact H1].
Qed.
Lemma numeral_N n : Digits 10 (str_of_N n) n /\ (n = 0%N \/ hd_error (str_of_N n) <> Some 48%N).
Proof.
  split.
  - rewrite <- (digits_val_str_of_N n) at 2. apply digits_decimal; [apply uint_str_nonnil|apply str_of_N_digits].
  - destruct (str_of_N n) as [|c more] eqn:E; [right; discriminate|]. cbn [hd_error].
    destruct (N.eq_dec c 48) as [->|K]; [|right; congruence]. left. assert (M := str_of_N_no_zero n 48%N more E eq_refl). subst more.
    rewrite <- (digits_val_str_of_N n), E. reflexivity.
Qed.
Lemma numeral_Z z : Numeral 10 (str_of_Z z) z.
Proof.
  destruct z as [|p|p].
  - exists [48%N], 0%N. split; [exact (digits_one 10%N 48%N 0%N eq_refl eq_refl)|]. split; [now left|]. left. auto with zarith.
  - destruct (numeral_N (Npos p)) as [D H]. exists (str_of_N (Npos p)), (Npos p). split; [exact D|]. split; [exact H|]. left.
    split; [lia|]. split; reflexivity.
  - destruct (numeral_N (Npos p)) as [D H]. exists (str_of_N (Npos p)), (Npos p). split; [exact D|]. split; [exact H|]. right.
    split; [lia|]. split; reflexivity.
Qed.
Lemma number_text m z : exists b, base_is m b /\ Numeral b (number_output m z) z.
Proof.
  unfold number_output. destruct m as [m|].
  - destruct (str_eqb m ($"x")) eqn:X.
    + apply str_eqb_eq in X. subst m. exists 16%N. split; [left; auto|apply format_base_numeral; lia].
    + destruct (str_eqb m ($"o")) eqn:O.
      * apply str_eqb_eq in O. subst m. exists 8%N. split; [right; left; auto|apply format_base_numeral; lia].
      * exists 10%N. split; [|apply numeral_Z]. right; right.
        assert (Hx : Some m <> Some ($"x")) by (intros K; injection K as ->; rewrite str_eqb_refl in X; discriminate X).
        assert (Ho : Some m <> Some ($"o")) by (intros K; injection K as ->; rewrite str_eqb_refl in O; discriminate O).
        split; [exact Hx|]. split; [exact Ho|reflexivity].
  - exists 10%N. split; [|apply numeral_Z]. right; right. split; [discriminate|]. split; [discriminate|reflexivity].
Qed.

Section Text.
  Variable human : ty -> Z -> str.
  Lemma output_text t m v : conforms t v = true ->
    (forall z, t = TDuration -> m = Some ($"h") -> v = VInt z -> (0 <= z)%Z) ->
    exists s, output human t m v = Ok s /\ TextOf human t m v s.
  Proof.
    intros C D. unfold output.
    assert (H : (exists (_ : m = Some ($"h")), (match m with Some m => str_eqb m ($"h") | None => false end) = true) \/
                (m <> Some ($"h") /\ (match m with Some m => str_eqb m ($"h") | None => false end) = false)).
    { destruct m as [m|]; [|right; split; [discriminate|reflexivity]]. destruct (str_eqb m ($"h")) eqn:E.
      - apply str_eqb_eq in E. subst m. left. exists eq_refl. reflexivity.
      - right. split; [|reflexivity]. intros K. injection K as ->. rewrite str_eqb_refl in E. discriminate E. }
    destruct t, v as [s|z|b|l]; try discriminate C.
    - eexists. split; [reflexivity|]. constructor. cbn; auto.
    - eexists. split; [reflexivity|]. constructor. cbn; auto.
    - eexists. split; [reflexivity|]. constructor. cbn; auto.
    - eexists. split; [reflexivity|]. constructor. apply commas_join.
    - eexists. split; [reflexivity|]. destruct (number_text m z) as (b & B & N). apply (text_number _ _ _ _ b); auto. cbn; auto.
    - destruct H as [(-> & ->)|(H & ->)]; eexists; (split; [reflexivity|]).
      + constructor. cbn; auto.
      + destruct (number_text m z) as (b & B & N). apply (text_number _ _ _ _ b); auto. cbn; auto.
    - destruct H as [(-> & ->)|(H & ->)]; eexists; (split; [reflexivity|]).
      + constructor. cbn; auto.
      + destruct (number_text m z) as (b & B & N). apply (text_number _ _ _ _ b); auto. cbn; auto.
    - destruct H as [(-> & ->)|(H & ->)]; eexists; (split; [reflexivity|]).
      + constructor. cbn; auto.
      + destruct (number_text m z) as (b & B & N). apply (text_number _ _ _ _ b); auto. cbn; auto 10.
    - destruct H as [(-> & ->)|(H & ->)]; eexists; (split; [reflexivity|]).
      + constructor. apply format_is_duration. now apply D.
      + destruct (number_text m z) as (b & B & N). apply (text_number _ _ _ _ b); auto. cbn; auto 10.
    - destruct b; eexists; (split; [reflexivity|constructor]).
  Qed.
  Lemma output_wrong t m v : conforms t v = false -> In t [TListOfStrings; TBoolean; TNumber; TMode; TSize; TTime; TDuration] ->
    output human t m v = Err TypeErr.
  Proof. intros C H. cbn [In] in H. unfold output. repeat (destruct H as [<-|H]; [destruct v; (discriminate C || reflexivity)|]). destruct H. Qed.
End Text.

(** --count *)
Lemma count_rejected registered init_plugin argument : count_fields registered init_plugin argument =
  match output_fields registered init_plugin argument with
  | Err e => Err e
  | Ok fields => if existsb (fun f => ty_eqb (f_type f) TListOfStrings) fields then Err UsageError else Ok fields
  end.
Proof.
  unfold count_fields. destruct (output_fields registered init_plugin argument) as [fields|]; [|reflexivity]. cbn [bindr].
  replace (existsb (fun f => match count_of (f_type f) with UNCOUNTABLE => true | _ => false end) fields)
    with (existsb (fun f => ty_eqb (f_type f) TListOfStrings) fields); [reflexivity|].
  induction fields as [|f l IH]; [reflexivity|]. cbn [existsb]. rewrite IH. f_equal. now destruct (f_type f).
Qed.
Lemma count_iff registered init_plugin argument fields : output_fields registered init_plugin argument = Ok fields ->
  (count_fields registered init_plugin argument = Ok fields /\ forall f, In f fields -> f_type f <> TListOfStrings) \/
  (count_fields registered init_plugin argument = Err UsageError /\ exists f, In f fields /\ f_type f = TListOfStrings).
Proof.
  intros H. rewrite count_rejected, H. destruct (existsb _ fields) eqn:E.
  - right. split; [reflexivity|]. apply existsb_exists in E as (f & Hf & T). exists f. split; [exact Hf|]. destruct (f_type f); (discriminate T || reflexivity).
  - left. split; [reflexivity|]. intros f Hf K.
    assert (X : existsb (fun f => ty_eqb (f_type f) TListOfStrings) fields = true) by (apply existsb_exists; exists f; split; [exact Hf|now rewrite K]).
    congruence.
Qed.
