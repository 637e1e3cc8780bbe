(** Tests with a reference. *)
From Coq Require Import List NArith ZArith Bool.
From Verif Require Import Py ExprSpec ExprProofs TypeModel TypeSpec TypeProofs RegistryModel RegistrySpec TestModel
  TestProofs RegistryProofs.
Import ListNotations.

Definition comparable (a b : ty) : Prop :=
  exists c, derives class class_bases c CType /\ c <> CType /\
    derives class class_bases (CSub a) c /\ derives class class_bases (CSub b) c.
Section Env.
  Variable R : Type.
  Variable rcompile : str -> res R.
  Variable rsearch : R -> str -> bool.
  Variable parse_time : str -> res Z.
  Variable debug : bool.
  Variable case : case_mode.
  Variable registered : list plugin.
  Variable init_plugin : str -> res unit.
  Variable reference_value : str * str -> str -> res value.
  Notation parse := (parse_test R rcompile parse_time debug case registered init_plugin reference_value).
  Notation resolves := (resolves registered init_plugin).
  (** The attribute of a reference: the one that is tested unless another one
      is named. *)
  Definition refers (r : str) (at_ : str * str) (t : ty) (ref : str * str) (rt : ty) : Prop :=
    match r with [] => ref = at_ /\ rt = t | _ => resolves r ref rt end.
  Lemma get_reference r at_ t ref rt v : get_attribute_type registered at_ = Ok t -> refers r at_ t ref rt ->
    get_reference_value registered init_plugin reference_value t at_ r v =
    match get_common_super_type t rt with None => Err ExpressionError | Some _ => reference_value ref v end.
  Proof.
    intros E H. unfold get_reference_value. destruct r as [|c r].
    - destruct H as [-> ->]. cbn [bindr]. rewrite E. reflexivity.
    - destruct H as [H1 H2]. rewrite H1. cbn [bindr]. rewrite H2. reflexivity.
  Qed.
  Lemma reference_rejected s a o r v at_ t ref rt : Writes s a o (Some r) v -> resolves a at_ t ->
    refers r at_ t ref rt -> ~ comparable t rt -> exists e, parse s = Err e /\ In e [ExpressionError; UsageError].
  Proof.
    intros W H Hr Hc.
    rewrite (parse_writes R rcompile parse_time debug case registered init_plugin reference_value _ _ _ _ _ _ _ W H).
    destruct H as [_ H]. unfold create_test. rewrite H. cbn [bindr].
    destruct (negb (str_in o (operators t))); [eexists; split; [reflexivity|now left]|].
    rewrite (get_reference _ _ _ _ _ _ H Hr). destruct (get_common_super_type t rt) eqn:E.
    - exfalso. apply Hc. apply common_builtin. congruence.
    - eexists. split; [reflexivity|right; now left].
  Qed.
  Lemma reference_failed s a o r v at_ t ref rt e : Writes s a o (Some r) v -> resolves a at_ t ->
    refers r at_ t ref rt -> reference_value ref v = Err e ->
    exists e, parse s = Err e /\ In e [ExpressionError; UsageError].
  Proof.
    intros W H Hr Hc.
    rewrite (parse_writes R rcompile parse_time debug case registered init_plugin reference_value _ _ _ _ _ _ _ W H).
    destruct H as [_ H]. unfold create_test. rewrite H. cbn [bindr].
    destruct (negb (str_in o (operators t))); [eexists; split; [reflexivity|now left]|].
    rewrite (get_reference _ _ _ _ _ _ H Hr). rewrite Hc.
    destruct (get_common_super_type t rt); (eexists; split; [reflexivity|right; now left]).
  Qed.
  (** With comparable types the test is the one for the value of the
      reference. *)
  Lemma reference_create s a o r v at_ t ref rt x : Writes s a o (Some r) v -> resolves a at_ t ->
    refers r at_ t ref rt -> comparable t rt -> reference_value ref v = Ok x ->
    In o (operators t) -> string_type t = false -> choices t = None ->
    parse s = Ok (Test at_ o t (TV x) false).
  Proof.
    intros W H Hr Hc Hx Ho S C.
    rewrite (parse_writes R rcompile parse_time debug case registered init_plugin reference_value _ _ _ _ _ _ _ W H).
    destruct H as [_ H]. unfold create_test. rewrite H. cbn [bindr]. apply str_in_iff in Ho. rewrite Ho.
    rewrite (get_reference _ _ _ _ _ _ H Hr). apply common_builtin in Hc.
    destruct (get_common_super_type t rt); [|easy]. rewrite Hx, C, S. reflexivity.
  Qed.
  Lemma reference_number s a o r v at_ t ref rt n : Writes s a o (Some r) v -> resolves a at_ t ->
    refers r at_ t ref rt -> In t [TNumber; TSize; TTime; TDuration] ->
    comparable t rt -> reference_value ref v = Ok (VInt n) ->
    In o [$"="; $"+="; $"-="; $"+"; $"-"] ->
    exists test, parse s = Ok test /\
      forall name dir k, exists b, run rsearch test name dir (VInt k) = Ok b /\ (b = true <-> Compare k n o).
  Proof.
    intros W H Hr Ht Hc Hx Ho. exists (Test at_ o t (TV (VInt n)) false). split.
    - eapply reference_create; eauto.
      + cbn in Ht. intuition; subst t; cbn in *; tauto.
      + cbn in Ht. intuition; now subst t.
      + cbn in Ht. intuition; now subst t.
    - intros name dir k. exists (number_test o n k). split; [|apply number_op; cbn in *; tauto].
      cbn in Ht. unfold run. cbn [t_type t_value t_operator t_ignore_case]. intuition; now subst t.
  Qed.
  Lemma reference_mode s a o r v at_ ref rt n : Writes s a o (Some r) v -> resolves a at_ TMode ->
    refers r at_ TMode ref rt -> comparable TMode rt -> reference_value ref v = Ok (VInt n) ->
    In o [$"="; $":"; $"~"] ->
    exists test, parse s = Ok test /\
      forall name dir k, exists b, run rsearch test name dir (VInt k) = Ok b /\ (b = true <-> ModeTest k n o).
  Proof.
    intros W H Hr Hc Hx Ho. exists (Test at_ o TMode (TV (VInt n)) false). split.
    - eapply reference_create; eauto.
    - intros name dir k. exists (mode_test o n k). split; [reflexivity|now apply mode_op].
  Qed.
  Lemma reference_string s a o r v at_ t ref rt x : Writes s a o (Some r) v -> resolves a at_ t ->
    refers r at_ t ref rt -> In t [TString; TPath] -> comparable t rt -> reference_value ref v = Ok (VStr x) ->
    In o [$"="; $":"] ->
    exists test, parse s = Ok test /\
      forall name dir y, exists b, run rsearch test name dir (VStr y) = Ok b /\
        (b = true <-> (if folds case x then StringTest (lower y) (lower x) o else StringTest y x o)).
  Proof.
    intros W H Hr Ht Hc Hx Ho. eexists. split.
    - rewrite (parse_writes R rcompile parse_time debug case registered init_plugin reference_value _ _ _ _ _ _ _ W H).
      destruct H as [_ H]. unfold create_test. rewrite H. cbn [bindr].
      assert (Hop : str_in o (operators t) = true).
      { apply str_in_iff. cbn in Ht. intuition; subst t; cbn in *; tauto. }
      rewrite Hop, (get_reference _ _ _ _ _ _ H Hr). apply common_builtin in Hc.
      destruct (get_common_super_type t rt); [|easy]. rewrite Hx.
      assert (S : string_type t = true) by (cbn in Ht; intuition; now subst t).
      assert (C : choices t = None) by (cbn in Ht; intuition; now subst t).
      rewrite C, S. cbn [negb bindr].
      assert (P : prepare R rcompile case t o (VStr x) =
                  Ok (TV (VStr (if folds case x then lower x else x)), folds case x)).
      { unfold prepare, folds.
        assert (N1 : str_eqb o ($"~") = false) by (cbn in Ho; intuition; now subst o).
        assert (N2 : str_eqb o ($"%") = false) by (cbn in Ho; intuition; now subst o).
        destruct case; cbn [bindr py_lower].
        - destruct (str_eqb x (lower x)); cbn [bindr]; now rewrite N1, N2.
        - now rewrite N1, N2.
        - now rewrite N1, N2. }
      rewrite P. reflexivity.
    - intros name dir y. unfold run. cbn [t_type t_value t_operator t_ignore_case fst snd].
      set (tv := if folds case x then lower x else x). set (f := folds case x).
      assert (E : type_test rsearch t name dir f o (TV (VStr tv)) (VStr y) =
                  string_test rsearch f o (TV (VStr tv)) y \/
                  type_test rsearch t name dir f o (TV (VStr tv)) (VStr y) =
                  string_test rsearch f o (TV (VStr tv)) (if f then lower y else y)).
      { cbn in Ht. destruct Ht as [<-|[<-|[]]]; [now left|right].
        cbn [type_test]. unfold path_test. cbn in Ho. intuition; now subst o. }
      destruct E as [-> | ->].
      + destruct (string_op R rsearch f o tv y Ho) as (b & E & B). exists b. split; [exact E|].
        rewrite B. unfold tv, f. now destruct (folds case x).
      + destruct (string_op R rsearch f o tv (if f then lower y else y) Ho) as (b & E & B).
        exists b. split; [exact E|]. rewrite B. unfold tv, f. destruct (folds case x); [|easy]. now rewrite lower_idem.
  Qed.
End Env.
