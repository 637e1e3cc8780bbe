From Coq Require Import List NArith ZArith Bool Lia ZifyBool.
From Verif Require Import Py Re ExprModel ExprSpec ExprProofs GlobModel TypeModel TypeSpec TypeProofs RegistryModel TestModel.
Import ListNotations.
Local Open Scope Z_scope.

Section Env.
  Variable R : Type.
  Variable rcompile : str -> res R.
  Variable rsearch : R -> str -> bool.
  Variable parse_time : str -> res Z.
  Variable debug : bool.
  Variable case : case_mode.
  Variable registered : list plugin.
  Variable init_plugin : str -> res unit.
  Variable reference_value : str * str -> str -> res value.
  Notation create := (create_test R rcompile parse_time debug case registered init_plugin reference_value).
  Notation parse := (parse_test R rcompile parse_time debug case registered init_plugin reference_value).
  Notation input := (input parse_time debug).

  (** The name a stands for the attribute at of type t, whose plugin can be set
      up. *)
  Definition resolves (a : str) (at_ : str * str) (t : ty) : Prop :=
    setup_attribute registered init_plugin a = Ok at_ /\ get_attribute_type registered at_ = Ok t.

  Lemma parse_writes s a o r v at_ t : Writes s a o r v -> resolves a at_ t ->
    parse s = create at_ o r v.
  Proof. intros H [E _]. unfold parse_test. rewrite (split_writes _ _ _ _ _ H), E. reflexivity. Qed.

  Lemma create_bad_op at_ t o r v : get_attribute_type registered at_ = Ok t -> ~ In o (operators t) ->
    create at_ o r v = Err ExpressionError.
  Proof.
    intros E H. unfold create_test. rewrite E. cbn [bindr].
    destruct (str_in o (operators t)) eqn:X; [|reflexivity]. now apply str_in_iff in X.
  Qed.
  Lemma create_plain at_ t o v x : get_attribute_type registered at_ = Ok t -> In o (operators t) ->
    input t v = Ok x -> string_type t = false -> choices t = None ->
    create at_ o None v = Ok (Test at_ o t (TV x) false).
  Proof.
    intros E H I S C. unfold create_test. rewrite E. cbn [bindr]. apply str_in_iff in H. rewrite H, I, S, C.
    reflexivity.
  Qed.
  Lemma create_bad_value at_ t o v e : get_attribute_type registered at_ = Ok t -> In o (operators t) ->
    input t v = Err e -> create at_ o None v = Err UsageError.
  Proof. intros E H I. unfold create_test. rewrite E. cbn [bindr]. apply str_in_iff in H. now rewrite H, I. Qed.

  Lemma number_end s a o v at_ t n : Writes s a o None v -> resolves a at_ t ->
    In t [TNumber; TSize; TTime; TDuration] -> In o (operators TNumber) -> input t v = Ok (VInt n) ->
    exists test, parse s = Ok test /\
      forall name dir k, exists b, run rsearch test name dir (VInt k) = Ok b /\ (b = true <-> Compare k n o).
  Proof.
    intros W [H1 H2] Ht Ho I. exists (Test at_ o t (TV (VInt n)) false). split.
    - rewrite (parse_writes _ _ _ _ _ _ _ W (conj H1 H2)). apply create_plain; auto.
      + cbn in Ht. intuition; subst t; exact Ho.
      + cbn in Ht. intuition; now subst t.
      + cbn in Ht. intuition; now subst t.
    - intros name dir k. exists (number_test o n k). split; [|now apply number_op].
      cbn in Ht. unfold run. cbn [t_type t_value t_operator t_ignore_case]. intuition; now subst t.
  Qed.
  Lemma mode_end s a o v at_ n : Writes s a o None v -> resolves a at_ TMode ->
    In o (operators TMode) -> parse_mode v = Ok n ->
    exists test, parse s = Ok test /\
      forall name dir k, exists b, run rsearch test name dir (VInt k) = Ok b /\ (b = true <-> ModeTest k n o).
  Proof.
    intros W [H1 H2] Ho I. exists (Test at_ o TMode (TV (VInt n)) false). split.
    - rewrite (parse_writes _ _ _ _ _ _ _ W (conj H1 H2)). apply create_plain; auto.
      cbn [TypeModel.input]. now rewrite I.
    - intros name dir k. exists (mode_test o n k). split; [reflexivity|now apply mode_op].
  Qed.

  (** Strings. *)
  Definition folds (v : str) : bool :=
    match case with CaseSmart => str_eqb v (lower v) | CaseIgnore => true | CaseSensitive => false end.
  Lemma create_string at_ t o v : get_attribute_type registered at_ = Ok t -> string_type t = true ->
    In o [$"="; $":"] ->
    create at_ o None v = Ok (Test at_ o t (TV (VStr (if folds v then lower v else v))) (folds v)).
  Proof.
    intros E S Ho. unfold create_test. rewrite E. cbn [bindr].
    assert (Hop : str_in o (operators t) = true).
    { apply str_in_iff. destruct t; try discriminate; cbn in *; tauto. }
    assert (I : input t v = Ok (VStr v)) by (destruct t; try discriminate; reflexivity).
    assert (C : choices t = None) by (destruct t; try discriminate; reflexivity).
    rewrite Hop, I, C, S. cbn [negb bindr]. unfold prepare, folds.
    assert (N1 : str_eqb o ($"~") = false) by (cbn in Ho; intuition; now subst o).
    assert (N2 : str_eqb o ($"%") = false) by (cbn in Ho; intuition; now subst o).
    destruct case; cbn [bindr py_lower].
    - destruct (str_eqb v (lower v)); cbn [bindr]; now rewrite N1, N2.
    - now rewrite N1, N2.
    - now rewrite N1, N2.
  Qed.
  Lemma string_op ic o x v : In o [$"="; $":"] ->
    exists b, string_test rsearch ic o (TV (VStr x)) v = Ok b /\
      (b = true <-> StringTest (if ic then lower v else v) x o).
  Proof.
    intros Ho. unfold string_test, StringTest. cbn in Ho. destruct Ho as [<-|[<-|[]]].
    - change (str_eqb ($"=") ($"%")) with false. change (str_eqb ($"=") ($"=")) with true. cbv iota.
      eexists. split; [reflexivity|]. rewrite str_eqb_eq. split; [auto|].
      intros [[_ H]|[H _]]; [exact H|discriminate].
    - change (str_eqb ($":") ($"%")) with false. change (str_eqb ($":") ($"=")) with false.
      change (str_eqb ($":") ($":")) with true. cbv iota. eexists. split; [reflexivity|].
      rewrite is_sub_iff. split; [auto|]. intros [[H _]|[_ H]]; [discriminate|exact H].
  Qed.
  Lemma lower_idem s : lower (lower s) = lower s.
  Proof. unfold lower. rewrite map_map. apply map_ext. intros c. apply lower_c_idem. Qed.
  Lemma string_end s a o v at_ t : Writes s a o None v -> resolves a at_ t ->
    In t [TString; TPath] -> In o [$"="; $":"] ->
    exists test, parse s = Ok test /\
      forall name dir x, exists b, run rsearch test name dir (VStr x) = Ok b /\
        (b = true <-> (if folds v then StringTest (lower x) (lower v) o else StringTest x v o)).
  Proof.
    intros W [H1 H2] Ht Ho. eexists. split.
    - rewrite (parse_writes _ _ _ _ _ _ _ W (conj H1 H2)). apply create_string; [exact H2| |exact Ho].
      cbn in Ht. now destruct Ht as [<-|[<-|[]]].
    - intros name dir x. unfold run. cbn [t_type t_value t_operator t_ignore_case].
      set (tv := if folds v then lower v else v).
      assert (E : type_test rsearch t name dir (folds v) o (TV (VStr tv)) (VStr x) =
                  string_test rsearch (folds v) o (TV (VStr tv)) x \/
                  type_test rsearch t name dir (folds v) o (TV (VStr tv)) (VStr x) =
                  string_test rsearch (folds v) o (TV (VStr tv)) (if folds v then lower x else x)).
      { cbn in Ht. destruct Ht as [<-|[<-|[]]]; [now left|right].
        cbn [type_test]. unfold path_test. cbn in Ho. intuition; now subst o. }
      destruct E as [-> | ->].
      + destruct (string_op (folds v) o tv x Ho) as (b & E & B). exists b. split; [exact E|].
        rewrite B. unfold tv. now destruct (folds v).
      + destruct (string_op (folds v) o tv (if folds v then lower x else x) Ho) as (b & E & B).
        exists b. split; [exact E|]. rewrite B. unfold tv. destruct (folds v); [|easy]. now rewrite lower_idem.
  Qed.

  Lemma lower_c_upper c : lower_c c <> c <-> upper_case c.
  Proof.
    unfold lower_c, upper_case, is_upper_AZ, between.
    destruct ((65 <=? c)%N && (c <=? 90)%N || (192 <=? c)%N && (c <=? 222)%N && negb (c =? 215)%N) eqn:E; lia.
  Qed.
  Lemma lower_same v : v = lower v <-> forall c, In c v -> ~ upper_case c.
  Proof.
    induction v as [|c v IH]; cbn [lower map].
    - split; [intros _ ? []|reflexivity].
    - split.
      + intros H d [<-|Hd]; injection H as H1 H2.
        * rewrite <- lower_c_upper. congruence.
        * apply IH; [exact H2|exact Hd].
      + intros H. f_equal.
        * destruct (N.eq_dec (lower_c c) c) as [E|E]; [easy|]. apply lower_c_upper in E. exfalso. eapply H; [now left|exact E].
        * apply IH. intros d Hd. apply H. now right.
  Qed.

  (** File types. *)
  Lemma choice_iff v : str_in v (match choices TFileType with Some l => l | None => [] end) = true <-> exists x, stands_for v x.
  Proof.
    rewrite str_in_iff. split.
    - cbn [choices In]. intros H. repeat (destruct H as [<-|H]; [eexists; constructor|]). destruct H.
    - intros [x H]. destruct H; cbn; tauto.
  Qed.
  Lemma filetype_create v at_ : get_attribute_type registered at_ = Ok TFileType ->
    ((exists x, stands_for v x) /\
     exists test, create at_ ($"=") None v = Ok test /\
       forall name dir y, exists b, run rsearch test name dir (VStr y) = Ok b /\ (b = true <-> stands_for v y))
    \/ (~ exists x, stands_for v x) /\ create at_ ($"=") None v = Err ExpressionError.
  Proof.
    intros H2.
    unfold create_test. rewrite H2. cbn [bindr operators].
    change (str_in ($"=") [$"="]) with true. cbn [negb TypeModel.input bindr string_type].
    assert (C := choice_iff v).
    change (match choices TFileType with Some l => str_in v l | None => true end) with
      (str_in v (match choices TFileType with Some l => l | None => [] end)).
    destruct (str_in v _) eqn:E.
    - left. split; [now apply C|]. eexists. split; [reflexivity|]. intros name dir y.
      unfold run. cbn [t_type t_value t_operator t_ignore_case type_test filetype_test].
      eexists. split; [reflexivity|]. cbv zeta.
      assert (Hv := proj1 C eq_refl). destruct Hv as [x Hx]. clear -Hx.
      change (str_eqb ($"=") ($"=")) with true. cbn [andb].
      set (mm := if str_eqb (lower v) ($"d") then _ else _).
      assert (M : mm = x) by (subst mm; destruct Hx; reflexivity). rewrite M, str_eqb_eq. split.
      + intros ->. exact Hx.
      + intros Hy. destruct Hx; inversion Hy; reflexivity.
    - right. split; [|reflexivity]. rewrite <- C. discriminate.
  Qed.
  Lemma filetype_end s a v at_ : Writes s a ($"=") None v -> resolves a at_ TFileType ->
    ((exists x, stands_for v x) /\
     exists test, parse s = Ok test /\
       forall name dir y, exists b, run rsearch test name dir (VStr y) = Ok b /\ (b = true <-> stands_for v y))
    \/ (~ exists x, stands_for v x) /\ parse s = Err ExpressionError.
  Proof.
    intros W [H1 H2]. rewrite (parse_writes _ _ _ _ _ _ _ W (conj H1 H2)). now apply filetype_create.
  Qed.

  (** Booleans. *)
  Lemma lower_of_iff u l : (forall c, In c l -> (c < 128)%N /\ ~ (65 <= c <= 90)%N) -> (lower u = l <-> lower_of u l).
  Proof.
    intros Hl. split.
    - intros <-. unfold lower_of. induction u as [|c u IH]; [constructor|]. cbn [lower map] in *. constructor.
      + assert (H := Hl _ (or_introl eq_refl)).
        unfold lower_c, is_upper_AZ, between in *. 
        destruct ((65 <=? c)%N && (c <=? 90)%N || (192 <=? c)%N && (c <=? 222)%N && negb (c =? 215)%N) eqn:E; lia.
      + apply IH. intros; apply Hl; now right.
    - intros H. induction H as [|a b u l H F IH]; [reflexivity|]. cbn [lower map].
      assert (Hb := Hl _ (or_introl eq_refl)). f_equal; [|apply IH; intros; apply Hl; now right].
      unfold lower_c, is_upper_AZ, between.
      destruct ((65 <=? a)%N && (a <=? 90)%N || (192 <=? a)%N && (a <=? 222)%N && negb (a =? 215)%N) eqn:E; lia.
  Qed.
  Lemma yes_no_iff l b : yes_no l b <-> In l (if b then TRUE else FALSE).
  Proof.
    split.
    - intros []; cbn; tauto.
    - destruct b; cbn; intuition; subst l; constructor.
  Qed.
  Lemma yes_no_ascii l b : yes_no l b -> forall c, In c l -> (c < 128)%N /\ ~ (65 <= c <= 90)%N.
  Proof.
    intros H c Hc. assert (G : forallb (fun c => (c <? 128)%N && negb (between 65 90 c)) l = true) by (destruct H; reflexivity).
    rewrite forallb_forall in G. apply G in Hc. unfold between in Hc. lia.
  Qed.
  Lemma boolean_text_iff s b : boolean_text s b <-> In (lower s) (if b then TRUE else FALSE).
  Proof.
    unfold boolean_text. rewrite <- yes_no_iff. split.
    - intros (l & H1 & H2). apply (lower_of_iff s l) in H1; [now subst l|]. eapply yes_no_ascii; eauto.
    - intros H. exists (lower s). split; [|exact H]. apply lower_of_iff; [|reflexivity]. eapply yes_no_ascii; eauto.
  Qed.
  Lemma input_boolean s : input TBoolean s =
    if debug && negb (str_in (lower s) (TRUE ++ FALSE)) then Err AssertionErr else Ok (VBool (str_in (lower s) TRUE)).
  Proof. reflexivity. Qed.
  Lemma boolean_unique s : boolean_text s true -> boolean_text s false -> False.
  Proof.
    rewrite !boolean_text_iff. intros H1 H2.
    assert (G : forallb (fun x => negb (str_in x FALSE)) TRUE = true) by reflexivity.
    rewrite forallb_forall in G. apply G in H1. apply negb_true_iff in H1.
    apply str_in_iff in H2. congruence.
  Qed.
  Lemma input_boolean_ok s b : boolean_text s b -> input TBoolean s = Ok (VBool b).
  Proof.
    intros H. rewrite input_boolean. assert (H' := H). apply boolean_text_iff in H.
    assert (E : str_in (lower s) (TRUE ++ FALSE) = true).
    { apply str_in_iff, in_app_iff. destruct b; auto. }
    rewrite E, andb_false_r. do 2 f_equal. destruct b.
    - now apply str_in_iff.
    - destruct (str_in (lower s) TRUE) eqn:X; [|reflexivity]. exfalso. apply (boolean_unique s); [|exact H'].
      apply boolean_text_iff. now apply str_in_iff.
  Qed.
  Lemma boolean_end s a v b at_ : Writes s a ($"=") None v -> resolves a at_ TBoolean -> boolean_text v b ->
    exists test, parse s = Ok test /\
      forall name dir y, exists r, run rsearch test name dir (VBool y) = Ok r /\ (r = true <-> y = b).
  Proof.
    intros W [H1 H2] Hb. eexists. split.
    - rewrite (parse_writes _ _ _ _ _ _ _ W (conj H1 H2)). apply create_plain; [exact H2|now left| |reflexivity|reflexivity].
      exact (input_boolean_ok v b Hb).
    - intros name dir y. unfold run. cbn [t_type t_value t_operator t_ignore_case type_test].
      eexists. split; [reflexivity|]. unfold boolean_test. change (str_eqb ($"=") ($"=")) with true. cbn [andb].
      apply eqb_true_iff.
  Qed.
  Lemma boolean_strict s a v at_ : debug = true -> Writes s a ($"=") None v -> resolves a at_ TBoolean ->
    (~ exists b, boolean_text v b) -> parse s = Err UsageError.
  Proof.
    intros D W [H1 H2] Hb. rewrite (parse_writes _ _ _ _ _ _ _ W (conj H1 H2)).
    eapply create_bad_value; [exact H2|now left|]. rewrite input_boolean, D.
    assert (E : str_in (lower v) (TRUE ++ FALSE) = false).
    { destruct (str_in (lower v) (TRUE ++ FALSE)) eqn:X; [|reflexivity]. exfalso. apply Hb.
      apply str_in_iff, in_app_iff in X as [X|X]; [exists true|exists false]; now apply boolean_text_iff. }
    rewrite E. reflexivity.
  Qed.

  (** Lists. *)
  Lemma list_test_ok ic o (tv : tvalue R) l : (forall x, In x l -> exists b, string_test rsearch ic o tv x = Ok b) ->
    exists b, list_test rsearch ic o tv l = Ok b /\
      (b = true <-> exists x, In x l /\ string_test rsearch ic o tv x = Ok true).
  Proof.
    induction l as [|x l IH]; intros H; cbn [list_test].
    - exists false. split; [reflexivity|]. split; [discriminate|]. intros (x & [] & _).
    - destruct (H x (or_introl eq_refl)) as [b E]. rewrite E. cbn [bindr]. destruct b.
      + exists true. split; [reflexivity|]. split; [|auto]. intros _. exists x. split; [now left|exact E].
      + destruct IH as (b & E' & B); [intros; apply H; now right|]. exists b. split; [exact E'|].
        rewrite B. split.
        * intros (y & Hy & Ey). exists y. split; [now right|exact Ey].
        * intros (y & [<-|Hy] & Ey); [congruence|]. eauto.
  Qed.
  Lemma create_list_string at_l at_s o v : get_attribute_type registered at_l = Ok TListOfStrings ->
    get_attribute_type registered at_s = Ok TString ->
    (exists tv ic, create at_l o None v = Ok (Test at_l o TListOfStrings tv ic) /\
                   create at_s o None v = Ok (Test at_s o TString tv ic)) \/
    (exists e, create at_l o None v = Err e /\ create at_s o None v = Err e).
  Proof.
    intros E1 E2. unfold create_test. rewrite E1, E2. cbn [bindr operators TypeModel.input string_type choices negb].
    destruct (str_in o _); cbn [negb]; [|right; eauto].
    assert (P : prepare R rcompile case TListOfStrings o (VStr v) = prepare R rcompile case TString o (VStr v)) by reflexivity.
    rewrite P. destruct (prepare _ _ _ TString o (VStr v)) as [[tv ic]|e]; cbn [bindr fst snd]; [left|right]; eauto.
  Qed.
  Lemma list_end sl ss al as_ at_l at_s o v :
    Writes sl al o None v -> Writes ss as_ o None v ->
    resolves al at_l TListOfStrings -> resolves as_ at_s TString ->
    (exists tl ts, parse sl = Ok tl /\ parse ss = Ok ts /\
       forall name dir l,
         (forall x, In x l -> exists b, run rsearch ts name dir (VStr x) = Ok b) ->
         exists b, run rsearch tl name dir (VList l) = Ok b /\
           (b = true <-> exists x, In x l /\ run rsearch ts name dir (VStr x) = Ok true)) \/
    (exists e, parse sl = Err e /\ parse ss = Err e).
  Proof.
    intros W1 W2 H1 H2. rewrite (parse_writes _ _ _ _ _ _ _ W1 H1), (parse_writes _ _ _ _ _ _ _ W2 H2).
    destruct H1 as [_ E1], H2 as [_ E2].
    destruct (create_list_string at_l at_s o v E1 E2) as [(tv & ic & -> & ->)|(e & -> & ->)].
    - left. do 2 eexists. do 2 (split; [reflexivity|]). intros name dir l.
      unfold run. cbn [t_type t_value t_operator t_ignore_case type_test]. apply list_test_ok.
    - right. eauto.
  Qed.
  (** Only glob patterns can fail when tested, and then for every string. *)
  Lemma string_test_fails ic o (tv : tvalue R) x y e :
    string_test rsearch ic o tv x = Err e -> string_test rsearch ic o tv y = Err e.
  Proof.
    unfold string_test. destruct (str_eqb o ($"%")).
    - destruct tv; try congruence. unfold glob_test, glob_match.
      destruct (compile false (g_regex g)); cbn; congruence.
    - destruct (str_eqb o ($"=")); [discriminate|]. destruct (str_eqb o ($":")).
      + destruct tv as [[]| |]; congruence.
      + destruct (str_eqb o ($"~")); [|discriminate]. destruct tv; congruence.
  Qed.
End Env.
