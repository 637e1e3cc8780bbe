(** What a whole search reports. *)
From Coq Require Import List NArith ZArith Bool Lia.
From Verif Require Import Py PathSpec EntrySpec ExprSpec ExprProofs GrammarSpec ParserModel ParserProofs TypeSpec.
From Verif Require Import PathModel EntryModel EntryProofs TypeModel RegistryModel TestModel TestProofs ArgumentsModel ArgumentsSpec
  DepthProofs ArgumentsProofs SearchModel SearchSpec SearchTestProofs.
Import ListNotations.
Local Open Scope Z_scope.

(** ** Expressions *)
Fixpoint denote_true (P : str -> Prop) (v : str -> bool) (e : bexp) {struct e} :
  (forall t, In t (tests_of e) -> (v t = true <-> P t)) -> (denote v e = true <-> True_of P e).
Proof.
  destruct e as [t|n alts]; intros H.
  - cbn [denote True_of]. apply H. now left.
  - assert (A : existsb (forallb (denote v)) alts = true <->
      (fix any l := match l with
        | [] => False
        | es :: l => (fix all l := match l with [] => True | e :: l => True_of P e /\ all l end) es \/ any l
        end) alts).
    { cbn [tests_of] in H. induction alts as [|es alts IHa]; cbn [existsb].
      - split; [discriminate|contradiction].
      - rewrite orb_true_iff, IHa by (intros; apply H, in_or_app; now right).
        assert (G : forall t, In t (flat_map tests_of es) -> (v t = true <-> P t)) by (intros; apply H, in_or_app; now left).
        assert (E : forallb (denote v) es = true <-> (fix all l := match l with [] => True | e :: l => True_of P e /\ all l end) es).
        { clear -G denote_true. induction es as [|e es IHe]; cbn [forallb]; [tauto|].
          rewrite andb_true_iff, IHe by (intros; apply G, in_or_app; now right).
          rewrite (denote_true P v e) by (intros; apply G, in_or_app; now left). tauto. }
        rewrite E. tauto. }
    cbn [denote True_of]. destruct n; cbn [xorb]; rewrite <- A.
    + destruct (existsb (forallb (denote v)) alts); intuition congruence.
    + destruct (existsb (forallb (denote v)) alts); intuition congruence.
Qed.
Lemma satisfied_iff P v ess : (forall t, In t (flat_map (flat_map tests_of) ess) -> (v t = true <-> P t)) ->
  denote_alts v ess = true <-> Satisfied P ess.
Proof.
  intros H. unfold Satisfied. rewrite <- (denote_true P v (BGroup false ess) H). cbn [denote]. now rewrite xorb_false_l.
Qed.

(** ** The tests of an entry *)
Section Tests.
  Variable R : Type.
  Variable rcompile : str -> res R.
  Variable rsearch : R -> str -> bool.
  Variable parse_time : str -> res Z.
  Variable debug : bool.
  Variable case : case_mode.
  Variable registered : list plugin.
  Variable init_plugin : str -> res unit.
  Variable reference_value : str * str -> str -> res value.
  Variable score : test R -> Z.
  Variable other : entry -> str -> option value.
  Variable plugin_value : entry -> str * str -> option value.
  Notation parse := (parse_test R rcompile parse_time debug case registered init_plugin reference_value).
  Notation resolves := (resolves registered init_plugin).
  Notation Sat := (Sat R rcompile rsearch parse_time debug case).
  Notation Sensible := (Sensible R rcompile parse_time debug case).
  Notation Legal := (Legal R rcompile parse_time debug case registered init_plugin reference_value).
  Notation Holds e s := (Holds R rcompile rsearch parse_time debug case registered init_plugin reference_value (attribute_value other plugin_value e) s).
  Notation matched := (search_matched R rcompile rsearch parse_time debug case registered init_plugin reference_value score other plugin_value).
  Notation excluded := (search_excluded R rcompile rsearch parse_time debug case registered init_plugin reference_value score other plugin_value).
  Hypothesis Hfile : find_plugin registered ($"file") = Some file_plugin.
  Hypothesis Hinit : init_plugin ($"file") = Ok tt.
  Hypothesis Hother : forall e n t x, find_attr n file_plugin = Some t -> other e n = Some x -> of_type t x.
  Hypothesis Hplugin : forall e at_ t x, fst at_ <> $"file" -> get_attribute_type registered at_ = Ok t ->
    plugin_value e at_ = Some x -> of_type t x.

  Lemma file_typed e n t x : find_attr n file_plugin = Some t -> file_value other e n = Some x -> of_type t x.
  Proof.
    intros Hn. unfold file_value.
    repeat match goal with
    | |- context [str_eqb n ?l] =>
        let E := fresh in destruct (str_eqb n l) eqn:E;
        [apply str_eqb_eq in E; subst n; vm_compute in Hn; injection Hn as <-; intros Hx; injection Hx as <-; exact I|clear E]
    end.
    apply Hother, Hn.
  Qed.
  Lemma typed e at_ t x : get_attribute_type registered at_ = Ok t -> attribute_value other plugin_value e at_ = Some x -> of_type t x.
  Proof.
    intros E. unfold attribute_value. destruct (str_eqb (fst at_) ($"file")) eqn:F.
    - unfold get_attribute_type in E. apply str_eqb_eq in F. rewrite F, Hfile in E.
      destruct (find_attr (snd at_) file_plugin) as [t'|] eqn:Ef; [|discriminate]. injection E as <-. apply file_typed, Ef.
    - apply Hplugin; [|exact E]. intros K. rewrite K in F. discriminate.
  Qed.
  Lemma file_resolves n t : split_dot n = None -> find_attr n file_plugin = Some t -> resolves n ($"file", n) t.
  Proof.
    intros Hn Ht. pose proof (find_some _ _ Hfile) as [Hin _]. split.
    - unfold setup_attribute, parse_attribute. rewrite Hn.
      assert (E1 : str_in ($"file") (get_plugin_for_attribute registered n) = true).
      { apply str_in_iff. unfold get_plugin_for_attribute. change ($"file") with (p_name file_plugin). apply in_map, filter_In.
        split; [exact Hin|]. now rewrite Ht. }
      assert (E2 : str_in ($"file") (map p_name registered) = true).
      { apply str_in_iff. change ($"file") with (p_name file_plugin). now apply in_map. }
      rewrite E1. cbn [bindr fst]. rewrite E2, Hinit. reflexivity.
    - unfold get_attribute_type. cbn [fst snd]. now rewrite Hfile, Ht.
  Qed.
  Lemma holds_iff e s a o v at_ t : Writes s a o None v -> resolves a at_ t -> t <> TPath ->
    Holds e s <-> exists x, attribute_value other plugin_value e at_ = Some x /\ Sat t o v x.
  Proof.
    intros W H N. split.
    - intros (a' & o' & r' & v' & at' & t' & x & W' & H' & Ax & Sx).
      apply split_writes in W, W'. rewrite W in W'. injection W' as <- <- <- <-.
      destruct H as [H1 H2], H' as [H1' H2']. rewrite H1 in H1'. injection H1' as <-. rewrite H2 in H2'. injection H2' as <-.
      exists x. split; [exact Ax|]. eapply meets_iff; [|exact Sx]. intros _. exact N.
    - intros (x & Ax & Sx). exists a, o, None, v, at_, t, x. split; [exact W|]. split; [exact H|]. split; [exact Ax|].
      now apply meets_sat.
  Qed.
  Lemma sat_boolean_iff v b c : boolean_text v b -> Sat TBoolean ($"=") v (VBool c) <-> c = b.
  Proof.
    intros Hb. split; [|intros ->; now apply sat_boolean].
    intros K. inversion K; subst; try (cbn in *; intuition congruence).
    destruct c, b; try reflexivity; exfalso; eapply boolean_unique; eassumption.
  Qed.
  Definition flags : list str := [$"samedev"; $"hide"; $"empty"; $"mount"; $"exec"; $"hidden"; $"broken"; $"pseudofs"].
  Lemma flag_test a v b : word a -> In a flags -> In (v, b) [($"yes", true); ($"no", false)] ->
    Writes (a ++ $"=" ++ v) a ($"=") None v /\ boolean_text v b /\ is_test (a ++ $"=" ++ v).
  Proof.
    intros Hw Ha Hv. 
    assert (V : ExprSpec.value v /\ not_starting (fun c => is_space c = true) v /\ not_starting (eq 123%N) v /\ boolean_text v b).
    { cbn in Hv. destruct Hv as [E|[E|[]]]; injection E as <- <-.
      - split; [split; [discriminate|cbn; intuition discriminate]|]. split; [cbn; discriminate|]. split; [cbn; discriminate|].
        apply (proj2 (boolean_text_iff R rcompile parse_time init_plugin reference_value _ _)). vm_compute. tauto.
      - split; [split; [discriminate|cbn; intuition discriminate]|]. split; [cbn; discriminate|]. split; [cbn; discriminate|].
        apply (proj2 (boolean_text_iff R rcompile parse_time init_plugin reference_value _ _)). vm_compute. tauto. }
    destruct V as (V1 & V2 & V3 & V4). split; [|split; [exact V4|]].
    - assert (N : blanks []) by (intros c []).
      pose proof (Writes_intro [] a [] ($"=") ($"=") None [] [] v [] N (or_introl Hw) N op_eq ref_none N V1 N I V2
                    (fun _ _ => V3)) as K. unfold written in K. cbn [app] in K. rewrite app_nil_r in K. apply K.
      intros _ _ Hin. cbn in Hin. intuition discriminate.
    - assert (C : classify (a ++ $"=" ++ v) = TTest).
      { cbn [flags In] in Ha, Hv. repeat (destruct Ha as [<-|Ha]; [|]); try destruct Ha; destruct Hv as [E|[E|[]]]; injection E as <- <-; vm_compute; reflexivity. }
      pose proof (classify_spec (a ++ $"=" ++ v)) as K. now rewrite C in K.
  Qed.
  Lemma flag_word a : In a flags -> word a.
  Proof.
    intros Ha. cbn [flags In] in Ha. repeat (destruct Ha as [<-|Ha]; [split; [discriminate|intros c Hc; cbn in Hc; intuition; subst c; reflexivity]|]).
    destruct Ha.
  Qed.
  Lemma word_hide : word ($"hide").
  Proof. split; [discriminate|]. intros c Hc. cbn in Hc. intuition; subst c; reflexivity. Qed.
  Lemma word_samedev : word ($"samedev").
  Proof. split; [discriminate|]. intros c Hc. cbn in Hc. intuition; subst c; reflexivity. Qed.
  Lemma hide_test : is_test ($"hide=yes") /\ Legal ($"hide=yes") /\ forall e, Holds e ($"hide=yes") <-> e_hide e = true.
  Proof.
    destruct (flag_test ($"hide") ($"yes") true word_hide) as (W & B & T); [cbn; tauto|now left|].
    change ($"hide" ++ $"=" ++ $"yes") with ($"hide=yes") in *.
    assert (Hr : resolves ($"hide") ($"file", $"hide") TBoolean) by (apply file_resolves; vm_compute; reflexivity).
    split; [exact T|]. split; [exists ($"hide"), ($"="), None, ($"yes"), ($"file", $"hide"), TBoolean; split; [exact W|]; split; [exact Hr|];
      apply testable_sensible; now apply (sen_boolean _ _ _ _ _ _ true)|].
    intros e. rewrite (holds_iff e _ _ _ _ _ _ W Hr ltac:(discriminate)). change (attribute_value other plugin_value e ($"file", $"hide")) with (Some (VBool (e_hide e))).
    split.
    - intros (x & E & S). injection E as <-. now apply (sat_boolean_iff _ _ _ B).
    - intros E. eexists. split; [reflexivity|]. now apply (sat_boolean_iff _ _ _ B).
  Qed.
  (** Boolean attributes in general *)
  Lemma boolean_test a v b : In a flags -> In (v, b) [($"yes", true); ($"no", false)] ->
    is_test (a ++ $"=" ++ v) /\ Legal (a ++ $"=" ++ v) /\
    forall e, Holds e (a ++ $"=" ++ v) <-> attribute_value other plugin_value e ($"file", a) = Some (VBool b).
  Proof.
    intros Ha Hv. destruct (flag_test a v b (flag_word a Ha) Ha Hv) as (W & B & T).
    assert (Hr : resolves a ($"file", a) TBoolean).
    { clear -Ha Hfile Hinit. cbn [flags In] in Ha. repeat (destruct Ha as [<-|Ha]; [apply file_resolves; vm_compute; reflexivity|]). destruct Ha. }
    split; [exact T|]. split; [exists a, ($"="), None, v, ($"file", a), TBoolean; split; [exact W|]; split; [exact Hr|];
      apply testable_sensible; now apply (sen_boolean _ _ _ _ _ _ b)|].
    intros e. rewrite (holds_iff e _ _ _ _ _ _ W Hr ltac:(discriminate)). split.
    - intros (x & E & S). rewrite E. f_equal. inversion S; subst; try (cbn in *; intuition congruence).
      f_equal. eapply (sat_boolean_iff _ _ _ B). eassumption.
    - intros E. eexists. split; [exact E|]. now apply (sat_boolean_iff _ _ _ B).
  Qed.
  Lemma samedev_test : is_test ($"samedev=no") /\ Legal ($"samedev=no") /\
    forall e, Holds e ($"samedev=no") <-> st_dev (e_status e) <> start_dev (e_start e).
  Proof.
    destruct (flag_test ($"samedev") ($"no") false word_samedev) as (W & B & T); [cbn; tauto|right; now left|].
    change ($"samedev" ++ $"=" ++ $"no") with ($"samedev=no") in *.
    assert (Hr : resolves ($"samedev") ($"file", $"samedev") TBoolean) by (apply file_resolves; vm_compute; reflexivity).
    split; [exact T|]. split; [exists ($"samedev"), ($"="), None, ($"no"), ($"file", $"samedev"), TBoolean; split; [exact W|]; split; [exact Hr|];
      apply testable_sensible; now apply (sen_boolean _ _ _ _ _ _ false)|].
    intros e. rewrite (holds_iff e _ _ _ _ _ _ W Hr ltac:(discriminate)).
    change (attribute_value other plugin_value e ($"file", $"samedev")) with (Some (VBool (e_samedev e))).
    unfold e_samedev. split.
    - intros (x & E & S). injection E as <-. apply (sat_boolean_iff _ _ _ B) in S. now apply Z.eqb_neq in S.
    - intros E. eexists. split; [reflexivity|]. apply (sat_boolean_iff _ _ _ B). now apply Z.eqb_neq.
  Qed.
  Lemma depth_resolves : resolves ($"depth") ($"file", $"depth") TNumber.
  Proof. apply file_resolves; vm_compute; reflexivity. Qed.
  Lemma beyond_test n : 0 <= n -> is_test (depth_test ($"+") n) /\ Legal (depth_test ($"+") n) /\
    forall e, Holds e (depth_test ($"+") n) <-> n < Z.of_nat (e_depth e).
  Proof.
    intros Hn. assert (Ho : In ($"+") [$"="; $"+="; $"-="; $"+"; $"-"]) by (cbn; tauto).
    pose proof (depth_writes ($"+") n Hn Ho) as W.
    assert (I : input parse_time debug TNumber (str_of_Z n) = Ok (VInt n)).
    { cbn [input]. rewrite py_int_str_of_Z. destruct (Z.ltb_spec n 0); [lia|reflexivity]. }
    split; [apply depth_is_test; cbn; lia|]. split.
    - exists ($"depth"), ($"+"), None, (str_of_Z n), ($"file", $"depth"), TNumber. split; [exact W|]. split; [exact depth_resolves|].
      apply testable_sensible, (sen_number _ _ _ _ _ _ _ _ n); [now left|exact Ho|exact I].
    - intros e. rewrite (holds_iff e _ _ _ _ _ _ W depth_resolves ltac:(discriminate)).
      change (attribute_value other plugin_value e ($"file", $"depth")) with (Some (VInt (Z.of_nat (e_depth e)))). split.
      + intros (x & E & S). injection E as <-. inversion S as [? ? ? n' ? ? I' C| | | | | | | ]; subst; try (cbn in *; intuition congruence).
        rewrite I in I'. injection I' as <-. inversion C; subst; lia.
      + intros K. eexists. split; [reflexivity|]. apply (sat_number _ _ _ _ _ _ _ _ _ n); [now left|exact I|]. now constructor.
  Qed.

  (** ** Matcher and Excluder *)
  Variable a : pargs.
  Variable ess : list (list bexp).
  Hypothesis Hess : Expression (a_tests a) ess.
  Hypothesis Htests : forall t, In t (a_tests a) -> is_test t -> Legal t.
  Hypothesis Hdepth : Forall natural_range (ranges a).
  Hypothesis Hempty : ranges a = [] \/ a_tests a = [] \/ no_empty ess.
  Hypothesis Hexclude : Forall (fun t => is_test t /\ Legal t) (a_exclude a).
  Hypothesis Hignore : a_ignore a = true -> Legal ($"ignored=yes").
  Definition Excl (e : entry) : Prop :=
    (exists s, In s (a_exclude a) /\ Holds e s) \/
    (a_ignore a = true /\ Holds e ($"ignored=yes")) \/
    (a_one_file_system a = true /\ st_dev (e_status e) <> start_dev (e_start e)) \/
    (a_hide a = true /\ e_hide e = true) \/
    (ranges a <> [] /\ bounded (ranges a) /\ beyond (ranges a) (Z.of_nat (e_depth e))).
  Definition Hit (e : entry) : Prop :=
    (ranges a <> [] -> in_ranges (ranges a) (Z.of_nat (e_depth e))) /\ Satisfied (fun s => Holds e s) ess.

  Lemma matched_spec e : exists b, matched (process_arguments a) e = Ok b /\ (b = true <-> Hit e).
  Proof.
    pose (v t := value_of R rcompile rsearch parse_time debug case registered init_plugin reference_value (e_name e)
                   (str_eqb (type_of_mode (st_mode (e_status e))) ($"directory")) (attribute_value other plugin_value e) t).
    assert (V : forall t, In t (a_tests a) -> is_test t ->
      exists x, parse t = Ok x /\ truth (entry_test R rsearch other plugin_value e x) (v t) /\ (v t = true <-> Holds e t)).
    { intros t Ht Hi.
      destruct (legal_test R rcompile rsearch parse_time debug case registered init_plugin reference_value (e_name e)
                  (str_eqb (type_of_mode (st_mode (e_status e))) ($"directory")) (attribute_value other plugin_value e)
                  eq_refl (type_of_mode (st_mode (e_status e))) eq_refl (str_eqb_eq _ _) (typed e) t (Htests t Ht Hi)) as (x & b & E & T & B & _).
      exists x. split; [exact E|]. 
      assert (Vb : b = v t) by (apply truth_value; eauto). subst b. now split. }
    assert (S : denote_alts v ess = true <-> Satisfied (fun s => Holds e s) ess).
    { apply satisfied_iff. intros t Ht. destruct Hess as [HA _].
      apply (proj2 (proj2 (grammar_tests no_empty)) _ _ HA) in Ht as [H1 H2].
      destruct (V t H1 H2) as (_ & _ & _ & K). exact K. }
    unfold search_matched. rewrite process_tests. unfold Hit, ranges in *. destruct (a_depth a) as [[|r l]|] eqn:E.
    - exists (denote_alts v ess). split; [|rewrite S; intuition congruence].
      apply matcher_meaning; [exact Hess|]. intros t Ht Hi. destruct (V t Ht Hi) as (x & K1 & K2 & _). eauto.
    - destruct (depth_selected R rcompile rsearch parse_time debug case registered init_plugin reference_value score a (r :: l)
        ($"file", $"depth") (e_name e) (str_eqb (type_of_mode (st_mode (e_status e))) ($"directory"))
        (attribute_value other plugin_value e) (Z.of_nat (e_depth e)) ess v E ltac:(discriminate) Hdepth depth_resolves eq_refl Hess)
        as (b & Eb & B).
      + destruct Hempty as [K|K]; [discriminate|exact K].
      + intros t Ht Hi. destruct (V t Ht Hi) as (x & K1 & K2 & _). eauto.
      + rewrite process_tests, E in Eb. exists b. split; [exact Eb|]. rewrite B, S. intuition congruence.
    - exists (denote_alts v ess). split; [|rewrite S; intuition congruence].
      apply matcher_meaning; [exact Hess|]. intros t Ht Hi. destruct (V t Ht Hi) as (x & K1 & K2 & _). eauto.
  Qed.
  Lemma excluder_holds e ts : Forall (fun t => is_test t /\ Legal t) ts ->
    exists b, excluder parse score (entry_test R rsearch other plugin_value e) ts = Ok b /\ (b = true <-> exists s, In s ts /\ Holds e s).
  Proof.
    intros H.
    pose (P t x := parse t = Ok x /\ (forall err, entry_test R rsearch other plugin_value e x <> Raise err) /\
                   (entry_test R rsearch other plugin_value e x = Val true <-> Holds e t)).
    assert (F : exists xs, Forall2 P ts xs).
    { clear -H Hfile Hinit Hother Hplugin. induction H as [|t ts [Hi Hl] _ (xs & IH)]; [exists []; constructor|].
      destruct (legal_test R rcompile rsearch parse_time debug case registered init_plugin reference_value (e_name e)
                  (str_eqb (type_of_mode (st_mode (e_status e))) ($"directory")) (attribute_value other plugin_value e)
                  eq_refl (type_of_mode (st_mode (e_status e))) eq_refl (str_eqb_eq _ _) (typed e) t Hl) as (x & b & E & _ & _ & T & B).
      exists (x :: xs). constructor; [|exact IH]. unfold P. auto. }
    destruct F as (xs & F).
    destruct (excluder_spec _ parse score (entry_test R rsearch other plugin_value e) ts xs) as (b & E & B).
    - eapply Forall_impl; [|exact H]. now intros t [K _].
    - clear -F. induction F as [|t x ts xs [K _] _ IH]; constructor; auto.
    - clear -F. induction F as [|t x ts xs (_ & K & _) _ IH]; [intros ? []|]. intros y [<-|Hy]; [exact K|now apply IH].
    - exists b. split; [exact E|]. rewrite B. clear -F. induction F as [|t x ts xs (_ & _ & K) _ IH].
      + split; intros (y & [] & _).
      + split.
        * intros (y & [<-|Hy] & Ey); [exists t; split; [now left|now apply K]|].
          destruct (proj1 IH) as (s & Hs & Hh); [eauto|]. exists s. split; [now right|exact Hh].
        * intros (s & [<-|Hs] & Hh); [exists x; split; [now left|now apply K]|].
          destruct (proj2 IH) as (y & Hy & Ey); [eauto|]. exists y. split; [now right|exact Ey].
  Qed.
  Lemma excluded_spec e : exists b, excluded (process_arguments a) e = Ok b /\ (b = true <-> Excl e).
  Proof.
    unfold search_excluded. rewrite process_exclude.
    destruct hide_test as (H1 & H2 & H3), samedev_test as (S1 & S2 & S3).
    assert (IT : is_test ($"ignored=yes")) by (pose proof (classify_spec ($"ignored=yes")) as K; exact K).
    set (dt := match a_depth a with Some (r :: l) => _ | _ => [] end).
    assert (D : Forall (fun t => is_test t /\ Legal t) dt /\
      ((exists s, In s dt /\ Holds e s) <-> ranges a <> [] /\ bounded (ranges a) /\ beyond (ranges a) (Z.of_nat (e_depth e)))).
    { unfold dt, ranges in *. destruct (a_depth a) as [[|r l]|]; try (split; [constructor|]; split; [intros (s & [] & _)|intros (K & _); now destruct K]).
      destruct (all_stops (r :: l)) as [stops|] eqn:Es.
      - assert (Nn : r :: l <> []) by discriminate. pose proof (max_natural _ _ Nn Hdepth Es) as M. destruct (beyond_test _ M) as (B1 & B2 & B3).
        split; [constructor; [now split|constructor]|]. split.
        + intros (s & [<-|[]] & Hh). apply B3 in Hh. split; [discriminate|]. split; [now apply (all_stops_some _ stops)|].
          apply (max_beyond _ stops); [discriminate|exact Es|exact Hh].
        + intros (_ & _ & K). exists (depth_test ($"+") (max_list stops)). split; [now left|]. apply B3.
          apply (max_beyond _ stops) in K; [exact K|discriminate|exact Es].
      - split; [constructor|]. split; [intros (s & [] & _)|]. intros (_ & K & _). now apply all_stops_none in Es. }
    destruct D as [D1 D2].
    assert (F : Forall (fun t => is_test t /\ Legal t) (flag_tests a)).
    { unfold flag_tests. apply Forall_app. split; [|apply Forall_app; split].
      - destruct (a_ignore a); constructor; [split; auto|constructor].
      - destruct (a_one_file_system a); constructor; [split; auto|constructor].
      - destruct (a_hide a); constructor; [split; auto|constructor]. }
    destruct (excluder_holds e (a_exclude a ++ flag_tests a ++ dt)) as (b & E & B).
    { apply Forall_app. split; [exact Hexclude|]. apply Forall_app. now split. }
    exists b. split; [exact E|]. rewrite B. unfold Excl. rewrite <- D2, <- (H3 e), <- (S3 e).
    assert (FI : forall s, In s (flag_tests a) <->
      (a_ignore a = true /\ s = $"ignored=yes") \/ (a_one_file_system a = true /\ s = $"samedev=no") \/ (a_hide a = true /\ s = $"hide=yes")).
    { intros s. unfold flag_tests. rewrite !in_app_iff.
      destruct (a_ignore a), (a_one_file_system a), (a_hide a); cbn [In]; intuition congruence. }
    split.
    - intros (s & Hs & Hh). apply in_app_iff in Hs as [Hs|Hs]; [left; eauto|]. apply in_app_iff in Hs as [Hs|Hs].
      + apply FI in Hs as [[K ->]|[[K ->]|[K ->]]]; tauto.
      + right; right; right; right. eauto.
    - intros [(s & Hs & Hh)|[[K Hh]|[[K Hh]|[[K Hh]|(s & Hs & Hh)]]]].
      + exists s. split; [apply in_or_app; now left|exact Hh].
      + exists ($"ignored=yes"). split; [|exact Hh]. apply in_or_app. right. apply in_or_app. left. apply FI. auto.
      + exists ($"samedev=no"). split; [|exact Hh]. apply in_or_app. right. apply in_or_app. left. apply FI. auto.
      + exists ($"hide=yes"). split; [|exact Hh]. apply in_or_app. right. apply in_or_app. left. apply FI. auto.
      + exists s. split; [|exact Hh]. apply in_or_app. right. apply in_or_app. now right.
  Qed.
End Tests.
