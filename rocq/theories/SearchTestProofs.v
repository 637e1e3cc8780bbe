(** What a single test means, whatever its type. *)
From Coq Require Import List NArith ZArith Bool Lia.
From Verif Require Import Py Re ExprSpec ExprProofs GlobModel GlobSpec GlobPathProofs GlobExactProofs GrammarSpec ParserModel
  ParserProofs TypeSpec TypeProofs.
From Verif Require Import EntryModel TypeModel RegistryModel TestModel TestProofs RegistryProofs RefProofs ArgumentsModel ArgumentsSpec ArgumentsProofs SearchModel SearchSpec.
Import ListNotations.
Local Open Scope Z_scope.

Section Env.
  Variable R : Type.
  Variable rcompile : str -> res R.
  Variable rsearch : R -> str -> bool.
  Variable parse_time : str -> res Z.
  Variable debug : bool.
  Variable case : case_mode.
  Variable registered : list plugin.
  Variable init_plugin : str -> res unit.
  Variable reference_value : str * str -> str -> res value.
  Notation create := (create_test R rcompile parse_time debug case registered init_plugin reference_value).
  Notation parse := (parse_test R rcompile parse_time debug case registered init_plugin reference_value).
  Notation resolves := (resolves registered init_plugin).
  Notation folds := (folds case).
  Notation folding := (folding case).
  Notation Folded := (Folded case).
  Notation Sat := (Sat R rcompile rsearch parse_time debug case).
  Notation Sensible := (Sensible R rcompile parse_time debug case).
  Notation Legal := (Legal R rcompile parse_time debug case registered init_plugin reference_value).
  Notation Holds := (Holds R rcompile rsearch parse_time debug case registered init_plugin reference_value).

  Lemma folds_iff v : folds v = true <-> folding v.
  Proof.
    unfold TestProofs.folds, SearchSpec.folding. destruct case.
    - rewrite str_eqb_eq, lower_same. intuition congruence.
    - intuition.
    - intuition congruence.
  Qed.
  Definition fold_case (v x : str) : str := if folds v then lower x else x.
  Lemma folded_iff v x y : Folded v x y <-> y = fold_case v x.
  Proof.
    unfold fold_case. assert (F := folds_iff v). split.
    - intros [H|H]; destruct (folds v); intuition congruence.
    - intros ->. destruct (folds v); constructor; intuition congruence.
  Qed.
  Lemma create_attr at_ o r v test : create at_ o r v = Ok test -> t_attribute test = at_.
  Proof.
    unfold create_test. destruct (get_attribute_type registered at_) as [t|]; [|discriminate]. cbn [bindr].
    destruct (negb _); [discriminate|].
    destruct (match match r with Some r => _ | None => _ end with Ok v => Ok v | Err _ => Err UsageError end) as [x|]; [|discriminate].
    cbn [bindr]. destruct (negb _); [discriminate|]. destruct (string_type t).
    - destruct (prepare _ _ _ _ _ _); [|discriminate]. cbn [bindr]. intros H. injection H as <-. reflexivity.
    - intros H. injection H as <-. reflexivity.
  Qed.

  (** Strings *)
  Definition strings : list ty := [TString; TPath; TListOfStrings].
  Lemma create_prepared at_ t o v tv : get_attribute_type registered at_ = Ok t -> In t strings -> In o (operators t) ->
    prepare R rcompile case t o (VStr v) = Ok (tv, folds v) ->
    create at_ o None v = Ok (Test at_ o t tv (folds v)).
  Proof.
    intros E Ht Ho P. unfold create_test. rewrite E. cbn [bindr]. apply str_in_iff in Ho. rewrite Ho. cbn [negb].
    assert (I : input parse_time debug t v = Ok (VStr v)) by (cbn in Ht; destruct Ht as [<-|[<-|[<-|[]]]]; reflexivity).
    assert (C : choices t = None) by (cbn in Ht; destruct Ht as [<-|[<-|[<-|[]]]]; reflexivity).
    assert (S : string_type t = true) by (cbn in Ht; destruct Ht as [<-|[<-|[<-|[]]]]; reflexivity).
    rewrite I, C, S. cbn [bindr negb]. now rewrite P.
  Qed.
  Lemma prepare_eq t o v : prepare R rcompile case t o (VStr v) =
    if str_eqb o ($"~") then
      match rcompile (fold_case v v) with
      | Ok r => Ok (TRegex r, folds v)
      | Err ReError => Err ExpressionError
      | Err e => Err e
      end
    else if str_eqb o ($"%") then
      Ok (TGlob (translate (fold_case v v) (match t with TPath => true | _ => false end)), folds v)
    else Ok (TV (VStr (fold_case v v)), folds v).
  Proof.
    unfold prepare, fold_case, TestProofs.folds. destruct case; cbn [bindr py_lower].
    - destruct (str_eqb v (lower v)); reflexivity.
    - reflexivity.
    - reflexivity.
  Qed.
  Lemma sat_string_iff o v x : In o [$"="; $":"] -> Sat TString o v (VStr x) <-> StringTest (fold_case v x) (fold_case v v) o.
  Proof.
    intros Ho. split.
    - intros H. inversion H; subst; try (now cbn in Ho; intuition discriminate); try (cbn in *; intuition discriminate).
      repeat match goal with K : Folded _ _ _ |- _ => apply folded_iff in K; subst end. assumption.
    - intros H. eapply sat_string; [now left|now apply folded_iff|now apply folded_iff|exact H].
  Qed.
  Lemma sat_regex_iff v x r : rcompile (fold_case v v) = Ok r -> Sat TString ($"~") v (VStr x) <-> rsearch r (fold_case v x) = true.
  Proof.
    intros Hr. split.
    - intros H. inversion H; subst; try (cbn in *; intuition discriminate).
      + exfalso. match goal with K : StringTest _ _ _ |- _ => destruct K as [[K _]|[K _]]; discriminate K end.
      + repeat match goal with K : Folded _ _ _ |- _ => apply folded_iff in K; subst end. congruence.
    - intros H. eapply sat_regex; [now left|now apply folded_iff|now apply folded_iff|exact Hr|exact H].
  Qed.
  Lemma glob_value p l y : name_glob p l ->
    exists b, glob_test (translate (pattern_text p) false) y y false = Ok b /\
      (b = true <-> (if p_negated p then ~ GlobMatch l y else GlobMatch l y)).
  Proof.
    intros (Hp & Hs & Hd). rewrite translate_flag by (eapply name_text_no_slash; eassumption).
    destruct (glob_name_exact p l y y false Hp Hs) as (b & E & B). unfold glob_test. rewrite E. cbn [of_cres bindr].
    eexists. split; [reflexivity|].
    rewrite include_form by eauto.
    assert (B' : b = true <-> GlobMatch l y) by (unfold GlobMatch; rewrite B; intuition congruence). clear B.
    destruct (p_negated p), b; cbn [negb]; intuition congruence.
  Qed.
  Lemma sat_glob_iff v x p l : fold_case v v = pattern_text p -> name_glob p l ->
    Sat TString ($"%") v (VStr x) <-> (if p_negated p then ~ GlobMatch l (fold_case v x) else GlobMatch l (fold_case v x)).
  Proof.
    intros E Hp. split.
    - intros H. inversion H as [ | |? ? ? ? ? ? ? ? ? K|?|? ? ? ? p' l' F1 F2 E' G K| | | ]; subst; try (cbn in *; intuition discriminate).
      + exfalso. destruct K as [[K _]|[K _]]; discriminate K.
      + apply folded_iff in F1, F2. subst.
        destruct (glob_value p l (fold_case v x) Hp) as (b & B1 & B2).
        destruct (glob_value p' l' (fold_case v x) G) as (b' & B1' & B2').
        rewrite F2 in B1'. rewrite <- E, B1' in B1. injection B1 as <-. apply B2, B2', K.
    - intros H. eapply sat_glob; [now apply folded_iff|now apply folded_iff|exact E|exact Hp|exact H].
  Qed.
  Lemma string_value t o v : In t strings -> Sensible t o v ->
    exists tv, In o (operators t) /\ prepare R rcompile case t o (VStr v) = Ok (tv, folds v) /\ (o = $"%" -> t <> TPath) /\
      forall x, exists b, string_test rsearch (folds v) o tv x = Ok b /\ (b = true <-> Sat TString o v (VStr x)).
  Proof.
    intros Ht H. assert (Hop : forall o', In o' [$"="; $":"; $"~"; $"%"] -> In o' (operators t)).
    { intros o'. cbn in Ht. destruct Ht as [<-|[<-|[<-|[]]]]; cbn; tauto. }
    inversion H as [? ? ? ? K|? ? ? K|? ? ? _ Ho|? ? ? r _ F Hr|? ? ? p l K F E G|?|?]; subst; try (cbn in *; intuition congruence).
    - exists (TV (VStr (fold_case v v))). split; [apply Hop; cbn in *; tauto|]. split; [|split].
      + rewrite prepare_eq. cbn in Ho. destruct Ho as [<-|[<-|[]]]; reflexivity.
      + cbn in Ho. intros ->. intuition discriminate.
      + intros x. destruct (string_op R rsearch (folds v) o (fold_case v v) x Ho) as (b & E & B).
        exists b. split; [exact E|]. now rewrite B, sat_string_iff by exact Ho.
    - apply folded_iff in F. subst. exists (TRegex r). split; [apply Hop; cbn; tauto|]. split; [|split].
      + rewrite prepare_eq. change (str_eqb ($"~") ($"~")) with true. cbv iota. now rewrite Hr.
      + discriminate.
      + intros x. eexists. split; [reflexivity|]. now rewrite (sat_regex_iff v x r Hr).
    - apply folded_iff in F. exists (TGlob (translate (pattern_text p) false)). split; [apply Hop; cbn; tauto|]. split; [|split].
      + rewrite prepare_eq. change (str_eqb ($"%") ($"~")) with false. change (str_eqb ($"%") ($"%")) with true. cbv iota.
        rewrite <- F. cbn in K. destruct K as [<-|[<-|[]]]; reflexivity.
      + intros _. cbn in K. destruct K as [<-|[<-|[]]]; discriminate.
      + intros x. destruct (glob_value p l (fold_case v x) G) as (b & B1 & B2). exists b. split; [exact B1|].
        rewrite B2. symmetry. apply sat_glob_iff; [now symmetry|exact G].
  Qed.
  Lemma sat_path o v x : o <> $"%" -> Sat TPath o v (VStr x) <-> Sat TString o v (VStr x).
  Proof.
    intros Ho. split; intros H; inversion H; subst; try (cbn in *; intuition discriminate); try congruence.
    - eapply sat_string; eauto. now left.
    - eapply sat_regex; eauto. now left.
    - eapply sat_string; eauto. right; now left.
    - eapply sat_regex; eauto. right; now left.
  Qed.
  Lemma sat_list_iff o v l : Sat TListOfStrings o v (VList l) <-> exists x, In x l /\ Sat TString o v (VStr x).
  Proof.
    split.
    - intros H. inversion H; subst; try (cbn in *; intuition discriminate). eauto.
    - intros (x & Hx & H). now apply (sat_list _ _ _ _ _ _ o v x l).
  Qed.

  (** Patterns for paths *)
  Lemma path_glob_value p path name is_dir k : path_glob p -> (is_dir = true <-> k = $"directory") ->
    exists b, glob_test (translate (pattern_text p) true) path name is_dir = Ok b /\
      (b = true <-> (if p_negated p then ~ PathGlob p path name k else PathGlob p path name k)).
  Proof.
    intros (Hs & Hp) Hk.
    assert (G : exists b, glob_match (translate (pattern_text p) true) path name is_dir = COk b /\
                  (b = true <-> PathGlob p path name k)).
    { unfold PathGlob. destruct Hp as [Hp|(l & Hp)].
      - destruct (glob_path_exact p path name is_dir Hp Hs) as (b & E & B). exists b. split; [exact E|]. rewrite B.
        split; (intros [H1 H2]; split; [|intros D; apply Hk, H2, D]); [left; auto|].
        destruct H1 as [[_ H1]|(l & (E1 & E2 & _) & _)]; [exact H1|].
        exfalso. destruct Hp as ([Hp|Hp] & _); [congruence|]. rewrite E1 in Hp. cbn in Hp. clear -Hp. lia.
      - destruct (glob_name_exact p l path name is_dir Hp Hs) as (b & E & B). exists b. split; [exact E|]. rewrite B.
        split; (intros [H1 H2]; split; [|intros D; apply Hk, H2, D]); [right; exists l; auto|].
        destruct H1 as [[H1 _]|(l' & Hp' & H1)].
        + exfalso. destruct Hp as (E1 & E2 & _), H1 as ([H1|H1] & _); [congruence|].
          rewrite E1 in H1. cbn in H1. clear -H1. lia.
        + destruct Hp as (E1 & _), Hp' as (E2 & _). rewrite E1 in E2. injection E2 as <-. exact H1. }
    destruct G as (b & E & B). unfold glob_test. rewrite E. cbn [of_cres bindr].
    eexists. split; [reflexivity|]. rewrite include_form by auto.
    destruct (p_negated p), b; cbn [negb]; intuition congruence.
  Qed.

  (** A test of an entry with these attributes *)
  Variable name : str.
  Variable is_dir : bool.
  Variable attribute : str * str -> option value.
  Hypothesis named : attribute ($"file", $"name") = Some (VStr name).
  Variable kind : str.
  Hypothesis kind_is : attribute ($"file", $"type") = Some (VStr kind).
  Hypothesis kind_dir : is_dir = true <-> kind = $"directory".
  Notation Meets := (Meets R rcompile rsearch parse_time debug case attribute).
  Notation Testable := (Testable R rcompile parse_time debug case).
  Lemma meets_iff t o v x : (o = $"%" -> t <> TPath) -> Meets t o v x <-> Sat t o v x.
  Proof.
    intros N. split; [|apply meets_sat]. intros H. inversion H; subst; [assumption|]. now destruct N.
  Qed.
  Lemma as_sat (r : res bool) t o v x : (o = $"%" -> t <> TPath) -> (exists b, r = Ok b /\ (b = true <-> Sat t o v x)) ->
    exists b, r = Ok b /\ (b = true <-> Meets t o v x).
  Proof. intros N (b & E & B). exists b. split; [exact E|]. rewrite B. symmetry. now apply meets_iff. Qed.
  Lemma meets_path_iff v x p : fold_case v v = pattern_text p -> path_glob p ->
    Meets TPath ($"%") v (VStr x) <->
    (if p_negated p then ~ PathGlob p (fold_case v x) (fold_case v name) kind
     else PathGlob p (fold_case v x) (fold_case v name) kind).
  Proof.
    intros E G. split.
    - intros H. inversion H as [? ? ? ? S|? ? p' ? ? n ? k N K F1 F2 F3 E' G' V]; subst.
      + exfalso. inversion S as [| |? ? ? ? ? ? ? ? ? K| | | | | ]; subst; try (cbn in *; intuition discriminate).
        destruct K as [[K _]|[K _]]; discriminate K.
      + apply folded_iff in F1, F2, F3. subst. rewrite named in N. injection N as <-. rewrite kind_is in K. injection K as <-.
        destruct (path_glob_value p (fold_case v x) (fold_case v name) is_dir kind G kind_dir) as (b & B1 & B2).
        destruct (path_glob_value p' (fold_case v x) (fold_case v name) is_dir kind G' kind_dir) as (b' & B1' & B2').
        rewrite F1 in B1'. rewrite <- E, B1' in B1. injection B1 as <-. apply B2, B2', V.
    - intros H. eapply meets_path; try eassumption; try (apply folded_iff; reflexivity).
  Qed.
  Definition texts_of : list ty := strings ++ [TFileType].
  Lemma text_meaning at_ t o v : get_attribute_type registered at_ = Ok t -> In t texts_of -> Testable t o v ->
    exists test, create at_ o None v = Ok test /\
      forall x, of_type t x -> exists b, run rsearch test name is_dir x = Ok b /\ (b = true <-> Meets t o v x).
  Proof.
    intros H Ht T. inversion T as [? ? ? S|? v' p F E G]; subst.
    2:{ apply folded_iff in F. exists (Test at_ ($"%") TPath (TGlob (translate (pattern_text p) true)) (folds v)). split.
      - apply create_prepared; [exact H|cbn; tauto|cbn; tauto|]. rewrite prepare_eq.
        change (str_eqb ($"%") ($"~")) with false. change (str_eqb ($"%") ($"%")) with true. cbv iota. now rewrite <- F.
      - intros x Hx. destruct x as [x| | |]; try contradiction. unfold run. cbn [t_type t_ignore_case t_operator t_value type_test].
        unfold path_test. change (str_eqb ($"%") ($"%")) with true. cbv iota. fold (fold_case v x) (fold_case v name).
        destruct (path_glob_value p (fold_case v x) (fold_case v name) is_dir kind G kind_dir) as (b & B1 & B2).
        exists b. split; [exact B1|]. rewrite B2. symmetry. now apply meets_path_iff. }
    assert (Str : In t strings -> exists test, create at_ o None v = Ok test /\
      forall x, of_type t x -> exists b, run rsearch test name is_dir x = Ok b /\ (b = true <-> Meets t o v x)).
    { intros Ht'. destruct (string_value t o v Ht' S) as (tv & Ho & P & Np & V).
      exists (Test at_ o t tv (folds v)). split; [now apply create_prepared|].
      intros x Hx. unfold run. cbn [t_type t_ignore_case t_operator t_value]. apply as_sat; [exact Np|]. clear Ht T S.
      cbn in Ht'. destruct Ht' as [<-|[<-|[<-|[]]]].
      - destruct x; try contradiction. exact (V s).
      - destruct x; try contradiction. rename s into x. cbn [type_test]. unfold path_test.
        destruct (str_eqb o ($"%")) eqn:E1; [apply str_eqb_eq in E1; now destruct (Np E1)|].
        assert (E2 : o <> $"%") by (intros ->; discriminate E1).
        destruct (V x) as (b & B1 & B2). exists b. split; [|now rewrite sat_path].
        rewrite <- B1. unfold string_test. destruct (folds v); [|reflexivity]. now rewrite lower_idem.
      - destruct x; try contradiction. cbn [type_test].
        destruct (list_test_ok R rsearch (folds v) o tv l) as (b & B1 & B2).
        { intros x _. destruct (V x) as (b & B & _). eauto. }
        exists b. split; [exact B1|]. rewrite B2, sat_list_iff. split.
        + intros (x & Hx' & Hb). exists x. split; [exact Hx'|]. destruct (V x) as (b' & B1' & B2'). apply B2'. congruence.
        + intros (x & Hx' & Hs). exists x. split; [exact Hx'|]. destruct (V x) as (b' & B1' & B2'). apply B2' in Hs. congruence. }
    unfold texts_of in Ht. apply in_app_iff in Ht as [Ht|Ht]; [now apply Str|]. destruct Ht as [<-|[]]. clear Str.
    inversion S as [? ? ? n Ht Ho I|? ? n Ho I|? ? ? Ht Ho|? ? ? r Ht F Hr|? ? ? p l Ht F E G|? y Hy|? b Hb]; subst;
      try (cbn in Ht; intuition discriminate).
    destruct (filetype_create R rcompile rsearch parse_time debug case registered init_plugin reference_value v at_ H)
      as [(_ & test & E & V)|[N _]]; [|exfalso; eauto].
    exists test. split; [exact E|]. intros x Hx. apply as_sat; [discriminate|]. destruct x as [x| | |]; try contradiction.
    destruct (V name is_dir x) as (b & B1 & B2). exists b. split; [exact B1|]. rewrite B2. split.
    - intros K. now apply sat_type.
    - intros K. inversion K; subst; try (cbn in *; intuition congruence).
  Qed.
  Lemma test_meaning s a o v at_ t : Writes s a o None v -> resolves a at_ t -> Testable t o v ->
    exists test, parse s = Ok test /\ t_attribute test = at_ /\
      forall x, of_type t x -> exists b, run rsearch test name is_dir x = Ok b /\ (b = true <-> Meets t o v x).
  Proof.
    intros W H T.
    assert (A : forall test, parse s = Ok test -> t_attribute test = at_).
    { intros test. rewrite (parse_writes R rcompile parse_time debug case registered init_plugin reference_value _ _ _ _ _ _ _ W H).
      apply create_attr. }
    assert (Txt : In t texts_of -> exists test, parse s = Ok test /\ t_attribute test = at_ /\
      forall x, of_type t x -> exists b, run rsearch test name is_dir x = Ok b /\ (b = true <-> Meets t o v x)).
    { intros Ht. destruct (text_meaning at_ t o v (proj2 H) Ht T) as (test & E & V).
      rewrite <- (parse_writes R rcompile parse_time debug case registered init_plugin reference_value _ _ _ _ _ _ _ W H) in E.
      exists test. split; [exact E|]. split; [now apply A|exact V]. }
    inversion T as [? ? ? S|]; subst; [|apply Txt; cbn; tauto].
    inversion S as [? ? ? n Ht Ho I|? ? n Ho I|? ? ? Ht Ho|? ? ? r Ht F Hr|? ? ? p l Ht F E G|? y Hy|? b Hb]; subst.
    - assert (Np : o = $"%" -> t <> TPath) by (intros _ ->; cbn in Ht; intuition discriminate).
      destruct (number_end R rcompile rsearch parse_time debug case registered init_plugin reference_value
                  s a o v at_ t n W H Ht ltac:(cbn in *; tauto) I) as (test & E & V).
      exists test. split; [exact E|]. split; [now apply A|]. intros x Hx. apply as_sat; [exact Np|].
      assert (X : exists k, x = VInt k) by (cbn in Ht; intuition; subst t; destruct x; try contradiction; eauto).
      destruct X as [k ->]. destruct (V name is_dir k) as (b & B1 & B2). exists b. split; [exact B1|]. rewrite B2. split.
      + intros K. now apply (sat_number _ _ _ _ _ _ t o v n k).
      + intros K. inversion K; subst; try (cbn in *; intuition congruence).
    - destruct (mode_end R rcompile rsearch parse_time debug case registered init_plugin reference_value
                  s a o v at_ n W H ltac:(cbn in *; tauto) I) as (test & E & V).
      exists test. split; [exact E|]. split; [now apply A|]. intros x Hx. apply as_sat; [discriminate|].
      destruct x as [|k| |]; try contradiction.
      destruct (V name is_dir k) as (b & B1 & B2). exists b. split; [exact B1|]. rewrite B2. split.
      + intros K. now apply (sat_mode _ _ _ _ _ _ o v n k).
      + intros K. inversion K; subst; try (cbn in *; intuition congruence).
    - apply Txt, in_or_app. left. exact Ht.
    - apply Txt, in_or_app. left. exact Ht.
    - apply Txt, in_or_app. left. cbn in *; tauto.
    - apply Txt. cbn. tauto.
    - destruct (boolean_end R rcompile rsearch parse_time debug case registered init_plugin reference_value
                  s a v b at_ W H Hb) as (test & E & V).
      exists test. split; [exact E|]. split; [now apply A|]. intros x Hx. apply as_sat; [discriminate|].
      destruct x as [| |x|]; try contradiction.
      destruct (V name is_dir x) as (c & B1 & B2). exists c. split; [exact B1|]. rewrite B2. split.
      + intros ->. now apply sat_boolean.
      + intros K. inversion K; subst; try (cbn in *; intuition congruence).
        destruct x, b; try reflexivity; exfalso; eapply boolean_unique; eassumption.
  Qed.

  (** References *)
  Notation Stands := (Stands registered init_plugin reference_value).
  Notation MeetsValue := (MeetsValue R rcompile rsearch parse_time debug case attribute).
  Notation TestableValue := (TestableValue R rcompile parse_time debug case).
  Lemma stands_value at_ t r v w : get_attribute_type registered at_ = Ok t -> Stands at_ t r v w ->
    get_reference_value registered init_plugin reference_value t at_ r v = Ok w.
  Proof.
    intros H (ref & rt & Hr & Hc & Hw). rewrite (get_reference _ _ _ _ _ _ _ _ _ H Hr).
    apply common_builtin in Hc. destruct (get_common_super_type t rt); [exact Hw|easy].
  Qed.
  Lemma create_text at_ t o r v s : get_attribute_type registered at_ = Ok t -> In t texts_of -> Stands at_ t r v (VStr s) ->
    create at_ o (Some r) v = create at_ o None s.
  Proof.
    intros H Ht S. unfold create_test. rewrite H. cbn [bindr]. rewrite (stands_value _ _ _ _ _ H S).
    assert (I : input parse_time debug t s = Ok (VStr s)) by (cbn in Ht; destruct Ht as [<-|[<-|[<-|[<-|[]]]]]; reflexivity).
    now rewrite I.
  Qed.
  Lemma reference_meaning s a o r v at_ t w : Writes s a o (Some r) v -> resolves a at_ t -> Stands at_ t r v w ->
    TestableValue t o w ->
    exists test, parse s = Ok test /\ t_attribute test = at_ /\
      forall x, of_type t x -> exists b, run rsearch test name is_dir x = Ok b /\ (b = true <-> MeetsValue t o w x).
  Proof.
    intros W H S T.
    assert (A : forall test, parse s = Ok test -> t_attribute test = at_).
    { intros test. rewrite (parse_writes R rcompile parse_time debug case registered init_plugin reference_value _ _ _ _ _ _ _ W H).
      apply create_attr. }
    destruct w as [w|n|w|l]; cbn [SearchSpec.TestableValue SearchSpec.MeetsValue] in *.
    - destruct T as [Ht T]. destruct (text_meaning at_ t o w (proj2 H) Ht T) as (test & E & V).
      rewrite <- (create_text at_ t o r v w (proj2 H) Ht S) in E.
      rewrite <- (parse_writes R rcompile parse_time debug case registered init_plugin reference_value _ _ _ _ _ _ _ W H) in E.
      exists test. split; [exact E|]. split; [now apply A|exact V].
    - destruct S as (ref & rt & Hr & Hc & Hw). destruct T as [[Ht Ho]|[-> Ho]].
      + destruct (reference_number R rcompile rsearch parse_time debug case registered init_plugin reference_value
                    s a o r v at_ t ref rt n W H Hr Ht Hc Hw Ho) as (test & E & V).
        exists test. split; [exact E|]. split; [now apply A|]. intros x Hx.
        assert (X : exists k, x = VInt k) by (cbn in Ht; intuition; subst t; destruct x; try contradiction; eauto).
        assert (M : match t with TMode => true | _ => false end = false) by (cbn in Ht; intuition; now subst t).
        rewrite M. destruct X as [k ->]. destruct (V name is_dir k) as (b & B1 & B2). exists b. split; [exact B1|]. rewrite B2.
        split; [eauto|]. intros (k' & E' & C). congruence.
      + destruct (reference_mode R rcompile rsearch parse_time debug case registered init_plugin reference_value
                    s a o r v at_ ref rt n W H Hr Hc Hw Ho) as (test & E & V).
        exists test. split; [exact E|]. split; [now apply A|]. intros x Hx. destruct x as [|k| |]; try contradiction.
        destruct (V name is_dir k) as (b & B1 & B2). exists b. split; [exact B1|]. rewrite B2.
        split; [eauto|]. intros (k' & E' & C). congruence.
    - destruct T as [-> ->]. destruct S as (ref & rt & Hr & Hc & Hw).
      assert (E := reference_create R rcompile parse_time debug case registered init_plugin reference_value
                s a ($"=") r v at_ TBoolean ref rt (VBool w) W H Hr Hc Hw ltac:(now left) eq_refl eq_refl).
      eexists. split; [exact E|]. split; [reflexivity|]. intros x Hx. destruct x as [| |x|]; try contradiction.
      unfold run. cbn [t_type t_value t_operator t_ignore_case type_test]. eexists. split; [reflexivity|].
      unfold boolean_test. change (str_eqb ($"=") ($"=")) with true. cbn [andb]. rewrite eqb_true_iff. split; congruence.
    - destruct T.
  Qed.
  Lemma refers_unique r at_ t ref rt ref' rt' : refers registered init_plugin r at_ t ref rt ->
    refers registered init_plugin r at_ t ref' rt' -> ref = ref' /\ rt = rt'.
  Proof.
    destruct r as [|c r]; cbn [refers].
    - intros [-> ->] [-> ->]. auto.
    - intros [H1 H2] [H1' H2']. rewrite H1 in H1'. injection H1' as <-. rewrite H2 in H2'. injection H2' as <-. auto.
  Qed.

  Hypothesis typed : forall at_ t x, get_attribute_type registered at_ = Ok t -> attribute at_ = Some x -> of_type t x.
  Lemma legal_test s : Legal s -> exists test b, parse s = Ok test /\
    truth (run_entry rsearch name is_dir attribute test) b /\ (b = true <-> Holds attribute s) /\
    (forall e, run_entry rsearch name is_dir attribute test <> Raise e) /\
    (run_entry rsearch name is_dir attribute test = Val true <-> Holds attribute s).
  Proof.
    intros (a & o & r & v & at_ & t & W & H & T).
    pose (Right x := match r with
                     | None => Meets t o v x
                     | Some r => exists w, Stands at_ t r v w /\ MeetsValue t o w x
                     end).
    assert (P : exists test, parse s = Ok test /\ t_attribute test = at_ /\
      forall x, of_type t x -> exists b, run rsearch test name is_dir x = Ok b /\ (b = true <-> Right x)).
    { unfold Right. destruct r as [r|]; [|eapply test_meaning; eassumption]. destruct T as (w & S & T).
      destruct (reference_meaning s a o r v at_ t w W H S T) as (test & E & A & V).
      exists test. split; [exact E|]. split; [exact A|]. intros x Hx. destruct (V x Hx) as (b & B1 & B2).
      exists b. split; [exact B1|]. rewrite B2. split; [eauto|]. intros (w' & S' & M).
      destruct S as (ref & rt & S1 & _ & S2), S' as (ref' & rt' & S1' & _ & S2').
      destruct (refers_unique _ _ _ _ _ _ _ S1 S1') as [<- <-]. rewrite S2 in S2'. injection S2' as <-. exact M. }
    destruct P as (test & E & A & V).
    assert (Hh : Holds attribute s <-> exists x, attribute at_ = Some x /\ Right x).
    { split.
      - intros (a' & o' & r' & v' & at' & t' & x & W' & H' & Ax & Sx).
        apply split_writes in W, W'. rewrite W in W'. injection W' as <- <- <- <-.
        destruct H as [H1 H2], H' as [H1' H2']. rewrite H1 in H1'. injection H1' as <-. rewrite H2 in H2'. injection H2' as <-. eauto.
      - intros (x & Ax & Sx). exists a, o, r, v, at_, t, x. auto. }
    exists test. unfold run_entry. rewrite A. destruct (attribute at_) as [x|] eqn:Ea.
    - destruct (V x) as (b & Eb & B); [eapply typed; [apply H|exact Ea]|].
      exists b. rewrite Eb. split; [exact E|]. split; [now left|].
      assert (K : b = true <-> Holds attribute s).
      { rewrite Hh, B. split; [eauto|]. intros (y & Ey & Sy). congruence. }
      split; [exact K|]. split; [congruence|]. rewrite <- K. split; [congruence|intros ->; reflexivity].
    - exists false. split; [exact E|]. split; [now right|].
      split; [|split; [congruence|]].
      + rewrite Hh. split; [discriminate|]. intros (y & Ey & _). discriminate.
      + rewrite Hh. split; [discriminate|]. intros (y & Ey & _). discriminate.
  Qed.
End Env.
