From Coq Require Import List NArith ZArith Bool Lia.
From Verif Require Import Py ParserModel ExprSpec OsPath PathModel PathSpec EntryModel EntrySpec TypeModel TypeSpec TypeProofs RegistryModel RegistryProofs TestModel TestProofs RefProofs.
From Verif Require Import ArgumentsSpec ArgumentsModel SearchModel SearchSpec SearchTestProofs ReferenceModel ReferenceSpec ReferenceProofs.
Import ListNotations.

Section Self.
  Variable R : Type.
  Variable rcompile : str -> res R.
  Variable rsearch : R -> str -> bool.
  Variable parse_time : str -> res Z.
  Variable debug : bool.
  Variable case : case_mode.
  Variable registered : list plugin.
  Variable init_plugin : str -> res unit.
  Variable reference_value : str * str -> str -> res value.
  Notation parse := (parse_test R rcompile parse_time debug case registered init_plugin reference_value).
  Notation resolves := (resolves registered init_plugin).

  Lemma comparable_refl t : comparable t t.
  Proof. apply common_builtin. destruct t; discriminate. Qed.
  Lemma create_fixed at_ t o p x : get_attribute_type registered at_ = Ok t -> In o (operators t) ->
    string_type t = false -> reference_value at_ p = Ok x ->
    match choices t with None => True | Some l => exists s, x = VStr s /\ str_in s l = true end ->
    create_test R rcompile parse_time debug case registered init_plugin reference_value at_ o (Some []) p =
      Ok (Test at_ o t (TV x) false).
  Proof.
    intros E Ho S Hx C. unfold create_test. rewrite E. cbn [bindr]. apply str_in_iff in Ho. rewrite Ho. cbn [negb].
    unfold get_reference_value. cbn [bindr]. rewrite E. cbn [bindr].
    assert (G : get_common_super_type t t <> None) by (destruct t; discriminate).
    destruct (get_common_super_type t t); [|easy]. rewrite Hx. cbn [bindr]. rewrite S.
    destruct (choices t) as [l|]; [|reflexivity]. destruct C as (s & -> & ->). reflexivity.
  Qed.
  Lemma filetype_self x : In x documented_types ->
    str_in x (match choices TFileType with Some l => l | None => [] end) = true /\
    filetype_test (R := R) ($"=") (TV (VStr x)) x = Ok true.
  Proof. intros H. cbn in H. repeat (destruct H as [<-|H]; [split; reflexivity|]). destruct H. Qed.
  Lemma self_test s a o p at_ t x : Writes s a o (Some []) p -> resolves a at_ t -> reflexive t o -> possible t x ->
    reference_value at_ p = Ok x ->
    exists test, parse s = Ok test /\ t_attribute test = at_ /\ forall name dir, run rsearch test name dir x = Ok true.
  Proof.
    intros W H Ro [Ot Po] Hx. pose proof H as [_ Ht].
    assert (Pw := parse_writes R rcompile parse_time debug case registered init_plugin reference_value _ _ _ _ _ _ _ W H).
    assert (St : string_type t = true -> exists y, x = VStr y /\ In t [TString; TPath] /\ In o [$"="; $":"]).
    { destruct t; try discriminate; destruct x; try contradiction; cbn in Ro; intros _; eexists; (split; [reflexivity|]); (split; [|exact Ro]); cbn; tauto. }
    destruct (string_type t) eqn:S.
    - destruct (St eq_refl) as (y & -> & T & O).
      destruct (reference_string R rcompile rsearch parse_time debug case registered init_plugin reference_value
                  s a o [] p at_ t at_ t y W H (conj eq_refl eq_refl) T (comparable_refl t) Hx O) as (test & E & V).
      exists test. split; [exact E|]. split.
      + rewrite Pw in E. eapply SearchTestProofs.create_attr. exact E.
      + intros name dir. destruct (V name dir y) as (b & -> & B). f_equal. apply B.
        cbn in O. destruct O as [<-|[<-|[]]]; destruct (folds case y); unfold StringTest; auto; right;
          (split; [reflexivity|]); exists [], []; now rewrite app_nil_r.
    - clear St. rewrite Pw. assert (Oo : In o (operators t)) by (destruct t; cbn in Ro |- *; try (subst o); tauto).
      rewrite (create_fixed at_ t o p x); auto.
      + eexists. split; [reflexivity|]. split; [reflexivity|]. intros name dir. unfold run. cbn [t_type t_ignore_case t_operator t_value].
        destruct t; try discriminate; destruct x; try contradiction; cbn [type_test]; cbn in Ro.
        all: try (f_equal; apply number_op; [exact Oo|]; destruct Ro as [<-|[<-|[<-|[]]]]; constructor; lia).
        * cbn in Po. subst o. now apply filetype_self.
        * f_equal. apply mode_op; [exact Oo|]. destruct Ro as [<-|[<-|[]]]; constructor; auto.
        * subst o. unfold boolean_test. now destruct b.
      + destruct t; try exact I. cbn [choices]. destruct x as [y| | |]; try contradiction. exists y. split; [reflexivity|]. now apply filetype_self.
  Qed.
End Self.

Lemma self_entry R rcompile rsearch parse_time debug case registered init_plugin other plugin_value cwd device listing stat
  a d names f e p st s at_name o at_ t x :
  absolute cwd = true -> ~ two_slashes cwd -> ~ two_slashes p -> ~ two_slashes d -> place cwd d <> [] ->
  absolute_paths a = false -> first_above cwd (a_directories a) d names p ->
  Place (contents cwd listing a d) names f -> entry_at cwd device a d names f e ->
  stat d = Some st -> st_dev st = device d -> stat p = Some (f_status f) ->
  Writes s at_name o (Some []) p -> resolves registered init_plugin at_name at_ t -> reflexive t o ->
  attribute_value other plugin_value e at_ = Some x -> possible t x ->
  exists test, parse_test R rcompile parse_time debug case registered init_plugin
      (reference_value cwd stat other plugin_value (a_directories a)) s = Ok test /\
    entry_test R rsearch other plugin_value e test = Val true.
Proof.
  intros A C P D Rt Ab F _ E Sd Dev Sp W H Ro Ax Po.
  destruct (reference_walk cwd stat A _ p d names st (f_status f) C P D Rt F Sd Sp) as [Er _].
  unfold entry_at, start_dir, start_path in E. rewrite Ab in E. rewrite Dev in Er. rewrite E in Er.
  destruct (self_test R rcompile rsearch parse_time debug case registered init_plugin
    (reference_value cwd stat other plugin_value (a_directories a)) s at_name o p at_ t x W H Ro Po) as (test & T1 & T2 & T3).
  { unfold reference_value. rewrite Er. cbn [bindr]. now rewrite Ax. }
  exists test. split; [exact T1|]. unfold entry_test, run_entry. rewrite T2, Ax, T3. reflexivity.
Qed.
Lemma rejected_reference R rcompile parse_time debug case registered init_plugin other plugin_value cwd stat dirs s at_name o r p at_ t ref rt e :
  Writes s at_name o (Some r) p -> resolves registered init_plugin at_name at_ t -> refers registered init_plugin r at_ t ref rt ->
  (as_reference cwd stat dirs p = Err e \/
   exists x, as_reference cwd stat dirs p = Ok x /\ attribute_value other plugin_value x ref = None) ->
  exists e, parse_test R rcompile parse_time debug case registered init_plugin
      (reference_value cwd stat other plugin_value dirs) s = Err e /\ In e [ExpressionError; UsageError].
Proof.
  intros W H Hr Er. destruct Er as [Er|(x & Er & Ex)]; eapply reference_failed; eauto; unfold reference_value; rewrite Er; [reflexivity|].
  cbn [bindr]. now rewrite Ex.
Qed.

(** Lists have no lower case. *)
Lemma list_reference R rcompile parse_time debug case registered init_plugin reference_value s at_name o p at_ l :
  Writes s at_name o (Some []) p -> resolves registered init_plugin at_name at_ TListOfStrings -> In o (operators TListOfStrings) ->
  reference_value at_ p = Ok (VList l) -> case <> CaseSensitive ->
  parse_test R rcompile parse_time debug case registered init_plugin reference_value s = Err AttributeErr.
Proof.
  intros W H Ho Hx Hc. rewrite (parse_writes _ _ _ _ _ _ _ _ _ _ _ _ _ _ _ W H). destruct H as [_ H].
  unfold create_test. rewrite H. cbn [bindr]. apply str_in_iff in Ho. rewrite Ho. cbn [negb].
  unfold get_reference_value. cbn [bindr]. rewrite H. cbn [bindr].
  change (get_common_super_type TListOfStrings TListOfStrings) with (Some (CSub TListOfStrings)). cbn iota.
  rewrite Hx. cbn [bindr choices negb string_type prepare]. destruct case; [reflexivity|reflexivity|contradiction].
Qed.
