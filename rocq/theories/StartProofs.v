(** How ff starts *)
From Coq Require Import List NArith ZArith Bool Lia.
From Verif Require Import Py ArgsModel ArgsSpec ArgsProofs ArgsMoreProofs ArgumentsModel ArgumentsProofs Re TypeModel ExprModel ExprSpec ExprProofs TestModel RegistryModel FieldModel TemplateModel OutputModel ParserModel GrammarSpec ParserProofs ShlexModel ShlexSpec ShlexProofs ArgumentsSpec DepthProofs DirectoryProofs StartModel StartSpec.
Import ListNotations.

(** ** The values of the settings have the right types *)
Inductive kind_ := QNone | QBool | QStr | QNum | QStrs | QRanges | QSlice.
Definition kind_of (x : aval) : kind_ :=
  match x with
  | ANone => QNone | ABool _ => QBool | AStr _ => QStr | ANum _ => QNum | AStrs _ => QStrs
  | ARanges _ => QRanges | ASlice _ _ => QSlice
  end.
Definition kind_eqb (a b : kind_) : bool :=
  match a, b with
  | QNone, QNone | QBool, QBool | QStr, QStr | QNum, QNum | QStrs, QStrs | QRanges, QRanges | QSlice, QSlice => true
  | _, _ => false
  end.
Definition kinds : list (str * list kind_) :=
  [($"tests", [QStrs]); ($"directories", [QStrs]); ($"exclude", [QStrs]); ($"depth", [QNone; QRanges]);
   ($"ignore", [QBool]); ($"one_file_system", [QBool]); ($"hide", [QBool]); ($"json", [QNone; QStr]);
   ($"color", [QStr]); ($"absolute_path", [QBool]); ($"count", [QNone; QStrs]); ($"limit", [QNone; QSlice]);
   ($"sort", [QNone; QStrs]); ($"output", [QStrs]); ($"exec", [QNone; QStrs]); ($"exec_batch", [QNone; QStrs]);
   ($"profile", [QNone; QBool]); ($"action", [QNone; QStr]); ($"help", [QNone; QStr]); ($"case", [QStr]);
   ($"reverse", [QBool]); ($"all", [QBool]); ($"follow_symlinks", [QBool]); ($"separator", [QStr]); ($"jobs", [QNum]); ($"halt", [QStr])].
Definition fits (d : str) (x : aval) : bool :=
  match find (fun p => str_eqb (fst p) d) kinds with
  | Some (_, ks) => existsb (kind_eqb (kind_of x)) ks
  | None => true
  end.
Definition sample (t : conv) : aval :=
  match t with
  | TStr => AStr [] | TJobs => ANum 0 | TList | TSet => AStrs [] | TRanges => ARanges [] | TSlice => ASlice 0 None
  end.
Definition opt_fits (o : opt) : bool :=
  match o_action o with
  | StoreTrue => fits (o_dest o) (ABool true)
  | StoreConst => fits (o_dest o) (o_const o)
  | Store | StoreOptional => fits (o_dest o) (sample (o_type o))
  | Append | StoreRemainder | Arguments => fits (o_dest o) (AStrs [])
  end.
Lemma fits_kind d x y : kind_of x = kind_of y -> fits d x = fits d y.
Proof. intro H. unfold fits. now rewrite H. Qed.
Lemma convert_kind cpus t s x : convert cpus t s = Ok x -> kind_of x = kind_of (sample t).
Proof.
  destruct t; cbn [convert sample].
  - intro H; injection H as <-; reflexivity.
  - destruct (type_jobs cpus s); cbn [bindr]; [|discriminate]. intro H; injection H as <-; reflexivity.
  - intro H; injection H as <-; reflexivity.
  - intro H; injection H as <-; reflexivity.
  - destruct (type_ranges s); cbn [bindr]; [|discriminate]. intro H; injection H as <-; reflexivity.
  - destruct (type_slice s) as [[a b]|]; cbn [bindr]; [|discriminate]. intro H; injection H as <-; reflexivity.
Qed.

Section Table.
Variable debug : bool.
Variable cpus : Z.
Variable cache color : str.
Notation options := (create_parser debug cpus cache color).
Notation parse_args := (parse_args cpus options).
Notation convert := (convert cpus).
Notation ok := (table_ok_create debug cpus cache color).

Lemma options_fit : forallb opt_fits options = true.
Proof. destruct debug; vm_compute; reflexivity. Qed.
Lemma initial_fits d : fits d (initialize options d) = true.
Proof.
  destruct (find (fun p => str_eqb (fst p) d) kinds) as [[d' ks]|] eqn:E.
  - assert (F := E). apply find_some in E. destruct E as [I E]. cbn [fst] in E. apply str_eqb_eq in E. subst d'.
    clear F. unfold kinds in I. repeat (destruct I as [I|I]; [injection I as <- <-; destruct debug; lazy; reflexivity|]). destruct I.
  - unfold fits. now rewrite E.
Qed.
Lemma change_fits i d c : item_ok options i -> Change options convert i d c ->
  match c with Becomes x => fits d x = true | Grows _ => fits d (AStrs []) = true end.
Proof.
  intros K C. assert (A := options_fit). rewrite forallb_forall in A.
  destruct C as [o H|o H|o v H|o v x H V|o s x H V|o l|o l I H]; cbn [item_ok] in K.
  - destruct K as [I _]. specialize (A o I). unfold opt_fits in A. now rewrite H in A.
  - destruct K as [I _]. specialize (A o I). unfold opt_fits in A. now rewrite H in A.
  - destruct K as [I _]. specialize (A o I). unfold opt_fits in A. now rewrite H in A.
  - destruct K as [I _]. specialize (A o I). unfold opt_fits in A. rewrite (fits_kind _ _ _ (convert_kind _ _ _ _ V)).
    destruct H as [H|H]; now rewrite H in A.
  - destruct K as [I H']. specialize (A o I). unfold opt_fits in A. rewrite (fits_kind _ _ _ (convert_kind _ _ _ _ V)).
    now rewrite H' in A.
  - destruct K as (I & H & _). specialize (A o I). unfold opt_fits in A. now rewrite H in A.
  - specialize (A o I). unfold opt_fits in A. now rewrite H in A.
Qed.
Lemma parse_fits argv ns : parse_args argv = Ok ns -> forall d, fits d (ns d) = true.
Proof.
  intros H. apply (parse_leads cpus options ok) in H as (items & start & _ & HS & HL & Hok).
  assert (S : forall d, fits d (start d) = true).
  { intro d. rewrite (starts_unique cpus options ok start (initialize options) HS (initialize_starts options)). apply initial_fits. }
  clear HS. induction HL as [ns ns' H|ns i items d' c ns1 ns' HC H1 H2 HL IH]; intros d; [rewrite H; apply S|].
  apply IH; [intros; apply Hok; now right|]. intros e.
  assert (F := change_fits i d' c (Hok i (or_introl eq_refl)) HC).
  destruct (str_eq_dec e d') as [->|N]; [|rewrite H1 by exact N; apply S].
  rewrite H2. destruct c as [x|l]; [exact F|]. rewrite <- F. apply fits_kind. destruct (ns d'); reflexivity.
Qed.
Lemma args_of_ok argv ns : parse_args argv = Ok ns -> exists a, args_of ns = Some a.
Proof.
  intros H. assert (F := parse_fits _ _ H). clear H. unfold args_of.
  repeat match goal with
  | |- exists a, obind (?f (ns ?d)) _ = Some a =>
      let T := fresh in let y := fresh in let E := fresh in
      assert (T : exists y, f (ns d) = Some y)
        by (generalize (F d); destruct (ns d); intro T; try (vm_compute in T; discriminate T); eexists; reflexivity);
      destruct T as [y E]; rewrite E; clear E; cbn [obind]
  end.
  eexists. reflexivity.
Qed.
End Table.

(** ** Errors of the parser of tests *)
Section Parse.
  Context {T : Type} (pt : str -> res T).
  Notation ps := (ps pt).
  Lemma ps_rest tokens d c rest s : ps tokens d c = Ok (rest, s) -> incl rest tokens.
  Proof.
    remember (length tokens) as n eqn:Hn. assert (L : length tokens <= n) by lia. clear Hn.
    revert tokens L d c rest s; induction n as [|n IH]; intros tokens L d c rest s;
      rewrite ps_eqn; unfold step_eqn.
    - destruct tokens; [|cbn in L; lia]. destruct (_ && _); [discriminate|]. intros [= <- <-]. apply incl_refl.
    - assert (G : forall k ts d c, length ts <= n ->
        bindr (ps ts [] []) (fun x => let (ts', sub) := x in
          match ts' with [] => Err ParserError
          | _ :: ts'' => ps ts'' d (c ++ [close_seqs k sub]) end) = Ok (rest, s) -> incl rest ts).
      { intros k ts d' c' Lt. destruct (ps ts [] []) as [[ts' sub]|] eqn:E; [|discriminate].
        cbn [bindr]. assert (LE := ps_len _ _ _ _ _ _ E). apply IH in E; [|lia].
        destruct ts' as [|x ts'']; [discriminate|]. cbn [length] in LE. intros H. apply IH in H; [|lia].
        intros y Hy. apply E. right. now apply H. }
      destruct tokens as [|t ts].
      + destruct (_ && _); [discriminate|]. intros [= <- <-]. apply incl_refl.
      + cbn in L. destruct (classify t).
        * intros H. apply G in H; [|lia]. now apply incl_tl.
        * destruct (is_nil c); [discriminate|]. intros [= <- <-]. apply incl_refl.
        * intros H. apply IH in H; [|lia]. now apply incl_tl.
        * intros H. apply IH in H; [|lia]. now apply incl_tl.
        * destruct ts as [|m ts]; [discriminate|]. cbn in L. destruct (classify m); try discriminate.
          -- intros H. apply G in H; [|lia]. now apply incl_tl, incl_tl.
          -- destruct (pt m); [|discriminate]. cbn [bindr]. intros H. apply IH in H; [|lia]. now apply incl_tl, incl_tl.
        * destruct (pt t); [|discriminate]. cbn [bindr]. intros H. apply IH in H; [|lia]. now apply incl_tl.
  Qed.
  Lemma ps_error tokens d c e : ps tokens d c = Err e -> e = ParserError \/ exists t, In t tokens /\ pt t = Err e.
  Proof.
    remember (length tokens) as n eqn:Hn. assert (L : length tokens <= n) by lia. clear Hn.
    revert tokens L d c; induction n as [|n IH]; intros tokens L d c;
      rewrite ps_eqn; unfold step_eqn.
    - destruct tokens; [|cbn in L; lia]. destruct (_ && _); [|discriminate]. intros [= <-]. now left.
    - assert (G : forall k ts d c, length ts <= n ->
        bindr (ps ts [] []) (fun x => let (ts', sub) := x in
          match ts' with [] => Err ParserError
          | _ :: ts'' => ps ts'' d (c ++ [close_seqs k sub]) end) = Err e ->
        e = ParserError \/ exists t, In t ts /\ pt t = Err e).
      { intros k ts d' c' Lt. destruct (ps ts [] []) as [[ts' sub]|e'] eqn:E.
        - cbn [bindr]. assert (LE := ps_len _ _ _ _ _ _ E). apply ps_rest in E.
          destruct ts' as [|x ts'']; [intros [= <-]; now left|]. cbn [length] in LE. intros H. apply IH in H; [|lia].
          destruct H as [H|(t & Ht & H)]; [now left|]. right. exists t. split; [|exact H]. apply E. now right.
        - cbn [bindr]. intros [= ->]. eapply IH; [|exact E]. lia. }
      assert (W : forall t ts, e = ParserError \/ (exists t, In t ts /\ pt t = Err e) ->
        e = ParserError \/ (exists t', In t' (t :: ts) /\ pt t' = Err e)).
      { intros t ts [H|(t' & Ht & H)]; [now left|]. right. exists t'. split; [now right|exact H]. }
      destruct tokens as [|t ts].
      + destruct (_ && _); [|discriminate]. intros [= <-]. now left.
      + cbn in L. destruct (classify t).
        * intros H. apply W. eapply G; [|exact H]. lia.
        * destruct (is_nil c); [|discriminate]. intros [= <-]. now left.
        * intros H. apply W. eapply IH; [|exact H]. lia.
        * intros H. apply W. eapply IH; [|exact H]. lia.
        * destruct ts as [|m ts]; [intros [= <-]; now left|]. cbn in L. destruct (classify m); try (intros [= <-]; now left).
          -- intros H. apply W, W. eapply G; [|exact H]. lia.
          -- destruct (pt m) eqn:E; cbn [bindr].
             ++ intros H. apply W, W. eapply IH; [|exact H]. lia.
             ++ intros [= ->]. right. exists m. split; [right; now left|exact E].
        * destruct (pt t) eqn:E; cbn [bindr].
          -- intros H. apply W. eapply IH; [|exact H]. lia.
          -- intros [= ->]. right. exists t. split; [now left|exact E].
  Qed.
  Lemma parse_error ts e : parse pt ts = Err e -> e = ParserError \/ exists t, In t ts /\ pt t = Err e.
  Proof.
    unfold parse. change (parse_sequence pt (S (length ts)) ts [] []) with (ps ts [] []).
    destruct (ps ts [] []) as [[rest s]|e'] eqn:E; cbn [bindr].
    - destruct rest; [discriminate|]. intros [= <-]. now left.
    - intros [= ->]. now apply ps_error in E.
  Qed.
  Lemma ps_tests_error ts d c e : Forall is_test ts -> ps ts d c = Err e -> d = [] -> exists t, In t ts /\ pt t = Err e.
  Proof.
    intros H. revert c. induction H as [|t ts Ht H IH]; intros c E ->.
    - rewrite ps_eqn in E. discriminate E.
    - rewrite ps_test in E by exact Ht. destruct (pt t) eqn:P; cbn [bindr] in E.
      + destruct (IH _ E eq_refl) as (t' & I & K). exists t'. split; [now right|exact K].
      + injection E as ->. exists t. split; [now left|exact P].
  Qed.
  Lemma ps_tests_rest ts d c rest s : Forall is_test ts -> ps ts d c = Ok (rest, s) -> rest = [].
  Proof.
    intros H. revert c. induction H as [|t ts Ht H IH]; intros c E.
    - rewrite ps_eqn in E. cbn in E. destruct (_ && _); [discriminate|]. now injection E as <- <-.
    - rewrite ps_test in E by exact Ht. destruct (pt t) eqn:P; cbn [bindr] in E; [|discriminate]. exact (IH _ E).
  Qed.
  (** No ParserError without operators and brackets *)
  Lemma parse_tests_error ts e : Forall is_test ts -> parse pt ts = Err e -> exists t, In t ts /\ pt t = Err e.
  Proof.
    intros H. unfold parse. change (parse_sequence pt (S (length ts)) ts [] []) with (ps ts [] []).
    destruct (ps ts [] []) as [[rest s]|e'] eqn:E; cbn [bindr].
    - apply ps_tests_rest in E; [|exact H]. subst rest. discriminate.
    - intros [= ->]. now apply (ps_tests_error _ _ _ _ H E).
  Qed.
End Parse.

(** ** Errors of the fields and of a single test *)
Lemma mapr_error {A B} (f : A -> res B) l e : mapr f l = Err e -> exists x, In x l /\ f x = Err e.
Proof.
  induction l as [|x l IH]; [discriminate|]. cbn [mapr]. destruct (f x) eqn:E; cbn [bindr].
  - destruct (mapr f l); cbn [bindr]; [discriminate|]. intros [= ->].
    destruct (IH eq_refl) as (y & I & H). exists y. split; [now right|exact H].
  - intros [= ->]. exists x. split; [now left|exact E].
Qed.
Section Errors.
Variable debug : bool.
Variable registered : list plugin.
Variable init_plugin : str -> res unit.
Definition setup_fails (e : exc) : Prop := exists p, In p (map p_name registered) /\ init_plugin p = Err e.
Definition polite (e : exc) : Prop := e = UsageError \/ e = BadAttributeError \/ e = ExpressionError \/ setup_fails e.
Lemma setup_error name e : setup_attribute registered init_plugin name = Err e -> polite e.
Proof.
  unfold setup_attribute. destruct (parse_attribute registered name) as [a|e'] eqn:E; cbn [bindr].
  - destruct (str_in (fst a) (map p_name registered)) eqn:I.
    + destruct (init_plugin (fst a)) eqn:P; cbn [bindr]; [discriminate|]. intros [= ->].
      right; right; right. exists (fst a). split; [now apply str_in_iff|exact P].
    + intros [= <-]. right; now left.
  - intros [= ->]. unfold parse_attribute in E. destruct (split_dot name); [discriminate|].
    destruct (str_in _ _); [discriminate|]. destruct (get_plugin_for_attribute registered name) as [|x [|y l]];
      try discriminate; injection E as <-; right; now left.
Qed.
Lemma type_error a e : get_attribute_type registered a = Err e -> polite e.
Proof.
  unfold get_attribute_type. destruct (find_plugin _ _) as [p|]; [destruct (find_attr _ _)|]; try discriminate;
    intros [= <-]; right; now left.
Qed.
Lemma make_error s e : make_field registered init_plugin s = Err e -> polite e.
Proof.
  unfold make_field. destruct (re_match field_re (strip s)) as [[x cs]|]; [|intros [= <-]; now left].
  destruct (group 1 cs) as [name|]; [|intros [= <-]; now left].
  destruct (setup_attribute registered init_plugin name) eqn:E; cbn [bindr]; [|intros [= ->]; now apply setup_error in E].
  destruct (get_attribute_type registered a) eqn:E2; cbn [bindr]; [discriminate|intros [= ->]; now apply type_error in E2].
Qed.
Lemma output_error l e : output_fields registered init_plugin l = Err e -> polite e.
Proof. intros H. apply mapr_error in H as (x & _ & H). now apply make_error in H. Qed.
Lemma count_error l e : count_fields registered init_plugin l = Err e -> polite e.
Proof.
  unfold count_fields. destruct (output_fields registered init_plugin l) eqn:E; cbn [bindr].
  - destruct (existsb _ a); [|discriminate]. intros [= <-]. now left.
  - intros [= ->]. now apply output_error in E.
Qed.
Lemma fields_error a e : setup_fields registered init_plugin a = Err e -> polite e.
Proof.
  unfold setup_fields. destruct (output_fields registered init_plugin _) eqn:E; cbn [bindr]; [|intros [= ->]; now apply output_error in E].
  destruct (a_sort a); [|discriminate]. destruct (output_fields registered init_plugin l) eqn:E2; cbn [bindr]; [discriminate|].
  intros [= ->]; now apply output_error in E2.
Qed.
Lemma replace_error p e : TemplateModel.replace registered init_plugin p = Err e -> polite e.
Proof.
  assert (M : forall s, bindr (make_field registered init_plugin s) (fun f => Ok (Slot f)) = Err e -> polite e).
  { intros s. destruct (make_field registered init_plugin s) eqn:E; cbn [bindr]; [discriminate|intros [= ->]; now apply make_error in E]. }
  unfold TemplateModel.replace.
  repeat match goal with |- (if ?b then _ else _) = _ -> _ => destruct b; [try discriminate; try apply M|] end.
  discriminate.
Qed.
Lemma store_error l e : TemplateModel.store registered init_plugin l = Err e -> polite e.
Proof.
  unfold TemplateModel.store. destruct (mapr _ l) eqn:E; cbn [bindr].
  - destruct (existsb _ _); [discriminate|]. destruct (make_field _ _ _) eqn:E2; cbn [bindr]; [discriminate|].
    intros [= ->]. now apply make_error in E2.
  - intros [= ->]. apply mapr_error in E as (s & _ & E). apply mapr_error in E as (p & _ & E). now apply replace_error in E.
Qed.
Lemma batch_error l e : store_batch registered init_plugin l = Err e -> polite e.
Proof.
  unfold store_batch. destruct (TemplateModel.store registered init_plugin l) as [fields|] eqn:E; cbn [bindr].
  - destruct fields as [|f r].
    + exfalso. unfold TemplateModel.store in E. destruct (mapr _ l) as [m|] eqn:M; cbn [bindr] in E; [|discriminate].
      destruct (existsb _ (concat (tl m))) eqn:X.
      * injection E as ->. discriminate X.
      * destruct (make_field _ _ _); cbn [bindr] in E; [|discriminate]. injection E as E. now destruct m.
    + destruct (existsb _ f); [|discriminate]. intros [= <-]. now left.
  - intros [= ->]. now apply store_error in E.
Qed.
Variable R : Type.
Variable rcompile : str -> res R.
Variable parse_time : str -> res Z.
Variable reference_value : str * str -> str -> res TypeModel.value.
Variable case : case_mode.
Notation parse_test := (parse_test R rcompile parse_time debug case registered init_plugin reference_value).
Lemma prepare_error t o v e : prepare R rcompile case t o v = Err e ->
  e = ExpressionError \/ (e <> ReError /\ exists s, rcompile s = Err e) \/ ((e = AttributeErr \/ e = TypeErr) /\ forall s, v <> VStr s).
Proof.
  unfold prepare. destruct v as [s| | |].
  1: { assert (C : exists b, match case with
        | CaseSmart => bindr (py_lower (VStr s)) (fun l => Ok (match VStr s with VStr s => str_eqb s l | _ => false end))
        | CaseIgnore => Ok true | CaseSensitive => Ok false end = Ok b) by (destruct case; eexists; reflexivity).
       destruct C as [b C]. rewrite C. cbn [bindr]. clear C.
       assert (D : exists s', (if b then bindr (py_lower (VStr s)) (fun l => Ok (VStr l)) else Ok (VStr s)) = Ok (VStr s'))
         by (destruct b; eexists; reflexivity).
       destruct D as [s' D]. rewrite D. cbn [bindr]. clear D.
       destruct (str_eqb o _).
       - destruct (rcompile s') eqn:E; [discriminate|].
         destruct e0; intros [= <-]; try (right; left; split; [discriminate|now exists s']). now left.
       - destruct (str_eqb o _); discriminate. }
  all: intros H; right; right; split; [|discriminate];
    destruct case; cbn in H; try (injection H as <-; now left);
    repeat match type of H with (if ?b then _ else _) = _ => destruct b end; cbn in H; try discriminate H; injection H as <-; auto.
Qed.
Lemma test_error t e : parse_test t = Err e -> polite e \/ (e <> ReError /\ exists s, rcompile s = Err e) \/
  ((e = AttributeErr \/ e = TypeErr) /\ refers t).
Proof.
  unfold parse_test. destruct (split_test t) as [[[[a o] r] v]|] eqn:ES; [|intros [= <-]; left; right; right; now left].
  destruct (setup_attribute registered init_plugin a) as [at_|] eqn:E; cbn [bindr]; [|intros [= ->]; left; now apply setup_error in E].
  unfold create_test. destruct (get_attribute_type registered at_) as [ty|] eqn:ET; cbn [bindr]; [|intros [= ->]; left; now apply type_error in ET].
  destruct (negb _); [intros [= <-]; left; right; right; now left|].
  destruct (match r with Some r => get_reference_value _ _ _ _ _ _ _ | None => _ end) as [val|] eqn:EV; cbn [bindr];
    [|intros [= <-]; left; now left].
  destruct (negb _); [intros [= <-]; left; right; right; now left|].
  destruct (string_type ty) eqn:S; [|discriminate].
  destruct (prepare R rcompile case ty o val) as [x|] eqn:EP; cbn [bindr]; [discriminate|]. intros [= ->].
  apply prepare_error in EP as [->|[H|[H K]]]; [left; right; right; now left|right; now left|].
  right; right. split; [exact H|]. destruct r as [r|].
  - exists a, o, r, v. now apply split_sound.
  - exfalso. destruct ty; try discriminate S; cbn in EV; injection EV as <-; now apply (K v).
Qed.
End Errors.

(** ** The tests that are added *)
Lemma refers_brace t : refers t -> In 123%N t /\ (3 <= length t)%nat.
Proof.
  intros (a & o & r & v & b1 & b2 & op & ref & b3 & b4 & -> & _ & _ & _ & _ & N & O & F & V & _).
  unfold written. split.
  - apply in_or_app; right. apply in_or_app; right. apply in_or_app; right. apply in_or_app; right.
    apply in_or_app; left. inversion F; subst; now left.
  - assert (A : a <> []).
    { destruct N as [[H _]|(p & n & [H _] & _ & ->)]; [exact H|]. destruct p; [now destruct H|discriminate]. }
    destruct a as [|x a]; [now destruct A|]. destruct v as [|y v]; [now destruct V|].
    assert (P : op <> []) by (intros ->; inversion O).
    destruct op as [|z op]; [now destruct P|].
    rewrite !app_length. cbn [length]. lia.
Qed.
Lemma number_chars z c : In c (str_of_Z z) -> (c < 58)%N.
Proof.
  assert (D : forall n, In c (str_of_N n) -> (c < 58)%N).
  { intros n H. assert (F := uint_str_digits (N.to_uint n)). rewrite forallb_forall in F. apply F in H.
    unfold is_d, between in H. lia. }
  destruct z; cbn [str_of_Z].
  - intros [<-|[]]. lia.
  - apply D.
  - intros [<-|H]; [lia|now apply (D (Npos p))].
Qed.
Lemma depth_refers o z : In o [$"="; $"+="; $"-="; $"+"; $"-"] -> ~ refers (depth_test o z).
Proof.
  intros O H. apply refers_brace in H as [H _]. unfold depth_test in H.
  apply in_app_or in H as [H|H]; [vm_compute in H; intuition discriminate|].
  apply in_app_or in H as [H|H]; [|apply number_chars in H; lia].
  cbn in O. intuition (subst; vm_compute in H; intuition discriminate).
Qed.
Lemma ranges_refers l t : In t (ranges_tests l) -> ~ refers t.
Proof.
  assert (R : forall r, In t (range_tests r) -> ~ refers t).
  { intros r. rewrite range_depth. destruct (snd r); [destruct (Z.eqb _ _)|]; cbn [In]; intuition (subst; eapply depth_refers; [|eassumption]; cbn; auto). }
  assert (O : ~ refers ($"OR")) by (intros H; apply refers_brace in H as [_ H]; vm_compute in H; lia).
  induction l as [|r [|r' l] IH]; [intros []|apply R|].
  change (ranges_tests (r :: r' :: l)) with (range_tests r ++ $"OR" :: ranges_tests (r' :: l)).
  intros H. apply in_app_or in H as [H|[<-|H]]; [now apply (R r)|exact O|now apply IH].
Qed.
Lemma removed_in x l t : In t (remove_first x l) -> In t l.
Proof. induction l as [|y l IH]; [auto|]. cbn [remove_first]. destruct (str_eqb y x); [now right|]. intros [<-|H]; [now left|right; now apply IH]. Qed.
Lemma front_in isdir copy : forall tests dirs t, In t (fst (front_loop isdir copy tests dirs)) -> In t tests.
Proof.
  induction copy as [|x copy IH]; intros tests dirs t; [auto|]. cbn [front_loop]. destruct (is_directory isdir x); [|auto].
  intros H. apply IH in H. now apply removed_in in H.
Qed.
Lemma back_in isdir i : forall tests dirs t, In t (fst (back_loop isdir i tests dirs)) -> In t tests.
Proof.
  induction i as [|i IH]; intros tests dirs t; [auto|]. cbn [back_loop]. destruct (nth_error tests i) as [x|]; [|auto].
  destruct (is_directory isdir x); [|auto]. intros H. apply IH in H. now apply removed_in in H.
Qed.
Lemma detect_in isdir a : incl (a_tests (detect isdir a)) (a_tests a) /\ a_exclude (detect isdir a) = a_exclude a.
Proof.
  unfold detect. destruct (a_directories a) eqn:E; [|rewrite E; split; [apply incl_refl|reflexivity]].
  cbv zeta. destruct (front_loop _ _ _ _) as [t1 d1] eqn:F. destruct (back_loop _ _ _ _) as [t2 d2] eqn:B.
  cbn [a_directories set_directories]. destruct d2; cbn; (split; [|reflexivity]).
  - intros t H. apply (front_in isdir (a_tests a) _ [] t). rewrite F. cbn [fst]. apply (back_in isdir (length (a_tests a)) t1 d1 t). rewrite B. exact H.
  - intros t H. apply (front_in isdir (a_tests a) _ [] t). rewrite F. cbn [fst]. apply (back_in isdir (length (a_tests a)) t1 d1 t). rewrite B. exact H.
Qed.
Lemma warned_in a : a_tests (fst (collect_warnings a)) = a_tests a /\ a_exclude (fst (collect_warnings a)) = a_exclude a.
Proof.
  unfold collect_warnings.
  destruct (_ && _); destruct (truthy (a_count _)); try (destruct (truthy (a_sort _))); try destruct (negb _);
    match goal with |- context [if ?b then (?x, _) else _] => destruct b end; split; reflexivity.
Qed.
Lemma process_tests_in isdir cwd debug a b w t : process isdir cwd debug a = Ok (b, w) -> In t (a_tests b) -> In t (a_tests a) \/ ~ refers t.
Proof.
  unfold process. destruct (process_directories isdir cwd a) as [a'|] eqn:E; cbn [bindr]; [|discriminate].
  apply process_detect in E. subst a'. destruct (check_for_errors _ _); cbn [bindr]; [|discriminate].
  intros H. injection H as H. assert (W := warned_in (process_arguments (detect isdir a))). rewrite H in W. destruct W as [W _]. cbn [fst] in W.
  rewrite W, process_tests. destruct (detect_in isdir a) as [D _].
  destruct (a_depth (detect isdir a)) as [[|r l]|]; try (intros I; left; now apply D).
  assert (B : ~ refers ($"{{") /\ ~ refers ($"}}")) by (split; intros X; apply refers_brace in X as [_ X]; vm_compute in X; lia).
  unfold depth_expression. intros I.
  destruct I as [<-|I]; [right; apply B|]. apply in_app_or in I as [I|I]; [right; now apply ranges_refers in I|].
  destruct I as [<-|I]; [right; apply B|]. destruct (a_tests (detect isdir a)) as [|x l']; [destruct I|].
  destruct I as [<-|I]; [right; apply B|]. apply in_app_or in I as [I|[<-|[]]]; [left; now apply D|right; apply B].
Qed.
Lemma flags_plain a t : In t (flag_tests a) -> is_test t /\ ~ refers t.
Proof.
  unfold flag_tests. intros H.
  assert (K : t = $"ignored=yes" \/ t = $"samedev=no" \/ t = $"hide=yes").
  { apply in_app_or in H as [H|H]; [destruct (a_ignore a); [destruct H as [<-|[]]; auto|destruct H]|].
    apply in_app_or in H as [H|H]; [destruct (a_one_file_system a); [destruct H as [<-|[]]; auto|destruct H]|].
    destruct (a_hide a); [destruct H as [<-|[]]; auto|destruct H]. }
  assert (Q : forall x : str, (4 <=? length x)%nat = true -> existsb (N.eqb 123) x = false -> is_test x /\ ~ refers x).
  { intros x L B. apply Nat.leb_le in L. split.
    - assert (S : forall W, (length W < 4)%nat -> ~ spelled W x) by (intros W HW HS; apply spelled_len in HS; lia).
      repeat split.
      + intros [-> | ->]; vm_compute in L; lia.
      + intros [-> | ->]; vm_compute in L; lia.
      + apply S. cbn. lia.
      + apply S. cbn. lia.
      + apply S. cbn. lia.
    - intros R. apply refers_brace in R as [R _]. assert (X : existsb (N.eqb 123) x = true) by (apply existsb_exists; exists 123%N; split; [exact R|reflexivity]).
      rewrite X in B. discriminate B. }
  destruct K as [-> | [-> | ->]]; apply Q; reflexivity.
Qed.
Lemma process_exclude_in isdir cwd debug a b w t : process isdir cwd debug a = Ok (b, w) -> In t (a_exclude b) ->
  In t (a_exclude a) \/ (is_test t /\ ~ refers t).
Proof.
  unfold process. destruct (process_directories isdir cwd a) as [a'|] eqn:E; cbn [bindr]; [|discriminate].
  apply process_detect in E. subst a'. destruct (check_for_errors _ _); cbn [bindr]; [|discriminate].
  intros H. injection H as H. assert (W := warned_in (process_arguments (detect isdir a))). rewrite H in W. destruct W as [_ W]. cbn [fst] in W.
  rewrite W, process_exclude. destruct (detect_in isdir a) as [_ D]. rewrite D.
  intros I. apply in_app_or in I as [I|I]; [now left|]. right. apply in_app_or in I as [I|I]; [now apply flags_plain in I|].
  destruct (a_depth (detect isdir a)) as [[|r l]|]; [destruct I| |destruct I].
  destruct (all_stops (r :: l)); [|destruct I]. destruct I as [<-|[]]. split; [apply depth_is_test; cbn; lia|].
  apply depth_refers. cbn. auto.
Qed.

(** ** The endings *)
Lemma not_all_test l : ~ Forall is_test l -> exists t, In t l /\ ~ is_test t.
Proof.
  induction l as [|t l IH]; intros H; [destruct H; constructor|].
  destruct (classify t) eqn:C; try (exists t; split; [now left|]; intros T; apply classify_test in T; congruence).
  destruct IH as (t' & I & N).
  - intros F. apply H. constructor; [|exact F]. assert (K := classify_spec t). now rewrite C in K.
  - exists t'. split; [now right|exact N].
Qed.
Section Start.
Variable debug : bool.
Variable cpus : Z.
Variable cache color : str.
Variable isdir : str -> bool.
Variable cwd : str.
Variable registered : list plugin.
Variable init_plugin : str -> res unit.
Variable R : Type.
Variable rcompile : str -> res R.
Variable parse_time : str -> res Z.
Variable reference_value : namespace -> str * str -> str -> res TypeModel.value.
Hypothesis Hinit : forall p e, init_plugin p = Err e -> e = PluginErr.
Hypothesis Hre : forall s e, rcompile s = Err e -> e = ReError.
Notation options := (create_parser debug cpus cache color).
Notation parse_args := (parse_args cpus options).
Notation convert := (convert cpus).
Notation start := (start debug cpus cache color shlex_split isdir cwd registered init_plugin R rcompile parse_time reference_value).
Notation setup := (setup_components debug registered init_plugin R rcompile parse_time reference_value).

Definition graceful (e : exc) : Prop := e = UsageError \/ e = BadAttributeError \/ e = ExpressionError \/
  (e = PluginErr /\ exists p, init_plugin p = Err PluginErr).
Lemma polite_graceful e : polite registered init_plugin e -> graceful e.
Proof.
  intros [H|[H|[H|(p & _ & H)]]]; unfold graceful; auto.
  assert (E := Hinit _ _ H). subst e. right; right; right. split; [reflexivity|now exists p].
Qed.
Lemma test_graceful case rv t e : TestModel.parse_test R rcompile parse_time debug case registered init_plugin rv t = Err e ->
  graceful e \/ ((e = AttributeErr \/ e = TypeErr) /\ refers t).
Proof.
  intros H. apply test_error in H as [H|[[N [s H]]|H]]; [left; now apply polite_graceful|now destruct (N (Hre _ _ H))|now right].
Qed.
Lemma filters_error ns a e : setup_filters debug registered init_plugin R rcompile parse_time reference_value ns a = Err e ->
  graceful e \/ ((e = AttributeErr \/ e = TypeErr) /\ exists t, In t (a_tests a ++ a_exclude a) /\ refers t) \/
  (e = ParserError /\ ~ Forall is_test (a_exclude a)).
Proof.
  unfold setup_filters. set (pt := TestModel.parse_test _ _ _ _ _ _ _ _).
  assert (T : forall t e, pt t = Err e -> graceful e \/ ((e = AttributeErr \/ e = TypeErr) /\ refers t)).
  { intros t e0. apply test_graceful. }
  destruct (parse pt (a_tests a)) as [x|e1] eqn:E1.
  - cbn [bindr]. destruct (parse pt (a_exclude a)) as [y|e2] eqn:E2; cbn [bindr]; [discriminate|]. intros H. injection H as ->.
    destruct (parse_error pt _ _ E2) as [->|(t & I & P)].
    + right. right. split; [reflexivity|]. intros F. destruct (parse_tests_error pt _ _ F E2) as (t & _ & P).
      apply T in P. unfold graceful in P. intuition discriminate.
    + apply T in P as [P|[P Q]]; [now left|]. right. left. split; [exact P|]. exists t. split; [apply in_or_app; now right|exact Q].
  - intros H. assert (C : e = UsageError \/ (e = e1 /\ e1 <> ParserError)).
    { destruct e1; cbn [bindr] in H; injection H as <-; (left; reflexivity) || (right; split; [reflexivity|discriminate]). }
    destruct C as [->|[-> N]]; [left; now left|].
    destruct (parse_error pt _ _ E1) as [->|(t & I & P)]; [now destruct N|].
    apply T in P as [P|[P Q]]; [now left|]. right. left. split; [exact P|]. exists t. split; [apply in_or_app; now left|exact Q].
Qed.
Lemma optional_error {A} (f : list str -> res A) x e : (forall l e, f l = Err e -> polite registered init_plugin e) ->
  optional_fields f x = Err e -> graceful e.
Proof.
  intros F. unfold optional_fields. destruct x as [l|]; [|discriminate]. destruct (f l) eqn:E; cbn [bindr]; [discriminate|].
  intros H. injection H as ->. now apply polite_graceful, (F l).
Qed.
Lemma setup_cases ns a : match setup ns a with
  | Ok (Exits c) => c = 0%Z /\ ~ (ns ($"action") = ANone /\ ns ($"help") = ANone)
  | Ok (Traceback _) => False
  | Ok (Searches b _ _) => b = a /\ ns ($"action") = ANone /\ ns ($"help") = ANone
  | Err e => graceful e \/ ((e = AttributeErr \/ e = TypeErr) /\ exists t, In t (a_tests a ++ a_exclude a) /\ refers t) \/
      (e = ParserError /\ ~ Forall is_test (a_exclude a))
  end.
Proof.
  unfold setup_components.
  destruct (setup_fields registered init_plugin a) as [[output sort]|e] eqn:E; cbn [bindr];
    [|left; apply polite_graceful; exact (fields_error _ _ _ _ E)].
  destruct (optional_fields _ (a_count a)) as [x1|e] eqn:E1; cbn [bindr];
    [|left; apply (optional_error _ _ _ (count_error registered init_plugin) E1)].
  destruct (optional_fields _ (a_exec a)) as [x2|e] eqn:E2; cbn [bindr];
    [|left; apply (optional_error _ _ _ (store_error registered init_plugin) E2)].
  destruct (optional_fields _ (a_exec_batch a)) as [x3|e] eqn:E3; cbn [bindr];
    [|left; apply (optional_error _ _ _ (batch_error registered init_plugin) E3)].
  destruct (ns ($"action")); try (split; [reflexivity|]; intros [A _]; discriminate A).
  destruct (ns ($"help")); try (split; [reflexivity|]; intros [_ A]; discriminate A).
  - destruct (setup_filters _ _ _ _ _ _ _ ns a) as [u|e] eqn:F; cbn [bindr]; [auto|]. now apply filters_error in F.
  - destruct (str_in _ _); [split; [reflexivity|]; intros [_ A]; discriminate A|]. left. now left.
Qed.
Lemma given_collect ff_options argv : match collect_arguments shlex_split ff_options argv with
  | Ok l => Given ff_options argv l
  | Err e => e = ValueError /\ exists s, ff_options = Some s /\ forall l, ~ Words s l
  end.
Proof.
  destruct ff_options as [s|].
  - destruct (collect_arguments shlex_split (Some s) argv) eqn:E.
    + apply collect_read in E as (l & W & ->). now constructor.
    + apply collect_error in E as [-> N]. split; [reflexivity|]. now exists s.
  - cbn. constructor.
Qed.
(** The settings of the tests and exclusions *)
Lemma args_tests ns a : args_of ns = Some a -> ns ($"tests") = AStrs (a_tests a) /\ ns ($"exclude") = AStrs (a_exclude a).
Proof.
  unfold args_of. repeat match goal with |- obind ?x _ = Some a -> _ => let E := fresh "E" in destruct x eqn:E; cbn [obind]; [|discriminate] end.
  intros H. injection H as <-. cbn [a_tests a_exclude]. split.
  - destruct (ns ($"tests")); try discriminate E. now injection E as ->.
  - destruct (ns ($"exclude")); try discriminate E1. now injection E1 as ->.
Qed.
Definition stuck (ff_options : option str) (argv : list str) (e : exc) : Prop :=
  (e = ValueError /\ exists s, ff_options = Some s /\ forall l, ~ Words s l) \/
  exists l, Given ff_options argv l /\
    ((e = ValueError /\ BadValue options convert ValueError l) \/
     exists ns tests exclude, parse_args l = Ok ns /\ ns ($"tests") = AStrs tests /\ ns ($"exclude") = AStrs exclude /\
       ((e = ParserError /\ exists t, In t exclude /\ ~ is_test t) \/
        ((e = AttributeErr \/ e = TypeErr) /\ exists t, In t (tests ++ exclude) /\ refers t))).
Lemma start_cases ff_options argv : match start ff_options argv with
  | Exits c => (c = 2 \/ c = 11 \/ c = 12)%Z \/ (c = 10%Z /\ exists p, init_plugin p = Err PluginErr) \/
      (c = 0%Z /\ exists l ns, Given ff_options argv l /\ parse_args l = Ok ns /\ ~ (ns ($"action") = ANone /\ ns ($"help") = ANone))
  | Traceback e => stuck ff_options argv e
  | Searches b _ _ => exists l ns, Given ff_options argv l /\ parse_args l = Ok ns /\ ns ($"action") = ANone /\ ns ($"help") = ANone
  end.
Proof.
  unfold StartModel.start. assert (G := given_collect ff_options argv).
  destruct (collect_arguments shlex_split ff_options argv) as [l|e]; [|left; exact G].
  destruct (parse_args l) as [ns|e] eqn:P.
  2: { apply (parse_bad cpus options (table_ok_create debug cpus cache color)) in P as [->|[-> B]].
       - left. now left.
       - right. exists l. split; [exact G|]. now left. }
  destruct (match ns ($"help") with AStr s => _ | _ => _ end) eqn:H.
  { right. right. split; [reflexivity|]. exists l, ns. split; [exact G|]. split; [exact P|]. intros [_ K]. rewrite K in H. discriminate H. }
  destruct (args_of_ok debug cpus cache color l ns P) as [a A]. rewrite A.
  destruct (args_tests ns a A) as [At Ae].
  destruct (process isdir cwd debug a) as [[b w]|e] eqn:Q.
  2: { apply process_err in Q. subst e. left. now left. }
  assert (C := setup_cases ns b). destruct (setup ns b) as [[c|e|b' output sort]|e]; cbn [handled].
  - right. right. destruct C as [-> C]. split; [reflexivity|]. exists l, ns. auto.
  - destruct C.
  - destruct C as (-> & C1 & C2). exists l, ns. auto.
  - destruct C as [C|C].
    + unfold graceful in C. destruct C as [->|[->|[->|[-> C]]]]; cbn [exitcode]; auto.
    + assert (S : stuck ff_options argv e).
      { right. exists l. split; [exact G|]. right. exists ns, (a_tests a), (a_exclude a). split; [exact P|]. split; [exact At|]. split; [exact Ae|].
        destruct C as [[E (t & I & Rt)]|[-> N]].
        - right. split; [exact E|]. exists t. split; [|exact Rt]. apply in_or_app. apply in_app_or in I as [I|I].
          + apply (process_tests_in _ _ _ _ _ _ _ Q) in I as [I|I]; [now left|now destruct I].
          + apply (process_exclude_in _ _ _ _ _ _ _ Q) in I as [I|[_ I]]; [now right|now destruct I].
        - left. split; [reflexivity|]. apply not_all_test in N. destruct N as (t & I & N). exists t. split; [|exact N].
          apply (process_exclude_in _ _ _ _ _ _ _ Q) in I as [I|[I _]]; [exact I|now destruct N]. }
      destruct C as [[[->| ->] _]|[-> _]]; exact S.
Qed.
End Start.
