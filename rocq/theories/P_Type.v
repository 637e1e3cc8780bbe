(** Properties C06-C13: test strings and the types of attributes. *)
From Coq Require Import List NArith ZArith Bool Lia.
From Verif Require Import Py Re ExprModel ExprSpec ExprProofs GlobModel TypeModel TypeSpec TypeProofs
  RegistryModel TestModel TestProofs.
Import ListNotations.
Local Open Scope Z_scope.

(** C06: a test that is written down is read back. *)
Theorem C06_read_back : forall s a o r v, Writes s a o r v -> split_test s = Some (a, o, r, v).
Proof. exact split_writes. Qed.
Print Assumptions C06_read_back.
(** Exactly the strings that can be read as a test are accepted, and what is
    returned is one way to read them. *)
Theorem C06_rejected : forall s, split_test s = None <-> ~ exists a o r v, ExprSpec.Test s a o r v.
Proof. exact split_none. Qed.
Print Assumptions C06_rejected.
Theorem C06_sound : forall s a o r v, split_test s = Some (a, o, r, v) -> ExprSpec.Test s a o r v.
Proof. exact split_sound. Qed.
Print Assumptions C06_sound.
(** A string that is rejected gives an error, not a test. *)
Theorem C06_rejected_error : forall R rcompile parse_time debug case registered init_plugin reference_value s,
  (~ exists a o r v, ExprSpec.Test s a o r v) ->
  parse_test R rcompile parse_time debug case registered init_plugin reference_value s = Err ExpressionError.
Proof.
  intros R rcompile parse_time debug case registered init_plugin reference_value s H. apply split_none in H.
  unfold parse_test. now rewrite H.
Qed.
Print Assumptions C06_rejected_error.

Ltac name_tac := first [left; split; [discriminate|]; intros c Hc; cbn in Hc; intuition (subst; reflexivity)].
Ltac blanks_tac := let c := fresh in let H := fresh in intros c H; cbn in H; intuition (subst; reflexivity).
Example C06_example : Writes ($" file.size >= 5 K") ($"file.size") ($"+=") None ($"5 K") /\
  Writes ($"mtime-{ctime}a.txt") ($"mtime") ($"-") (Some ($"ctime")) ($"a.txt").
Proof.
  split.
  - apply (Writes_intro ($" ") ($"file.size") ($" ") ($">=") ($"+=") None [] ($" ") ($"5 K") []).
    + blanks_tac.
    + right. exists ($"file"), ($"size").
      split; [|split; [|reflexivity]]; (split; [discriminate|]); intros c Hc; cbn in Hc; intuition (subst; reflexivity).
    + blanks_tac.
    + constructor.
    + constructor.
    + blanks_tac.
    + split; [discriminate|]. cbn. intuition discriminate.
    + blanks_tac.
    + exact I.
    + cbn. discriminate.
    + discriminate.
    + discriminate.
  - apply (Writes_intro [] ($"mtime") [] ($"-") ($"-") (Some ($"ctime")) ($"{ctime}") [] ($"a.txt") []).
    + blanks_tac.
    + name_tac.
    + blanks_tac.
    + constructor.
    + apply (ref_name ($"ctime")). name_tac.
    + blanks_tac.
    + split; [discriminate|]. cbn. intuition discriminate.
    + blanks_tac.
    + exact I.
    + cbn. discriminate.
    + discriminate.
    + discriminate.
Qed.
Example C06_rejected_example : split_test ($"size") = None /\ split_test ($"=5") = None /\ split_test ($"size=") = None.
Proof. repeat split; vm_compute; reflexivity. Qed.

Section Tests.
  (** Whatever regular expressions, clock, --case, plugins and files are. *)
  Variable R : Type.
  Variable rcompile : str -> res R.
  Variable rsearch : R -> str -> bool.
  Variable parse_time : str -> res Z.
  Variable debug : bool.
  Variable case : case_mode.
  Variable registered : list plugin.
  Variable init_plugin : str -> res unit.
  Variable reference_value : str * str -> str -> res value.
  Notation parse := (parse_test R rcompile parse_time debug case registered init_plugin reference_value).
  Notation parse_in m := (parse_test R rcompile parse_time m case registered init_plugin reference_value).
  Notation parse_case m := (parse_test R rcompile parse_time debug m registered init_plugin reference_value).
  Notation resolves := (resolves registered init_plugin).

  (** C07: number, size, time and duration tests compare. *)
  Theorem C07_compare : forall s a o v at_ t n,
    Writes s a o None v -> resolves a at_ t -> In t [TNumber; TSize; TTime; TDuration] ->
    In o [$"="; $"+="; $"-="; $"+"; $"-"] -> input parse_time debug t v = Ok (VInt n) ->
    exists test, parse s = Ok test /\
      forall name dir k, exists b, run rsearch test name dir (VInt k) = Ok b /\ (b = true <-> Compare k n o).
  Proof.
    intros s a o v at_ t n W H Ht Ho I. eapply number_end; eauto. cbn in *. tauto.
  Qed.
  (** Other operators are errors. *)
  Theorem C07_other_operators : forall s a o v r at_ t,
    Writes s a o r v -> resolves a at_ t -> In t [TNumber; TSize; TTime; TDuration] ->
    In o [$":"; $"~"; $"%"] -> parse s = Err ExpressionError.
  Proof.
    intros s a o v r at_ t W H Ht Ho. rewrite (parse_writes R rcompile parse_time debug case registered init_plugin reference_value _ _ _ _ _ _ _ W H).
    destruct H as [_ H]. eapply create_bad_op; [exact H|].
    cbn in Ht, Ho. intuition (subst; discriminate || cbn in *; intuition discriminate).
  Qed.

  (** C08: mode tests compare the twelve permission bits. *)
  Theorem C08_mode : forall s a o v at_ n,
    Writes s a o None v -> resolves a at_ TMode -> In o [$"="; $":"; $"~"] -> parse_mode v = Ok n ->
    exists test, parse s = Ok test /\
      forall name dir k, exists b, run rsearch test name dir (VInt k) = Ok b /\ (b = true <-> ModeTest k n o).
  Proof. exact (mode_end R rcompile rsearch parse_time debug case registered init_plugin reference_value). Qed.

  (** C10: upper and lower case. *)
  Theorem C10_sensitive : forall s a o v at_ t,
    Writes s a o None v -> resolves a at_ t -> In t [TString; TPath] -> In o [$"="; $":"] ->
    exists test, parse_case CaseSensitive s = Ok test /\
      forall name dir x, exists b, run rsearch test name dir (VStr x) = Ok b /\ (b = true <-> StringTest x v o).
  Proof. exact (string_end R rcompile rsearch parse_time debug CaseSensitive registered init_plugin reference_value). Qed.
  Theorem C10_ignore : forall s a o v at_ t,
    Writes s a o None v -> resolves a at_ t -> In t [TString; TPath] -> In o [$"="; $":"] ->
    exists test, parse_case CaseIgnore s = Ok test /\
      forall name dir x, exists b, run rsearch test name dir (VStr x) = Ok b /\
        (b = true <-> StringTest (lower x) (lower v) o).
  Proof. exact (string_end R rcompile rsearch parse_time debug CaseIgnore registered init_plugin reference_value). Qed.
  Theorem C10_smart : forall s a o v at_ t,
    Writes s a o None v -> resolves a at_ t -> In t [TString; TPath] -> In o [$"="; $":"] ->
    exists test, parse_case CaseSmart s = Ok test /\
      forall name dir x, exists b, run rsearch test name dir (VStr x) = Ok b /\
        ((exists c, In c v /\ upper_case c) -> (b = true <-> StringTest x v o)) /\
        ((forall c, In c v -> ~ upper_case c) -> (b = true <-> StringTest (lower x) (lower v) o)).
  Proof.
    intros s a o v at_ t W H Ht Ho.
    destruct (string_end R rcompile rsearch parse_time debug CaseSmart registered init_plugin reference_value
                s a o v at_ t W H Ht Ho) as (test & E & F).
    exists test. split; [exact E|]. intros name dir x. destruct (F name dir x) as (b & Eb & B).
    exists b. split; [exact Eb|]. cbn [folds] in B. split.
    - intros (c & Hc & Hu). destruct (str_eqb v (lower v)) eqn:X; [|exact B].
      apply str_eqb_eq in X. exfalso. exact (proj1 (lower_same v) X c Hc Hu).
    - intros Hn. destruct (str_eqb v (lower v)) eqn:X; [exact B|].
      apply str_eqb_neq in X. exfalso. apply X. now apply lower_same.
  Qed.

  (** C11: file types. *)
  Theorem C11_type : forall s a v at_ x,
    Writes s a ($"=") None v -> resolves a at_ TFileType -> stands_for v x ->
    exists test, parse s = Ok test /\
      forall name dir y, exists b, run rsearch test name dir (VStr y) = Ok b /\ (b = true <-> stands_for v y).
  Proof.
    intros s a v at_ x W H Hx.
    destruct (filetype_end R rcompile rsearch parse_time debug case registered init_plugin reference_value s a v at_ W H)
      as [[_ E]|[E _]]; [exact E|]. exfalso. eauto.
  Qed.
  Theorem C11_unknown : forall s a v at_,
    Writes s a ($"=") None v -> resolves a at_ TFileType -> (~ exists x, stands_for v x) ->
    parse s = Err ExpressionError.
  Proof.
    intros s a v at_ W H Hx.
    destruct (filetype_end R rcompile rsearch parse_time debug case registered init_plugin reference_value s a v at_ W H)
      as [[E _]|[_ E]]; [contradiction|exact E].
  Qed.

  (** C12: booleans. *)
  Theorem C12_value : forall s a v b at_,
    Writes s a ($"=") None v -> resolves a at_ TBoolean -> boolean_text v b ->
    exists test, parse s = Ok test /\
      forall name dir y, exists r, run rsearch test name dir (VBool y) = Ok r /\ (r = true <-> y = b).
  Proof. exact (boolean_end R rcompile rsearch parse_time debug case registered init_plugin reference_value). Qed.
  (** Other values are errors, but only when assertions are executed. *)
  Theorem C12_strict_partial : forall s a v at_,
    Writes s a ($"=") None v -> resolves a at_ TBoolean -> (~ exists b, boolean_text v b) ->
    parse_in true s = Err UsageError.
  Proof.
    intros s a v at_ W H Hb.
    exact (boolean_strict R rcompile parse_time true case registered init_plugin reference_value s a v at_ eq_refl W H Hb).
  Qed.

  (** C13: list tests. *)
  Theorem C13_any : forall sl ss al as_ at_l at_s o v,
    Writes sl al o None v -> Writes ss as_ o None v ->
    resolves al at_l TListOfStrings -> resolves as_ at_s TString ->
    (exists tl ts, parse sl = Ok tl /\ parse ss = Ok ts /\
       forall name dir l,
         (forall x, In x l -> exists b, run rsearch ts name dir (VStr x) = Ok b) ->
         exists b, run rsearch tl name dir (VList l) = Ok b /\
           (b = true <-> exists x, In x l /\ run rsearch ts name dir (VStr x) = Ok true)) \/
    (exists e, parse sl = Err e /\ parse ss = Err e).
  Proof. exact (list_end R rcompile rsearch parse_time debug case registered init_plugin reference_value). Qed.
  (** A string test that fails with an exception does so for every string, so
      that only the list without elements is left out above. *)
  Theorem C13_raises : forall ic o (tv : tvalue R) x y e,
    string_test rsearch ic o tv x = Err e -> string_test rsearch ic o tv y = Err e.
  Proof. exact (string_test_fails R rsearch). Qed.
End Tests.
Print Assumptions C07_compare.
Print Assumptions C07_other_operators.
Print Assumptions C08_mode.
Print Assumptions C10_sensitive.
Print Assumptions C10_ignore.
Print Assumptions C10_smart.
Print Assumptions C11_type.
Print Assumptions C11_unknown.
Print Assumptions C12_value.
Print Assumptions C12_strict_partial.
Print Assumptions C13_any.
Print Assumptions C13_raises.

(** A concrete world: the file plugin, and a plugin with a list. *)
Definition ex_plugins : list plugin := load_plugins [file_plugin; Plugin ($"tar") [($"members", TListOfStrings)]].
Definition ex_init (n : str) : res unit := Ok tt.
Definition ex_parse debug case := parse_test unit (fun _ => Err ReError) (fun _ => Err ValueError) debug case ex_plugins ex_init
  (fun _ _ => Err KeyErr).
Definition ex_run := @run unit (fun _ _ => false).
Definition ex_check debug case s v : res bool :=
  do t <- ex_parse debug case s; ex_run t ($"a") false v.
Example C07_example : resolves ex_plugins ex_init ($"size") ($"file", $"size") TSize /\
  ex_check false CaseSmart ($"size>=5K") (VInt 5120) = Ok true /\
  ex_check false CaseSmart ($"size>5K") (VInt 5120) = Ok false /\
  ex_check false CaseSmart ($"size:5K") (VInt 5120) = Err ExpressionError.
Proof. repeat split; vm_compute; reflexivity. Qed.
Example C08_example :
  ex_check false CaseSmart ($"mode=644") (VInt (32768 + 420)) = Ok true /\
  ex_check false CaseSmart ($"mode:u+w") (VInt 420) = Ok true /\
  ex_check false CaseSmart ($"mode~+x") (VInt 420) = Ok false.
Proof. repeat split; vm_compute; reflexivity. Qed.
Example C10_example :
  ex_check false CaseSmart ($"name=readme") (VStr ($"README")) = Ok true /\
  ex_check false CaseSmart ($"name=Readme") (VStr ($"README")) = Ok false /\
  ex_check false CaseSensitive ($"name:read") (VStr ($"README")) = Ok false /\
  ex_check false CaseIgnore ($"name:EAD") (VStr ($"readme")) = Ok true.
Proof. repeat split; vm_compute; reflexivity. Qed.
Example C11_example :
  ex_check false CaseSmart ($"type=p") (VStr ($"fifo")) = Ok true /\
  ex_check false CaseSmart ($"type=p") (VStr ($"file")) = Ok false /\
  ex_check false CaseSmart ($"type=F") (VStr ($"file")) = Err ExpressionError.
Proof. repeat split; vm_compute; reflexivity. Qed.
Example C12_example : boolean_text ($"YeS") true /\
  ex_check false CaseSmart ($"empty=YeS") (VBool true) = Ok true /\
  ex_check true CaseSmart ($"empty=maybe") (VBool true) = Err UsageError.
Proof.
  split; [|split; vm_compute; reflexivity].
  exists ($"yes"). split; [|constructor].
  constructor; [right; repeat split; discriminate|]. constructor; [now left|].
  constructor; [right; repeat split; discriminate|constructor].
Qed.
Example C13_example :
  ex_check false CaseSmart ($"members=b") (VList [$"a"; $"b"]) = Ok true /\
  ex_check false CaseSmart ($"members=c") (VList [$"a"; $"b"]) = Ok false.
Proof. repeat split; vm_compute; reflexivity. Qed.

(** C12 does not hold as installed: with -O every other string means false. *)
Theorem C12_strict_refuted : exists s a v at_,
  Writes s a ($"=") None v /\ resolves ex_plugins ex_init a at_ TBoolean /\ (~ exists b, boolean_text v b) /\
  exists test, ex_parse false CaseSmart s = Ok test /\ ex_run test ($"a") false (VBool false) = Ok true.
Proof.
  exists ($"empty=ture"), ($"empty"), ($"ture"), ($"file", $"empty"). split; [|split; [|split]].
  - apply (Writes_intro [] ($"empty") [] ($"=") ($"=") None [] [] ($"ture") []).
    + blanks_tac.
    + name_tac.
    + blanks_tac.
    + constructor.
    + constructor.
    + blanks_tac.
    + split; [discriminate|]. cbn. intuition discriminate.
    + blanks_tac.
    + exact I.
    + cbn. discriminate.
    + cbn. discriminate.
    + cbn. discriminate.
  - split; vm_compute; reflexivity.
  - intros [b H]. apply (boolean_text_iff unit (fun _ => Err ReError) (fun _ => Err ValueError) ex_init (fun _ _ => Err KeyErr)) in H. destruct b; vm_compute in H; intuition discriminate.
  - eexists. split; vm_compute; reflexivity.
Qed.
Print Assumptions C12_strict_refuted.

(** C09: the value of a list of clauses with the same "who", where = occurs at
    most in the first one and X not at all; for one clause nothing but the
    letter X is excluded. *)
Theorem C09_same_who_partial : forall c l,
  c_perms c <> [] -> ~ In PExecIf (c_perms c) ->
  (forall c', In c' l -> c_perms c' <> [] /\ ~ In PExecIf (c_perms c') /\ c_op c' <> MSet /\
              forall i, 0 <= i -> selected c' i = selected c i) ->
  exists z, parse_mode (clauses_text (c :: l)) = Ok z /\ forall i, 0 <= i -> Z.testbit z i = denotes (c :: l) i.
Proof. exact parse_mode_same. Qed.
Print Assumptions C09_same_who_partial.
Example C09_example :
  let c := Clause [WUser; WGroup] MSet [PRead; PWrite] in
  let d := Clause [WGroup; WUser] MRemove [PWrite] in
  clauses_text [c; d] = $"ug=rw,gu-w" /\ parse_mode ($"ug=rw,gu-w") = Ok 288 /\
  (c_perms d <> [] /\ ~ In PExecIf (c_perms d) /\ c_op d <> MSet /\
   forall i, 0 <= i -> selected d i = selected c i).
Proof.
  cbv zeta. split; [reflexivity|]. split; [vm_compute; reflexivity|]. split; [discriminate|].
  split; [intros [H|[]]; discriminate|]. split; [discriminate|]. intros i _.
  unfold selected. cbn [c_who existsb]. now rewrite !orb_false_r, orb_comm.
Qed.
(** An octal number denotes itself. *)
Theorem C09_octal : forall s, octal_digits s -> exists z, parse_mode s = Ok z /\
  forall i, Z.testbit z i = (i <? 12) && Z.testbit (octal_value s) i.
Proof.
  intros s H. eexists. split; [now apply parse_mode_octal|]. intros i. apply land_octal.
  destruct H as [_ H]. induction s as [|c s IH]; cbn [octal_value]; [lia|].
  assert (Hc := H c (or_introl eq_refl)). assert (0 <= octal_value s) by (apply IH; intros; apply H; now right).
  assert (0 < 8 ^ Z.of_nat (length s)) by (apply Z.pow_pos_nonneg; lia). nia.
Qed.
Print Assumptions C09_octal.
Example C09_octal_example : octal_digits ($"644") /\ octal_value ($"644") = 420 /\ parse_mode ($"644") = Ok 420.
Proof.
  split; [|split; [reflexivity|vm_compute; reflexivity]]. split; [discriminate|].
  intros c Hc. cbn in Hc. intuition (subst; lia).
Qed.
(** Clauses with different "who" get each other's permissions, u=rw,g=r
    means 660. *)
Theorem C09_refuted : exists l z i,
  (forall c, In c l -> c_perms c <> []) /\ parse_mode (clauses_text l) = Ok z /\ 0 <= i < 12 /\
  Z.testbit z i <> denotes l i.
Proof.
  exists [Clause [WUser] MSet [PRead; PWrite]; Clause [WGroup] MSet [PRead]], 432, 4.
  split; [intros c [<-|[<-|[]]]; discriminate|]. split; [vm_compute; reflexivity|]. split; [lia|].
  vm_compute. discriminate.
Qed.
Print Assumptions C09_refuted.
(** Text after a symbolic clause is ignored. *)
Theorem C09_junk_refuted : exists s z, parse_mode s = Ok z /\
  (~ exists l, s = clauses_text l) /\ ~ octal_digits s.
Proof.
  exists ($"u+x!"), 64. split; [vm_compute; reflexivity|]. split.
  - intros [l E]. assert (H : In 33%N (clauses_text l)) by (rewrite <- E; cbn; tauto).
    clear E. rewrite clauses_join in H.
    assert (G : forall c, ~ In 33%N (clause_text c)).
    { intros c. unfold clause_text. rewrite !in_app_iff. intros [Hc|[Hc|Hc]].
      - apply in_map_iff in Hc as (w & E & _). destruct w; discriminate.
      - destruct Hc as [Hc|[]]. destruct (c_op c); discriminate.
      - apply in_map_iff in Hc as (w & E & _). destruct w; discriminate. }
    induction l as [|c l IH]; [destruct H|]. cbn [map] in H. destruct l as [|c' l]; [now apply G in H|].
    change (join_with [44%N] (clause_text c :: map clause_text (c' :: l))) with
      (clause_text c ++ [44%N] ++ join_with [44%N] (map clause_text (c' :: l))) in H.
    rewrite !in_app_iff in H. destruct H as [H|[[H|[]]|H]]; [now apply G in H|discriminate|auto].
  - intros [_ H]. specialize (H 33%N). cbn in H. lia.
Qed.
Print Assumptions C09_junk_refuted.
