(** Properties C63, C64: attribute names and references. *)
From Coq Require Import List NArith ZArith Bool Permutation.
From Verif Require Import Py ExprSpec ExprProofs TypeModel TypeSpec TypeProofs RegistryModel RegistrySpec TestModel
  TestProofs RegistryProofs RefProofs.
Import ListNotations.

(** C63: a name without a dot. *)
Theorem C63_resolve : forall found n a, ~ In 46%N n ->
  parse_attribute (load_plugins found) n = Ok a <-> snd a = n /\ StandsFor found n (fst a).
Proof. exact resolve_spec. Qed.
Print Assumptions C63_resolve.
Theorem C63_error : forall found n e, ~ In 46%N n ->
  parse_attribute (load_plugins found) n = Err e -> e = BadAttributeError /\ ~ exists pl, StandsFor found n pl.
Proof. exact resolve_error. Qed.
Print Assumptions C63_error.
Example C63_example :
  let found := [Plugin ($"a") [($"x", TString); ($"size", TNumber)]; file_plugin; Plugin ($"b") [($"x", TString); ($"y", TString)]] in
  parse_attribute (load_plugins found) ($"y") = Ok ($"b", $"y") /\
  parse_attribute (load_plugins found) ($"x") = Err BadAttributeError /\
  parse_attribute (load_plugins found) ($"size") = Ok ($"file", $"size").
Proof. repeat split; vm_compute; reflexivity. Qed.

(** The order in which plugins are found does not matter if their names are
    different. *)
Theorem C63_order_partial : forall f g, NoDup (map p_name f) -> Permutation f g -> forall n, ~ In 46%N n ->
  parse_attribute (load_plugins f) n = parse_attribute (load_plugins g) n.
Proof. exact order_distinct. Qed.
Print Assumptions C63_order_partial.
(** With two plugins of the same name it does: the first one wins. *)
Theorem C63_order_refuted : exists f g n, Permutation f g /\ ~ In 46%N n /\
  parse_attribute (load_plugins f) n <> parse_attribute (load_plugins g) n.
Proof.
  exists [Plugin ($"a") [($"x", TString)]; Plugin ($"a") []], [Plugin ($"a") []; Plugin ($"a") [($"x", TString)]], ($"x").
  split; [apply perm_swap|]. split; [cbn; intuition discriminate|]. vm_compute. discriminate.
Qed.
Print Assumptions C63_order_refuted.

(** C64, for the types of ff itself. *)
Section References.
  Variable R : Type.
  Variable rcompile : str -> res R.
  Variable rsearch : R -> str -> bool.
  Variable parse_time : str -> res Z.
  Variable debug : bool.
  Variable case : case_mode.
  Variable registered : list plugin.
  Variable init_plugin : str -> res unit.
  Variable reference_value : str * str -> str -> res value.
  Notation parse := (parse_test R rcompile parse_time debug case registered init_plugin reference_value).
  Notation resolves := (resolves registered init_plugin).
  Notation refers := (refers registered init_plugin).

  Theorem C64_rejected : forall s a o r v at_ t ref rt, Writes s a o (Some r) v -> resolves a at_ t ->
    refers r at_ t ref rt -> ~ comparable t rt -> exists e, parse s = Err e /\ In e [ExpressionError; UsageError].
  Proof. exact (reference_rejected R rcompile parse_time debug case registered init_plugin reference_value). Qed.
  Theorem C64_number : forall s a o r v at_ t ref rt n, Writes s a o (Some r) v -> resolves a at_ t ->
    refers r at_ t ref rt -> In t [TNumber; TSize; TTime; TDuration] ->
    comparable t rt -> reference_value ref v = Ok (VInt n) -> In o [$"="; $"+="; $"-="; $"+"; $"-"] ->
    exists test, parse s = Ok test /\
      forall name dir k, exists b, run rsearch test name dir (VInt k) = Ok b /\ (b = true <-> Compare k n o).
  Proof. exact (reference_number R rcompile rsearch parse_time debug case registered init_plugin reference_value). Qed.
  Theorem C64_mode : forall s a o r v at_ ref rt n, Writes s a o (Some r) v -> resolves a at_ TMode ->
    refers r at_ TMode ref rt -> comparable TMode rt -> reference_value ref v = Ok (VInt n) ->
    In o [$"="; $":"; $"~"] ->
    exists test, parse s = Ok test /\
      forall name dir k, exists b, run rsearch test name dir (VInt k) = Ok b /\ (b = true <-> ModeTest k n o).
  Proof. exact (reference_mode R rcompile rsearch parse_time debug case registered init_plugin reference_value). Qed.
  Theorem C64_string : forall s a o r v at_ t ref rt x, Writes s a o (Some r) v -> resolves a at_ t ->
    refers r at_ t ref rt -> In t [TString; TPath] -> comparable t rt -> reference_value ref v = Ok (VStr x) ->
    In o [$"="; $":"] ->
    exists test, parse s = Ok test /\
      forall name dir y, exists b, run rsearch test name dir (VStr y) = Ok b /\
        (b = true <-> (if folds case x then StringTest (lower y) (lower x) o else StringTest y x o)).
  Proof. exact (reference_string R rcompile rsearch parse_time debug case registered init_plugin reference_value). Qed.
End References.
Print Assumptions C64_rejected.
Print Assumptions C64_number.
Print Assumptions C64_mode.
Print Assumptions C64_string.
Example C64_example :
  let parse v := parse_test unit (fun _ => Err ReError) (fun _ => Err ValueError) false CaseSmart
    (load_plugins [file_plugin]) (fun _ => Ok tt) (fun _ _ => Ok (VInt 5)) v in
  comparable TSize TNumber /\ ~ comparable TSize TString /\
  (exists test, parse ($"size+{depth}/a") = Ok test) /\ parse ($"size+{name}/a") = Err UsageError.
Proof.
  cbv zeta. split; [apply common_builtin; vm_compute; discriminate|].
  split; [intros H; apply common_builtin in H; vm_compute in H; auto|].
  split; [eexists|]; vm_compute; reflexivity.
Qed.

(** C64 for any classes, such as those of plugins, where everything a type
    derives from is related to the root: *)
Theorem C64_classes_partial : forall C eqb (eqb_eq : forall a b, eqb a b = true <-> a = b) bases root a b la lb,
  is_mro C bases a la -> is_mro C bases b lb -> derives C bases a root ->
  (forall c, derives C bases a c -> derives C bases c root \/ derives C bases root c) ->
  (common_super eqb root la lb <> None <->
   exists c, derives C bases c root /\ c <> root /\ derives C bases a c /\ derives C bases b c).
Proof. exact common_iff. Qed.
Print Assumptions C64_classes_partial.
Example C64_classes_example :
  is_mro class class_bases (CSub TPath) [CSub TPath; CSub TString; CType; CObject] /\
  common_super class_eqb CType [CSub TPath; CSub TString; CType; CObject] (full_mro TString) = Some (CSub TString).
Proof. split; [exact (full_is_mro TPath)|reflexivity]. Qed.

(** A class besides the types can make types comparable: a mixin that two
    types have as their first base class comes before the root. *)
Inductive ex_class := XObject | XType | XMixin | XA | XB.
Definition ex_bases (c : ex_class) : list ex_class :=
  match c with XObject => [] | XType | XMixin => [XObject] | XA | XB => [XMixin; XType] end.
Definition ex_eqb (a b : ex_class) : bool :=
  match a, b with XObject, XObject | XType, XType | XMixin, XMixin | XA, XA | XB, XB => true | _, _ => false end.
Definition ex_ancestors (c : ex_class) : list ex_class :=
  match c with
  | XObject => [XObject] | XType => [XType; XObject] | XMixin => [XMixin; XObject]
  | c => [c; XMixin; XType; XObject]
  end.
Lemma ex_derives c d : derives ex_class ex_bases c d <-> In d (ex_ancestors c).
Proof.
  split.
  - induction 1 as [c|c b d Hb H IH]; [destruct c; now left|].
    destruct c; cbn in Hb; intuition (subst; cbn in *; tauto).
  - assert (O : forall c, derives ex_class ex_bases c c) by (intros; constructor).
    assert (S : forall c b, In b (ex_bases c) -> derives ex_class ex_bases c b) by (intros; econstructor; eauto).
    assert (S2 : forall c b d, In b (ex_bases c) -> In d (ex_bases b) -> derives ex_class ex_bases c d)
      by (intros; econstructor; eauto).
    destruct c; cbn [ex_ancestors]; intros H; cbn in H; intuition subst; try apply O;
      try (apply S; cbn; tauto); apply (S2 _ XType); cbn; tauto.
Qed.
Theorem C64_classes_refuted : exists C eqb (eqb_eq : forall a b, eqb a b = true <-> a = b) bases root a b la lb,
  is_mro C bases a la /\ is_mro C bases b lb /\ derives C bases a root /\ derives C bases b root /\
  common_super eqb root la lb <> None /\
  ~ exists c, derives C bases c root /\ c <> root /\ derives C bases a c /\ derives C bases b c.
Proof.
  exists ex_class, ex_eqb.
  exists (fun a b => match a, b return ex_eqb a b = true <-> a = b with
    | XObject, XObject | XType, XType | XMixin, XMixin | XA, XA | XB, XB => conj (fun _ => eq_refl) (fun _ => eq_refl)
    | _, _ => ltac:(cbn; split; discriminate) end).
  exists ex_bases, XType, XA, XB, (ex_ancestors XA), (ex_ancestors XB).
  assert (M : forall c, c = XA \/ c = XB -> is_mro ex_class ex_bases c (ex_ancestors c)).
  { intros c Hc. split; [intros d; symmetry; apply ex_derives|].
    intros l1 d l2 E e He Hd. apply ex_derives in Hd.
    destruct Hc; subst c; cbn [ex_ancestors] in E;
      repeat (destruct l1 as [|? l1]; [injection E as <- <-; cbn in He, Hd; intuition (subst; discriminate)|
        injection E as <- E]); destruct l1; discriminate E. }
  split; [apply M; auto|]. split; [apply M; auto|].
  split; [apply ex_derives; cbn; tauto|]. split; [apply ex_derives; cbn; tauto|].
  split; [discriminate|]. intros (c & H1 & H2 & H3 & H4). rewrite ex_derives in *.
  destruct c; cbn in *; intuition discriminate.
Qed.
Print Assumptions C64_classes_refuted.
