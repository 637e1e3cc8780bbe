(** C112: wrong arguments end ff with a message and an exit status *)
From Coq Require Import List NArith ZArith Bool.
From Verif Require Import Py ArgsModel ArgsSpec ArgumentsModel TypeModel RegistryModel GrammarSpec ShlexModel ShlexSpec StartModel StartSpec ArgsProofs ShlexProofs ExprProofs StartProofs.
Import ListNotations.

Section Start.
Variable debug : bool.
Variable cpus : Z.
Variable cache color : str.
Variable isdir : str -> bool.
Variable cwd : str.
Variable registered : list plugin.
Variable init_plugin : str -> res unit.
Variable R : Type.
Variable rcompile : str -> res R.
Variable parse_time : str -> res Z.
Variable reference_value : namespace -> str * str -> str -> res value.
(** Setting up a plugin raises only BadPluginError, re.compile only re.error *)
Hypothesis Hinit : forall p e, init_plugin p = Err e -> e = PluginErr.
Hypothesis Hre : forall s e, rcompile s = Err e -> e = ReError.
Notation options := (create_parser debug cpus cache color).
Notation parse_args := (parse_args cpus options).
Notation start := (start debug cpus cache color shlex_split isdir cwd registered init_plugin R rcompile parse_time reference_value).

(** The exit statuses: 2, 11 and 12 for errors of the user, 10 only if a plugin
    cannot be set up, 0 only if help or another action was asked for *)
Theorem C112_exits : forall ff_options argv c, start ff_options argv = Exits c ->
  (c = 2 \/ c = 11 \/ c = 12)%Z \/ (c = 10%Z /\ exists p, init_plugin p = Err PluginErr) \/
  (c = 0%Z /\ exists l ns, Given ff_options argv l /\ parse_args l = Ok ns /\ ~ (ns ($"action") = ANone /\ ns ($"help") = ANone)).
Proof.
  intros ff_options argv c H.
  generalize (start_cases debug cpus cache color isdir cwd registered init_plugin R rcompile parse_time reference_value Hinit Hre ff_options argv).
  rewrite H. exact (fun x => x).
Qed.
(** Full statement: never a traceback.  Missing, because it is false: FF_OPTIONS
    with an open quotation, a bad number for an option, an operator or a bracket
    as an exclusion, a test with a reference.  There are no other cases. *)
Theorem C112_traceback_partial : forall ff_options argv e, start ff_options argv = Traceback e ->
  (e = ValueError /\ exists s, ff_options = Some s /\ forall l, ~ Words s l) \/
  exists l, Given ff_options argv l /\
    ((e = ValueError /\ BadValue options (convert cpus) ValueError l) \/
     exists ns tests exclude, parse_args l = Ok ns /\ ns ($"tests") = AStrs tests /\ ns ($"exclude") = AStrs exclude /\
       ((e = ParserError /\ exists t, In t exclude /\ ~ is_test t) \/
        ((e = AttributeErr \/ e = TypeErr) /\ exists t, In t (tests ++ exclude) /\ refers t))).
Proof.
  intros ff_options argv e H.
  generalize (start_cases debug cpus cache color isdir cwd registered init_plugin R rcompile parse_time reference_value Hinit Hre ff_options argv).
  rewrite H. exact (fun x => x).
Qed.
(** Nothing is searched if help or another action was asked for *)
Theorem C112_search : forall ff_options argv a output sort, start ff_options argv = Searches a output sort ->
  exists l ns, Given ff_options argv l /\ parse_args l = Ok ns /\ ns ($"action") = ANone /\ ns ($"help") = ANone.
Proof.
  intros ff_options argv a output sort H.
  generalize (start_cases debug cpus cache color isdir cwd registered init_plugin R rcompile parse_time reference_value Hinit Hre ff_options argv).
  rewrite H. exact (fun x => x).
Qed.
(** A bad number and an open quotation, whatever else there is *)
Theorem C112_refuted : start None [$"-j"; $"x"] = Traceback ValueError /\ start (Some ($"it's")) [] = Traceback ValueError.
Proof. split; [destruct debug; vm_compute|]; reflexivity. Qed.
End Start.
Print Assumptions C112_exits.
Print Assumptions C112_traceback_partial.
Print Assumptions C112_search.
Print Assumptions C112_refuted.

Definition ex_registered : list plugin := [Plugin ($"file") [($"path", TPath); ($"name", TString); ($"tags", TListOfStrings); ($"hide", TBoolean)]].
Definition ex_start : option str -> list str -> ending :=
  start false 4%Z ($"c") ($"auto") shlex_split (fun _ => false) ($"/") ex_registered (fun _ => Ok tt)
    unit (fun s => if str_eqb s ($"(") then Err ReError else Ok tt) (fun _ => Err ValueError) (fun _ _ _ => Ok (VList [])).
(** An exclusion that is a bracket, a reference to a list *)
Theorem C112_refuted_expressions :
  ex_start None [$"-e"; $"("] = Traceback ParserError /\ ex_start None [$"tags:{}x"] = Traceback AttributeErr.
Proof. vm_compute. split; reflexivity. Qed.
Print Assumptions C112_refuted_expressions.

Example C112_example :
  ex_start None [$"("] = Exits 2 /\ ex_start None [$"--nonsense"] = Exits 2 /\ ex_start None [$"name~("] = Exits 12 /\
  ex_start None [$"colour=red"] = Exits 11 /\ ex_start (Some ($"-o colour")) [] = Exits 11 /\ ex_start None [$"--version"] = Exits 0 /\
  ex_start None [$"--count"; $"-x"; $"ls"] = Exits 2 /\
  (exists a output, ex_start (Some ($"-H -o name -S name")) [$"name~x"] = Searches a output (Some output) /\ a_exclude a = [$"hide=yes"]) /\
  ~ is_test ($"(") /\ refers ($"tags:{}x").
Proof.
  repeat (split; [vm_compute; reflexivity|]).
  split; [|split].
  - eexists _, _. split; [vm_compute; reflexivity|]. reflexivity.
  - intros (H & _). apply H. now left.
  - exists ($"tags"), ($":"), [], ($"x"). apply split_sound. vm_compute. reflexivity.
Qed.
