(** C111: every option sets what the manual says, and nothing else *)
From Coq Require Import List NArith ZArith Bool.
From Verif Require Import Py ArgsModel OptionSpec OptionProofs.
Import ListNotations.
Local Open Scope N_scope.

Section Table.
Variable debug : bool.
Variable cpus : Z.
Variable cache color : str.
Notation parse_args := (parse_args cpus (create_parser debug cpus cache color)).
Notation convert := (convert cpus).

Theorem C111_initial : forall d v, In (d, v) (initially cpus cache color) -> exists ns, parse_args [] = Ok ns /\ ns d = v.
Proof. exact (initial_value debug cpus cache color). Qed.
Theorem C111_switch : forall ws d v w pre ns, In (ws, (d, v)) switches -> In w ws -> parse_args pre = Ok ns -> no_cmd ns ->
  exists ns', parse_args (pre ++ [w]) = Ok ns' /\ only ns d v ns'.
Proof. exact (switch_sets debug cpus cache color). Qed.
Theorem C111_value : forall ws d t w x v pre ns, In (ws, (d, t)) settings -> In w ws -> parse_args pre = Ok ns -> no_cmd ns ->
  convert t x = Ok v -> exists ns', parse_args (pre ++ [w; x]) = Ok ns' /\ only ns d v ns'.
Proof. exact (setting_sets debug cpus cache color). Qed.
(** A value that cannot be converted is the end, whatever came before *)
Theorem C111_refused : forall ws d t w x e pre ns, In (ws, (d, t)) settings -> In w ws -> parse_args pre = Ok ns -> no_cmd ns ->
  convert t x = Err e -> parse_args (pre ++ [w; x]) = Err e.
Proof. exact (setting_refused debug cpus cache color). Qed.
Theorem C111_bare : forall ws d t v w pre ns, In (ws, (d, t, v)) optional -> In w ws -> parse_args pre = Ok ns -> no_cmd ns ->
  exists ns', parse_args (pre ++ [w]) = Ok ns' /\ only ns d v ns'.
Proof. exact (optional_bare debug cpus cache color). Qed.
Theorem C111_optional : forall ws d t v w x v' pre ns, In (ws, (d, t, v)) optional -> In w ws -> parse_args pre = Ok ns -> no_cmd ns ->
  no_dash x -> convert t x = Ok v' -> exists ns', parse_args (pre ++ [w; x]) = Ok ns' /\ only ns d v' ns'.
Proof. exact (optional_sets debug cpus cache color). Qed.
Theorem C111_several : forall ws d w x pre ns, In (ws, d) several -> In w ws -> parse_args pre = Ok ns -> no_cmd ns ->
  exists k ns', ns d = AStrs k /\ parse_args (pre ++ [w; x]) = Ok ns' /\ only ns d (AStrs (k ++ [x])) ns'.
Proof. exact (several_sets debug cpus cache color). Qed.
End Table.
Print Assumptions C111_initial.
Print Assumptions C111_switch.
Print Assumptions C111_value.
Print Assumptions C111_refused.
Print Assumptions C111_bare.
Print Assumptions C111_optional.
Print Assumptions C111_several.

(** -S after -H: both are set, and -e adds to the list *)
Example C111_example : exists ns ns',
  parse_args 4%Z (create_parser false 4%Z ($"c") ($"auto")) [$"-e"; $"hidden"; $"-H"; $"-S"; $"name"; $"-e"; $"x=1"] = Ok ns /\ no_cmd ns /\
  ns ($"hide") = on /\ ns ($"sort") = words [$"name"] /\ ns ($"exclude") = words [$"hidden"; $"x=1"] /\ ns ($"reverse") = off /\
  parse_args 4%Z (create_parser false 4%Z ($"c") ($"auto")) [$"-e"; $"hidden"; $"-H"; $"-S"; $"name"; $"-e"; $"x=1"; $"--ndjson"] = Ok ns' /\
  ns' ($"json") = text ($"jsonl").
Proof.
  unfold no_cmd. eexists _, _. split; [vm_compute; reflexivity|]. split; [split; vm_compute; reflexivity|].
  repeat (split; [vm_compute; reflexivity|]). vm_compute. reflexivity.
Qed.
