(** Property C109: tests look at the value of their attribute. *)
From Coq Require Import List NArith ZArith Bool.
From Verif Require Import Py ExprModel TypeModel RegistryModel TestModel SearchRuns TestValueProofs.
Import ListNotations.

Section Value.
  (** Whatever regular expressions, times, plugins and references are *)
  Variable R : Type.
  Variable rcompile : str -> res R.
  Variable rsearch : R -> str -> bool.
  Variable parse_time : str -> res Z.
  Variable debug : bool.
  Variable case : case_mode.
  Variable registered : list plugin.
  Variable init_plugin : str -> res unit.
  Variable reference_value : str * str -> str -> res value.
  Notation parse_test := (parse_test R rcompile parse_time debug case registered init_plugin reference_value).
  Notation run := (run rsearch).
  (** Two files for which the attribute has the same value get the same answer.
      Full statement: for all tests; missing: patterns without a slash for paths
      other than the name, for which it is false. *)
  Theorem C109_partial : forall a o s text t n1 n2 d v, split_test text = Some (a, o, None, s) -> parse_test text = Ok t ->
    (t_type t = TPath -> t_operator t = $"%" -> inner_slash s \/ n1 = n2) -> run t n1 d v = run t n2 d v.
  Proof. exact (test_value R rcompile rsearch parse_time debug case registered init_plugin reference_value). Qed.
  (** Whether they are directories does not matter for other tests. *)
  Theorem C109_plain : forall t n1 n2 d1 d2 v, ~ (t_type t = TPath /\ t_operator t = $"%") -> run t n1 d1 v = run t n2 d2 v.
  Proof. exact (run_plain R rsearch). Qed.
End Value.
Print Assumptions C109_partial.
Print Assumptions C109_plain.

Definition tests (s : str) : res (test str) := parse_test str ex_compile ex_time false CaseSmart ex_registered ex_init ex_reference s.
(** namex%a for the files a and a.py, whose names without extension are both a *)
Theorem C109_refuted : exists s t n1 n2 v, tests s = Ok t /\ run ex_re t n1 false v = Ok true /\ run ex_re t n2 false v = Ok false.
Proof.
  exists ($"namex%a"). eexists. exists ($"a"), ($"a.py"), (VStr ($"a")). split; [vm_compute; reflexivity|]. split; vm_compute; reflexivity.
Qed.
(** dir%src for the file src in the directory lib *)
Theorem C109_wrong_refuted : exists s t n v, tests s = Ok t /\ s = $"dir%src" /\ v = VStr ($"lib") /\ run ex_re t n false v = Ok true.
Proof.
  exists ($"dir%src"). eexists. exists ($"src"), (VStr ($"lib")). split; [vm_compute; reflexivity|]. split; [reflexivity|]. split; vm_compute; reflexivity.
Qed.
Print Assumptions C109_refuted.
Print Assumptions C109_wrong_refuted.
Example C109_example : exists t, tests ($"dir%src/*") = Ok t /\ split_test ($"dir%src/*") = Some ($"dir", $"%", None, $"src/*") /\ inner_slash ($"src/*") /\
  run ex_re t ($"x") false (VStr ($"src/a")) = Ok true /\ run ex_re t ($"x") false (VStr ($"lib/a")) = Ok false.
Proof.
  eexists. split; [vm_compute; reflexivity|]. split; [vm_compute; reflexivity|]. split; [exists ($"src"), ($"*"); split; [reflexivity|discriminate]|].
  split; vm_compute; reflexivity.
Qed.
