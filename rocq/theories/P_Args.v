(** Command line: C27-C32. *)
From Coq Require Import List NArith ZArith Bool Lia.
From Verif Require Import Py ConvertSpec ArgsModel ArgsSpec ArgsValueSpec ArgsProofs ArgsMoreProofs ArgsValueProofs ArgsTableProofs.
Import ListNotations.
Local Open Scope Z_scope.

Section Table.
Variable debug : bool.
Variable cpus : Z.
Variable cache color : str.
Notation options := (create_parser debug cpus cache color).
Notation parse_args := (parse_args cpus options).
Notation convert := (convert cpus).
Notation names := (names options).
Notation ok := (table_ok_create debug cpus cache color).

(** C27: parsing ends with values, which are the meaning of the arguments, or
    with an error.  (Fuel exhaustion would be [Err OutOfFuel].)
    [Reads] splits the arguments into items, every argument in one of them. *)
Theorem C27_total argv : (exists ns, parse_args argv = Ok ns) \/ parse_args argv = Err ArgumentErr \/ parse_args argv = Err ValueError.
Proof. exact (c27_total debug cpus cache color argv). Qed.
Theorem C27_sound argv ns : parse_args argv = Ok ns -> Means options convert argv ns.
Proof. exact (parse_sound cpus options ok argv ns). Qed.
Theorem C27_complete argv ns : Means options convert argv ns ->
  exists ns', parse_args argv = Ok ns' /\ forall d, ns' d = ns d.
Proof. exact (parse_complete cpus options ok argv ns). Qed.
Theorem C27_once argv items items' : Reads options argv items -> Reads options argv items' -> items = items'.
Proof. exact (c27_once debug cpus cache color argv items items'). Qed.

(** C28: -abc is -a -b -c, -ovalue is -o value, --option=value is
    --option value, after any other arguments. *)
Theorem C28_spelled pre items w ws post : Reads options pre items -> no_rest items -> Spelled options w ws ->
  parse_args (pre ++ w :: post) = parse_args (pre ++ ws ++ post).
Proof. exact (spelled_parse cpus options ok pre items w ws post). Qed.

(** C29: after arguments without a command, all that follows -x or -X is the
    command. *)
Theorem C29_command pre ns o w args : parse_args pre = Ok ns -> ns ($"exec") = ANone -> ns ($"exec_batch") = ANone ->
  names o w -> o_action o = StoreRemainder -> args <> [] ->
  exists ns', parse_args (pre ++ w :: args) = Ok ns' /\ ns' (o_dest o) = AStrs args /\
    forall d, d <> o_dest o -> ns' d = ns d.
Proof. exact (c29_command debug cpus cache color pre ns o w args). Qed.
Theorem C29_names : names (Opt [$"-x"; $"--exec"] StoreRemainder TStr ($"exec") ANone ANone) ($"-x") /\
  names (Opt [$"-x"; $"--exec"] StoreRemainder TStr ($"exec") ANone ANone) ($"--exec") /\
  names (Opt [$"-X"; $"--exec-batch"] StoreRemainder TStr ($"exec_batch") ANone ANone) ($"-X") /\
  names (Opt [$"-X"; $"--exec-batch"] StoreRemainder TStr ($"exec_batch") ANone ANone) ($"--exec-batch").
Proof. exact (c29_names debug cpus cache color). Qed.
Theorem C29_missing pre ns o w : parse_args pre = Ok ns -> ns ($"exec") = ANone -> ns ($"exec_batch") = ANone ->
  names o w -> o_action o = StoreRemainder -> parse_args (pre ++ [w]) = Err ArgumentErr.
Proof. exact (c29_missing debug cpus cache color pre ns o w). Qed.

(** C30: the last option decides; what is not mentioned has its default; lists
    collect all their values. *)
Theorem C30_last argv ns l1 i l2 d x : parse_args argv = Ok ns -> Reads options argv (l1 ++ i :: l2) ->
  Change options convert i d (Becomes x) -> untouched options convert d l2 -> ns d = x.
Proof. exact (parse_last cpus options ok argv ns l1 i l2 d x). Qed.
Theorem C30_default argv ns items o : parse_args argv = Ok ns -> Reads options argv items ->
  In o options -> (forall o', In o' options -> o_dest o' = o_dest o -> o' = o) ->
  untouched options convert (o_dest o) items -> ns (o_dest o) = o_default o.
Proof. exact (c30_default debug cpus cache color argv ns items o). Qed.
Theorem C30_collect argv ns items d k : parse_args argv = Ok ns -> Reads options argv items ->
  d = $"directories" \/ d = $"exclude" \/ d = $"tests" -> Collects options convert d items k -> ns d = AStrs k.
Proof. exact (c30_collect debug cpus cache color argv ns items d k). Qed.
(** The arguments from the environment and those of the command line are read
    one after the other if the former contain no command and the command line
    begins with an option or they do not end with a test or an option whose
    value is optional. *)
Theorem C30_environment_partial env items argv items' : Reads options env items -> no_rest items ->
  dash_first argv \/ closed items -> Reads options argv items' -> Reads options (env ++ argv) (items ++ items').
Proof. exact (c30_environment debug cpus cache color env items argv items'). Qed.
(** In general this is not so: an option with an optional value at the end of
    the environment takes the first argument of the command line. *)
Theorem C30_environment_refuted : exists env argv ns ns' ns'',
  parse_args env = Ok ns /\ parse_args argv = Ok ns' /\ parse_args (env ++ argv) = Ok ns'' /\
  ns' ($"tests") = AStrs argv /\ ns'' ($"tests") = AStrs [].
Proof.
  exists [$"-S"], [$"type=f"].
  destruct debug; (eexists _, _, _; split; [vm_compute; reflexivity|]; split; [vm_compute; reflexivity|];
    split; [vm_compute; reflexivity|]; split; vm_compute; reflexivity).
Qed.

(** C31: the texts accepted for -d, -l and -j. *)
Theorem C31_depth s l : convert TRanges s = Ok (ARanges l) <-> RangesText s l.
Proof. exact (c31_depth cpus s l). Qed.
Theorem C31_limit s a b : convert TSlice s = Ok (ASlice a b) <->
  exists t e, s = t ++ e /\ (e = [] \/ e = [NL]) /\ SliceText t (a, b).
Proof. exact (c31_limit cpus s a b). Qed.
(** Every error is a usage error, except for bad values of -j and -d. *)
Theorem C31_errors_partial argv e : parse_args argv = Err e ->
  e = ArgumentErr \/ (e = ValueError /\ BadValue options convert ValueError argv).
Proof. exact (parse_bad cpus options ok argv e). Qed.
Theorem C31_bad_types_partial t s : convert t s = Err ValueError -> t = TJobs \/ t = TRanges.
Proof. exact (c31_bad_types cpus t s). Qed.
(** These end in an exception that is not caught. *)
Theorem C31_jobs_refuted : parse_args [$"-j"; $"x"] = Err ValueError.
Proof. destruct debug; reflexivity. Qed.
Theorem C31_depth_refuted : parse_args [$"-d"; $"x"] = Err ValueError.
Proof. destruct debug; reflexivity. Qed.
(** The choices of --case (smart, ignore, sensitive), --halt (now, soon,
    never) and --color (auto, always, never) are not checked. *)
Theorem C31_choices_refuted v : exists ns1 ns2 ns3,
  parse_args [$"--case"; v] = Ok ns1 /\ ns1 ($"case") = AStr v /\
  parse_args [$"--halt"; v] = Ok ns2 /\ ns2 ($"halt") = AStr v /\
  parse_args [$"--color"; v] = Ok ns3 /\ ns3 ($"color") = AStr v.
Proof.
  destruct debug; eexists _, _, _; (split; [reflexivity|]; split; [reflexivity|]; split; [reflexivity|];
    split; [reflexivity|]; split; [reflexivity|reflexivity]).
Qed.

(** C32 *)
Theorem C32_jobs z : 1 <= cpus ->
  match type_jobs cpus (str_of_Z z) with
  | Ok n => 0 <= z /\ (z = 0 -> n = cpus) /\ (0 < z -> n = Z.min z cpus)
  | Err _ => z < 0
  end.
Proof. exact (c32_jobs cpus z). Qed.
Theorem C32_bounds s n : 1 <= cpus -> type_jobs cpus s = Ok n -> 1 <= n <= cpus.
Proof. exact (c32_bounds cpus s n). Qed.
(** The value reaches the program. *)
Theorem C32_option argv ns l1 o v l2 : parse_args argv = Ok ns -> Reads options argv (l1 ++ Value o v :: l2) ->
  o_dest o = $"jobs" -> untouched options convert ($"jobs") l2 ->
  exists n, ns ($"jobs") = ANum n /\ type_jobs cpus v = Ok n.
Proof. exact (c32_option debug cpus cache color argv ns l1 o v l2). Qed.
End Table.
Print Assumptions C27_total.
Print Assumptions C27_sound.
Print Assumptions C27_complete.
Print Assumptions C27_once.
Print Assumptions C28_spelled.
Print Assumptions C29_command.
Print Assumptions C29_names.
Print Assumptions C29_missing.
Print Assumptions C30_last.
Print Assumptions C30_default.
Print Assumptions C30_collect.
Print Assumptions C30_environment_partial.
Print Assumptions C30_environment_refuted.
Print Assumptions C31_depth.
Print Assumptions C31_limit.
Print Assumptions C31_errors_partial.
Print Assumptions C31_bad_types_partial.
Print Assumptions C31_jobs_refuted.
Print Assumptions C31_depth_refuted.
Print Assumptions C31_choices_refuted.
Print Assumptions C32_jobs.
Print Assumptions C32_bounds.
Print Assumptions C32_option.

(** Examples, for eight CPUs. *)
Definition ex_options := create_parser false 8 ($"c") ($"auto").
Definition ex_parse (argv : list str) (d : str) : option aval :=
  match parse_args 8 ex_options argv with Ok ns => Some (ns d) | Err _ => None end.
Example C27_example :
  let argv := [$"-Hj3"; $"--case=ignore"; $"type=f"; $"or"; $"-e"; $"name=x"; $"-S"; $"-x"; $"ls"; $"-l"; $"-j2"] in
  ex_parse argv ($"hide") = Some (ABool true) /\ ex_parse argv ($"jobs") = Some (ANum 3) /\
  ex_parse argv ($"case") = Some (AStr ($"ignore")) /\ ex_parse argv ($"tests") = Some (AStrs [$"type=f"; $"or"]) /\
  ex_parse argv ($"exclude") = Some (AStrs [$"name=x"]) /\ ex_parse argv ($"sort") = Some (AStrs [$"file.path"]) /\
  ex_parse argv ($"exec") = Some (AStrs [$"ls"; $"-l"; $"-j2"]) /\
  parse_args 8 ex_options [$"a"; $"-H"; $"b"] = Err ArgumentErr.
Proof. repeat split; vm_compute; reflexivity. Qed.
Example C27_reads : exists i1 i2, Reads ex_options [$"-Hj3"; $"a"; $"b"] [i1; i2; Args [$"a"; $"b"]] /\
  i1 = Flag (flag [$"-H"; $"--hide"] ($"hide")) /\ i2 = Value (store [$"-j"; $"--jobs"] TJobs ($"jobs") (ANum 8)) ($"3").
Proof.
  assert (G : forall o w, get_option ex_options w = Ok o -> names ex_options o w)
    by (intros; now apply (get_option_names 8 ex_options (table_ok_create _ _ _ _))).
  eexists _, _. split; [|split; reflexivity].
  eapply reads_spelled with (ws := [$"-H"; $"-j"; $"3"]).
  - apply (spelled_attached ex_options ($"H") (store [$"-j"; $"--jobs"] TJobs ($"jobs") (ANum 8)) 106%N ($"3")).
    + intros c [<-|[]]. exists (flag [$"-H"; $"--hide"] ($"hide")). split; [now apply G|].
      intros [H|[H|H]]; discriminate.
    + now apply G.
    + now left.
    + discriminate.
  - apply reads_flag; [now apply G|now left|]. apply reads_value; [now apply G|now left|].
    apply (reads_args ex_options [$"a"; $"b"] []); [discriminate| |exact I|constructor].
    intros a [<-|[<-|[]]] [t H]; discriminate.
Qed.
Example C28_example :
  ex_parse [$"type=f"; $"-HIRj2"; $"--case=ignore"] ($"jobs") = Some (ANum 2) /\
  parse_args 8 ex_options [$"type=f"; $"-HIRj2"; $"--case=ignore"] =
  parse_args 8 ex_options [$"type=f"; $"-H"; $"-I"; $"-R"; $"-j"; $"2"; $"--case"; $"ignore"].
Proof. split; vm_compute; reflexivity. Qed.
Example C29_example : ex_parse [$"type=f"; $"-H"; $"--exec"; $"--"; $"-x"; $"-D"; []] ($"exec") =
  Some (AStrs [$"--"; $"-x"; $"-D"; []]).
Proof. vm_compute. reflexivity. Qed.
Example C30_example :
  let argv := [$"-j2"; $"-e"; $"a"; $"--no-cache"; $"-D"; $"x"; $"-j4"; $"-e"; $"b"; $"--cache=k"; $"-D"; $"y"] in
  ex_parse argv ($"jobs") = Some (ANum 4) /\ ex_parse argv ($"cache") = Some (AStr ($"k")) /\
  ex_parse argv ($"exclude") = Some (AStrs [$"a"; $"b"]) /\ ex_parse argv ($"directories") = Some (AStrs [$"x"; $"y"]) /\
  ex_parse argv ($"case") = Some (AStr ($"smart")).
Proof. repeat split; vm_compute; reflexivity. Qed.
Example C31_example :
  convert 8 TRanges ($" 1 , 3-5,9-7, -2,4-") = Ok (ARanges [(1, Some 1); (3, Some 5); (7, Some 9); (0, Some 2); (4, None)]) /\
  convert 8 TSlice ($"-5:") = Ok (ASlice (-5) None) /\ convert 8 TSlice ($"10,2") = Ok (ASlice 20 (Some 30)) /\
  convert 8 TSlice ($"1-2") = Err ArgumentErr /\
  BadValue ex_options (convert 8) ValueError [$"-H"; $"-d"; $"1-2-3"].
Proof.
  assert (G : forall o w, get_option ex_options w = Ok o -> names ex_options o w)
    by (intros; now apply (get_option_names 8 ex_options (table_ok_create _ _ _ _))).
  do 4 (split; [vm_compute; reflexivity|]).
  apply bad_flag with (o := flag [$"-H"; $"--hide"] ($"hide")); [now apply G|now left|].
  apply bad_here with (o := store [$"-d"; $"--depth"] TRanges ($"depth") ANone); [now apply G|now left|reflexivity].
Qed.
Example C32_example : type_jobs 8 ($"3") = Ok 3 /\ type_jobs 8 ($"0") = Ok 8 /\ type_jobs 8 ($"99") = Ok 8 /\
  type_jobs 8 ($"-1") = Err ValueError.
Proof. repeat split; vm_compute; reflexivity. Qed.
