(** The default of --color. *)
From Coq Require Import List NArith ZArith Bool Lia.
From Verif Require Import Py ArgsModel ArgsSpec ArgsProofs ArgsMoreProofs ArgsTableProofs ConsoleModel.
Import ListNotations.
Section NoColour.
  Variable debug : bool.
  Variable cpus : Z.
  Variable cache : str.
  Notation options := (create_parser debug cpus cache ($"never")).
  Notation parse_args := (parse_args cpus options).
  Definition colour_opt : opt := store [$"-C"; $"--color"] TStr ($"color") (AStr ($"never")).
  Lemma colour_in : In colour_opt options.
  Proof. unfold create_parser. repeat rewrite in_app_iff. destruct debug; cbn; tauto. Qed.
  Lemma colour_only o : In o options -> o_dest o = $"color" -> o = colour_opt.
  Proof.
    intros H K. destruct debug; cbn [create_parser app] in H;
      repeat (destruct H as [<-|H]; [try (discriminate K); reflexivity|]); destruct H.
  Qed.
  Lemma no_colour argv ns items o : parse_args argv = Ok ns -> Reads options argv items ->
    untouched options (convert cpus) ($"color") items -> ns ($"color") = AStr (o_colour o) -> console_class o <> ColorConsole.
  Proof.
    intros H R U E. assert (D := c30_default debug cpus cache ($"never") argv ns items colour_opt H R colour_in).
    specialize (D (fun o' I K => colour_only o' I K) U). change (ns ($"color") = AStr ($"never")) in D.
    assert (C : o_colour o = $"never") by congruence. clear - C.
    unfold console_class. rewrite C. destruct (o_count o); [discriminate|]. destruct (json_is o ($"json")); [discriminate|].
    destruct (json_is o ($"jsonl")); discriminate.
  Qed.
  (** For the example *)
  Lemma no_colour_example : exists ns items, parse_args [$"type=f"; $"-v"] = Ok ns /\ Reads options [$"type=f"; $"-v"] items /\
    untouched options (convert cpus) ($"color") items /\ ns ($"color") = AStr ($"never").
  Proof.
    assert (V : exists o, get_option options ($"-v") = Ok o /\ o_action o = StoreConst /\ o_dest o = $"output").
    { destruct debug; eexists; (split; [reflexivity|split; reflexivity]). }
    destruct V as (o & V1 & V2 & V3). apply (get_option_names cpus options (table_ok_create debug cpus cache ($"never"))) in V1.
    assert (P : exists ns, parse_args [$"type=f"; $"-v"] = Ok ns /\ ns ($"color") = AStr ($"never")).
    { destruct debug; eexists; (split; [reflexivity|reflexivity]). }
    destruct P as (ns & P1 & P2). exists ns, [Args [$"type=f"]; Flag o]. split; [exact P1|]. split; [|split; [|exact P2]].
    - apply (reads_args options [$"type=f"] [$"-v"]).
      + discriminate.
      + intros a [<-|[]] [b E]. discriminate E.
      + eexists. reflexivity.
      + apply reads_flag; [exact V1|now right|apply reads_nil].
    - intros i c HI K. remember ($"color") as d eqn:Ed. destruct HI as [<-|[<-|[]]].
      + inversion K as [| | | | | |o' l I A E1 E2]. 
        assert (C : o' = colour_opt) by (apply colour_only; [assumption|congruence]). rewrite C in A. discriminate A.
      + inversion K as [o' A E1 E2|o' A E1 E2| | | | |]; assert (X : $"output" = $"color") by congruence; discriminate X.
  Qed.
End NoColour.
