(** What ff prints, from the command line on *)
From Coq Require Import List NArith ZArith Bool Lia Permutation.
From Verif Require Import Py ExprSpec GrammarSpec TypeSpec WalkModel WalkSpec.
From Verif Require TestProofs.
From Verif Require Import EntryModel ArgsModel ArgsSpec ArgumentsModel ArgumentsSpec ArgumentsProofs TypeModel TestModel RegistryModel FieldModel TemplateModel TemplateSpec
  SortModel SortSpec CountModel CountSpec JsonModel ConsoleModel ConsoleSpec ConsoleProofs SearchModel SearchSpec SearchProofs SearchEndProofs OutputModel OutputSpec OutputProofs OutputRunProofs ActionModel ActionSpec ActionProofs
  PoolModel PoolSpec PoolProofs PresentModel PresentSpec PresentProofs ShlexModel StartModel StartSpec StartProofs MainModel MainSpec MainProofs.
Import ListNotations.

Section Main.
  Variable debug : bool.
  Variable cpus : Z.
  Variable cache color : str.
  Variable isdir : str -> bool.
  Variable cwd : str.
  Variable registered : list plugin.
  Variable init_plugin : str -> res unit.
  Variable R : Type.
  Variable rcompile : str -> res R.
  Variable rsearch : R -> str -> bool.
  Variable parse_time : str -> res Z.
  Variable reference_value : namespace -> str * str -> str -> res value.
  Variable terminal : bool.
  Variable ls_colors : str.
  Hypothesis Hcpus : (1 <= cpus)%Z.
  Variable score : test R -> Z.
  Variable other : entry -> str -> option value.
  Variable plugin_value : entry -> str * str -> option value.
  Variable device : str -> Z.
  Variable listing : str -> list file.
  Variable human : ty -> Z -> str.
  Variable link : entry -> str.
  Variable broken : entry -> bool.
  Notation parse_args := (parse_args cpus (create_parser debug cpus cache color)).
  Notation prepare := (prepare debug cpus cache color shlex_split isdir cwd registered init_plugin R rcompile parse_time reference_value terminal).
  Notation Means := (Means parse_args (process_directories isdir cwd)).
  Notation searched := (searched debug cwd registered init_plugin R rcompile rsearch parse_time reference_value ls_colors score other plugin_value device listing human link broken).
  Notation prints := (prints ls_colors other plugin_value human link broken).
  Notation get := (entry_value other plugin_value).
  Notation cget := (fun c : centry => get (c_entry c)).
  Notation complete := (complete link broken).
  Notation case ns := (case_of (ns ($"case"))).
  Notation Reported ns := (Reported R rcompile rsearch parse_time debug (case ns) registered init_plugin (reference_value ns) other plugin_value cwd device listing).
  Notation sensible ns a ess := (honest registered init_plugin other plugin_value /\ sensible_args R rcompile parse_time debug (case ns) registered init_plugin (reference_value ns) a ess /\
    real_directories cwd listing a /\ NoDup (map (start_path cwd (absolute_paths a)) (a_directories a))).
  Notation separator g := (field_separator (s_separator (g_settings g))).
  Notation all g := (s_all (g_settings g)).
  Notation sortable g := (forall s f, g_sort g = Some s -> In f s -> f_modifier f <> Some ($"v")).
  Notation rooted ns a ess := (forall e, Reported ns a ess e -> is_dir (complete e) = true \/ e_dir e <> [SLASH]).

  Lemma limit_same g a o so : g_args g = process_arguments (changed a o so) -> a_limit (g_args g) = a_limit a.
  Proof. intros ->. destruct (process_same (changed a o so)) as [H _]. destruct H as (H & _). exact H. Qed.
  Lemma opening ff_options argv g a : prepare ff_options argv = Some g -> Means ff_options argv (g_ns g) a ->
    exists o so, g_args g = process_arguments (changed a o so) /\
      setup_fields registered init_plugin (process_arguments (changed a o so)) = Ok (g_output g, g_sort g) /\
      (0 < s_jobs (g_settings g))%nat /\ Asked a terminal (presents (g_processing g)) /\ (waits (g_processing g) <-> Waits a) /\
      (forall l, a_count (g_args g) = Some l -> count_fields registered init_plugin l = Ok (g_count g)) /\
      (forall l, a_exec (g_args g) = Some l -> store registered init_plugin l = Ok (g_exec g)) /\
      (forall l, a_exec_batch (g_args g) = Some l -> store_batch registered init_plugin l = Ok (g_batch g)).
  Proof.
    intros P M.
    destruct (prepare_ready debug cpus cache color isdir cwd registered init_plugin R rcompile parse_time reference_value terminal Hcpus ff_options argv g a P M) as (o & so & Y).
    exists o, so. assert (X := ready_presents _ _ _ _ _ _ _ _ _ _ _ _ _ _ _ Y). destruct Y as [Y1 Y2 Y3 Y4 Y5 Y6 Y7 Y8 Y9].
    split; [exact Y2|]. split; [rewrite <- Y2; exact Y3|]. split; [lia|]. tauto.
  Qed.

  Notation start := (StartModel.start debug cpus cache color shlex_split isdir cwd registered init_plugin R rcompile parse_time reference_value).
  Lemma main_program ff_options argv b output sort : start ff_options argv = Searches b output sort ->
    exists g a, prepare ff_options argv = Some g /\ Means ff_options argv (g_ns g) a /\ g_args g = b /\ g_output g = output /\ g_sort g = sort /\
      Set_by (g_ns g) (g_settings g) /\ (1 <= Z.of_nat (s_jobs (g_settings g)) <= cpus)%Z /\
      Asked a terminal (presents (g_processing g)) /\ (waits (g_processing g) <-> Waits a).
  Proof.
    clear device listing score other plugin_value human link broken. intros H. destruct (start_ready debug cpus cache color isdir cwd registered init_plugin R rcompile parse_time reference_value terminal Hcpus _ _ _ _ _ H)
      as (g & a & o & so & P & E1 & E2 & E3 & Y).
    exists g, a. assert (X := ready_presents _ _ _ _ _ _ _ _ _ _ _ _ _ _ _ Y). destruct Y as [Y1 Y2 Y3 Y4 Y5 Y6 Y7 Y8 Y9]. tauto.
  Qed.

  (** Lines, after all results are known *)
  Lemma main_lines ff_options argv g a ess c timeout ls s : prepare ff_options argv = Some g -> Means ff_options argv (g_ns g) a ->
    sensible (g_ns g) a ess -> rooted (g_ns g) a ess -> sortable g -> Waits a ->
    Asked a terminal Lines /\ c = TextConsole \/ Asked a terminal Colours /\ c = ColorConsole /\ ls_colors <> [] ->
    searched g timeout ls s ->
    exists found sorted part lines, NoDup found /\ (forall e, In e found <-> Reported (g_ns g) a ess e) /\
      Ordered get (g_sort g) (s_reverse (g_settings g)) found sorted /\ Limited (a_limit a) sorted part /\
      prints g (results Collect s) = Ok (PLines lines) /\
      OutputSpec.Lines cget human (style_of ls_colors c) ls_colors (all g) (separator g) (g_output g) (map complete part) lines.
  Proof.
    intros P M (H1 & H2 & H3 & H4) Hroot V W K (roots & Er & Hr & Hm).
    destruct (opening _ _ _ _ P M) as (o & so & Eg & F & J & A & Wt & _). apply Wt in W.
    assert (Q : g_processing g = CollectiveConsole c).
    { assert (A' : presents (g_processing g) = match c with ColorConsole => Colours | _ => Lines end).
      { destruct K as [[K ->]|(K & -> & _)]; exact (asked_unique _ _ _ _ A K). }
      destruct W as [W|[c' W]]; rewrite W in A' |- *; [destruct K as [[_ ->]|(_ & -> & _)]; discriminate A'|].
      destruct K as [[_ ->]|(_ & -> & _)]; destruct c'; try discriminate A'; reflexivity. }
    assert (Hst : style_of ls_colors c = Plain \/ (ls_colors <> [] /\ style_of ls_colors c = Coloured (read_colours ls_colors))).
    { destruct K as [[_ ->]|(_ & -> & N)]; [now left|right; auto]. }
    destruct (printed R rcompile rsearch parse_time debug (case (g_ns g)) registered init_plugin (reference_value (g_ns g)) score other plugin_value cwd device listing
      human (style_of ls_colors c) ls_colors (s_follow (g_settings g)) (all g) (separator g) link broken (s_reverse (g_settings g)) (changed a o so) ess H1 H2 H3 H4 Hst Hroot (g_output g) (g_sort g) F
      (a_limit a) (useful ls_colors other plugin_value human link broken g) _ (s_halt (g_settings g)) timeout J V) as (roots' & Er' & X).
    rewrite Eg in Er, Hr. rewrite Er in Er'. injection Er' as <-. rewrite Q in Hr. cbn [mode_of] in Hr.
    destruct (X ls s Hr Hm) as (found & sorted & part & lines & N & C & O & L & E & Ls).
    exists found, sorted, part, lines. split; [exact N|]. split; [exact C|]. split; [exact O|]. split; [exact L|]. split; [|exact Ls].
    unfold MainModel.prints. rewrite Q, (limit_same _ _ _ _ Eg). cbv zeta. rewrite E. destruct K as [[_ ->]|(_ & -> & _)]; reflexivity.
  Qed.
  (** Lines as results come in *)
  Lemma main_immediately ff_options argv g a ess c timeout ls s : prepare ff_options argv = Some g -> Means ff_options argv (g_ns g) a ->
    sensible (g_ns g) a ess -> rooted (g_ns g) a ess -> ~ Waits a ->
    Asked a terminal Lines /\ c = TextConsole \/ Asked a terminal Colours /\ c = ColorConsole /\ ls_colors <> [] ->
    searched g timeout ls s ->
    exists lines, NoDup (results Console s) /\
      (forall e, In e (results Console s) <-> Reported (g_ns g) a ess e /\ ~ Suppressed cget (all g) (complete e) (g_output g)) /\
      prints g (results Console s) = Ok (PLines lines) /\ length lines = length (results Console s) /\
      OutputSpec.Lines cget human (style_of ls_colors c) ls_colors (all g) (separator g) (g_output g) (map complete (results Console s)) lines.
  Proof.
    intros P M (H1 & H2 & H3 & H4) Hroot W K (roots & Er & Hr & Hm).
    destruct (opening _ _ _ _ P M) as (o & so & Eg & F & J & A & Wt & _). rewrite <- Wt in W.
    assert (Q : g_processing g = ImmediateConsole c).
    { assert (A' : presents (g_processing g) = match c with ColorConsole => Colours | _ => Lines end).
      { destruct K as [[K ->]|(K & -> & _)]; exact (asked_unique _ _ _ _ A K). }
      destruct (g_processing g) as [|c'| |c'] eqn:G; try (exfalso; apply W; unfold waits; eauto; fail).
      - destruct K as [[_ ->]|(_ & -> & _)]; discriminate A'.
      - destruct K as [[_ ->]|(_ & -> & _)]; destruct c'; try discriminate A'; reflexivity. }
    assert (Hst : style_of ls_colors c = Plain \/ (ls_colors <> [] /\ style_of ls_colors c = Coloured (read_colours ls_colors))).
    { destruct K as [[_ ->]|(_ & -> & N)]; [now left|right; auto]. }
    destruct (printed_immediately R rcompile rsearch parse_time debug (case (g_ns g)) registered init_plugin (reference_value (g_ns g)) score other plugin_value cwd device listing
      human (style_of ls_colors c) ls_colors (s_follow (g_settings g)) (all g) (separator g) link broken (changed a o so) ess H1 H2 H3 H4 Hst Hroot (g_output g) (g_sort g) F
      _ (s_halt (g_settings g)) true timeout J) as (roots' & Er' & X).
    rewrite Eg in Er, Hr. rewrite Er in Er'. injection Er' as <-.
    assert (U : useful ls_colors other plugin_value human link broken g =
      has_line other plugin_value human (style_of ls_colors c) (s_follow (g_settings g)) (all g) (separator g) link broken (g_output g)).
    { unfold useful. rewrite Q. destruct K as [[_ ->]|(_ & -> & _)]; reflexivity. }
    rewrite U, Q in Hr. cbn [mode_of] in Hr.
    destruct (X ls s Hr Hm) as (lines & N & C & E & Le & Ls).
    exists lines. split; [exact N|]. split; [exact C|]. split; [|split; [exact Le|exact Ls]].
    unfold MainModel.prints. rewrite Q. cbv zeta. rewrite E. destruct K as [[_ ->]|(_ & -> & _)]; reflexivity.
  Qed.

  (** The results if they are collected first *)
  Lemma main_collected ff_options argv g a ess timeout ls s : prepare ff_options argv = Some g -> Means ff_options argv (g_ns g) a ->
    sensible (g_ns g) a ess -> sortable g -> Waits a -> searched g timeout ls s ->
    exists sorted, NoDup (results Collect s) /\ (forall e, In e (results Collect s) <-> Reported (g_ns g) a ess e) /\
      finalize get (g_sort g) (s_reverse (g_settings g)) (results Collect s) = Ok sorted /\
      Ordered get (g_sort g) (s_reverse (g_settings g)) (results Collect s) sorted.
  Proof.
    intros P M (H1 & H2 & H3 & H4) V W (roots & Er & Hr & Hm).
    destruct (opening _ _ _ _ P M) as (o & so & Eg & F & J & A & Wt & _). apply Wt in W.
    destruct (collected R rcompile rsearch parse_time debug (case (g_ns g)) registered init_plugin (reference_value (g_ns g)) score other plugin_value cwd device listing
      Plain [] (s_reverse (g_settings g)) (changed a o so) ess H1 H2 H3 H4 (or_introl eq_refl) (g_output g) (g_sort g) F
      (useful ls_colors other plugin_value human link broken g) _ (s_halt (g_settings g)) timeout J V) as (roots' & Er' & X).
    rewrite Eg in Er, Hr. rewrite Er in Er'. injection Er' as <-.
    assert (Q : mode_of (g_processing g) = Collect) by (destruct W as [->|[c ->]]; reflexivity). rewrite Q in Hr.
    exact (X ls s Hr Hm).
  Qed.
  Lemma good_records ff_options argv g a : prepare ff_options argv = Some g -> Means ff_options argv (g_ns g) a ->
    honest registered init_plugin other plugin_value -> forall e, good_fields cget (complete e) (g_output g).
  Proof.
    intros P M H e. destruct (opening _ _ _ _ P M) as (o & so & Eg & F & _).
    destruct (setup_output registered init_plugin (changed a o so) (g_output g) (g_sort g) F) as (texts & Ht).
    exact (fields_good registered init_plugin other plugin_value H texts (g_output g) _ Ht).
  Qed.
  (** --json *)
  Lemma main_json ff_options argv g a ess timeout ls s : prepare ff_options argv = Some g -> Means ff_options argv (g_ns g) a ->
    sensible (g_ns g) a ess -> sortable g -> Asked a terminal Array -> searched g timeout ls s ->
    exists found sorted part records, NoDup found /\ (forall e, In e found <-> Reported (g_ns g) a ess e) /\
      Ordered get (g_sort g) (s_reverse (g_settings g)) found sorted /\ Limited (a_limit a) sorted part /\
      Forall2 (fun e r => IsRecord cget human (complete e) (g_output g) r) part records /\
      prints g (results Collect s) = Ok (PText ($"[" ++ join_with ($",") (map dumps records) ++ $"]" ++ [10%N])).
  Proof.
    intros P M S V K Hs.
    assert (W : Waits a) by (inversion K; unfold Waits; auto 10).
    destruct (main_collected _ _ _ _ _ _ _ _ P M S V W Hs) as (sorted & N & C & Fi & O).
    destruct (opening _ _ _ _ P M) as (o & so & Eg & F & J & A & Wt & _). apply Wt in W.
    assert (Q : g_processing g = CollectiveConsole JsonConsole).
    { assert (A' := asked_unique _ _ _ _ A K). destruct W as [W|[c' W]]; rewrite W in A' |- *; [discriminate A'|].
      destruct c'; try discriminate A'; reflexivity. }
    exists (results Collect s), sorted, (entries_range (a_limit a) sorted).
    destruct (json_whole cget human (g_output g) (map complete (entries_range (a_limit a) sorted))) as (records & F2 & E & _).
    { intros e He. apply in_map_iff in He as (x & <- & _). exact (good_records _ _ _ _ P M (proj1 S) x). }
    exists records. split; [exact N|]. split; [exact C|]. split; [exact O|]. split; [apply OutputProofs.limited|]. split.
    - clear -F2. revert records F2. induction (entries_range (a_limit a) sorted) as [|e l IH]; intros records F2; cbn [map] in F2; inversion F2; subst; constructor; auto.
    - unfold MainModel.prints. rewrite Q, (limit_same _ _ _ _ Eg). cbv zeta. unfold print_json. rewrite Fi. cbn [bindr]. rewrite E. reflexivity.
  Qed.
  (** --jsonl *)
  Lemma jsonl_lines_ok ff_options argv g a l : prepare ff_options argv = Some g -> Means ff_options argv (g_ns g) a ->
    honest registered init_plugin other plugin_value ->
    exists records, Forall2 (fun e r => IsRecord cget human (complete e) (g_output g) r) l records /\
      jsonl_lines other plugin_value human link broken g l = Ok (map (fun r => dumps r ++ [10%N]) records).
  Proof.
    intros P M H. unfold jsonl_lines. induction l as [|e l (records & F & E)]; [exists []; split; [constructor|reflexivity]|].
    destruct (jsonl_whole cget human (g_output g) (complete e) (good_records _ _ _ _ P M H e)) as (r & I & Er & _).
    exists (r :: records). split; [now constructor|]. cbn [mapr map]. rewrite Er. cbn [bindr]. rewrite E. reflexivity.
  Qed.
  Lemma main_jsonl ff_options argv g a ess timeout ls s : prepare ff_options argv = Some g -> Means ff_options argv (g_ns g) a ->
    sensible (g_ns g) a ess -> sortable g -> Waits a -> Asked a terminal Objects -> searched g timeout ls s ->
    exists found sorted part records, NoDup found /\ (forall e, In e found <-> Reported (g_ns g) a ess e) /\
      Ordered get (g_sort g) (s_reverse (g_settings g)) found sorted /\ Limited (a_limit a) sorted part /\
      Forall2 (fun e r => IsRecord cget human (complete e) (g_output g) r) part records /\
      prints g (results Collect s) = Ok (PLines (map (fun r => dumps r ++ [10%N]) records)).
  Proof.
    intros P M S V W K Hs.
    destruct (main_collected _ _ _ _ _ _ _ _ P M S V W Hs) as (sorted & N & C & Fi & O).
    destruct (opening _ _ _ _ P M) as (o & so & Eg & F & J & A & Wt & _). apply Wt in W.
    assert (Q : g_processing g = CollectiveConsole JsonlConsole).
    { assert (A' := asked_unique _ _ _ _ A K). destruct W as [W|[c' W]]; rewrite W in A' |- *; [discriminate A'|].
      destruct c'; try discriminate A'; reflexivity. }
    exists (results Collect s), sorted, (entries_range (a_limit a) sorted).
    destruct (jsonl_lines_ok _ _ _ _ (entries_range (a_limit a) sorted) P M (proj1 S)) as (records & F2 & E).
    exists records. split; [exact N|]. split; [exact C|]. split; [exact O|]. split; [apply OutputProofs.limited|]. split; [exact F2|].
    unfold MainModel.prints. rewrite Q, (limit_same _ _ _ _ Eg). cbv zeta. rewrite Fi. cbn [bindr]. rewrite E. reflexivity.
  Qed.
  Lemma main_jsonl_immediately ff_options argv g a ess timeout ls s : prepare ff_options argv = Some g -> Means ff_options argv (g_ns g) a ->
    sensible (g_ns g) a ess -> ~ Waits a -> Asked a terminal Objects -> searched g timeout ls s ->
    exists records, NoDup (results Console s) /\ (forall e, In e (results Console s) <-> Reported (g_ns g) a ess e) /\
      Forall2 (fun e r => IsRecord cget human (complete e) (g_output g) r) (results Console s) records /\
      prints g (results Console s) = Ok (PLines (map (fun r => dumps r ++ [10%N]) records)).
  Proof.
    intros P M (H1 & H2 & H3 & H4) W K (roots & Er & Hr & Hm).
    destruct (opening _ _ _ _ P M) as (o & so & Eg & F & J & A & Wt & _). rewrite <- Wt in W.
    assert (Q : g_processing g = ImmediateConsole JsonlConsole).
    { assert (A' := asked_unique _ _ _ _ A K). destruct (g_processing g) as [|c'| |c'] eqn:G; try (exfalso; apply W; unfold waits; eauto; fail); try discriminate A'.
      destruct c'; try discriminate A'; reflexivity. }
    assert (U : forall e, useful ls_colors other plugin_value human link broken g e = true) by (intros e; unfold useful; now rewrite Q).
    destruct (search_sound R rcompile rsearch parse_time debug (case (g_ns g)) registered init_plugin (reference_value (g_ns g)) score other plugin_value
      cwd device listing (changed a o so) ess H1 H2 H3 (useful ls_colors other plugin_value human link broken g) Console (s_jobs (g_settings g)) (s_halt (g_settings g)) true true timeout) as (roots' & Er' & S).
    destruct (search_complete R rcompile rsearch parse_time debug (case (g_ns g)) registered init_plugin (reference_value (g_ns g)) score other plugin_value
      cwd device listing (changed a o so) ess H1 H2 H3 (useful ls_colors other plugin_value human link broken g) Console (s_jobs (g_settings g)) (s_halt (g_settings g)) true true timeout J eq_refl) as (roots'' & Er'' & C); [discriminate|].
    rewrite Eg in Er, Hr. rewrite Er in Er', Er''. injection Er' as <-. injection Er'' as <-. rewrite Q in Hr. cbn [mode_of] in Hr.
    destruct (S ls s Hr) as [_ N]. specialize (N H4). specialize (C ls s Hr Hm).
    destruct (jsonl_lines_ok _ _ _ _ (results Console s) P M H1) as (records & F2 & E).
    exists records. split; [exact N|]. split; [|split; [exact F2|]].
    - intros e. rewrite (C e). unfold processable. rewrite U. split; [intros [X _]; exact X|intros X; split; [exact X|reflexivity]].
    - unfold MainModel.prints. rewrite Q. cbv zeta. rewrite E. reflexivity.
  Qed.
  (** --count *)
  Lemma main_count ff_options argv g a ess timeout ls s : prepare ff_options argv = Some g -> Means ff_options argv (g_ns g) a ->
    sensible (g_ns g) a ess -> Asked a terminal Statistics ->
    NoDup (map ident (g_count g)) -> NoDup ($"_total" :: map f_alias (g_count g)) ->
    (forall f, In f (g_count g) -> f_modifier f = Some ($"h") -> f_type f <> TMode /\ f_type f <> TTime) -> searched g timeout ls s ->
    exists found, NoDup found /\ (forall e, In e found <-> Reported (g_ns g) a ess e) /\
      match a_json a with
      | None => forall lines, prints g (results Collect s) = Ok (PCount (AsLines lines)) -> forall line, In line lines <-> Line get human (g_count g) found line
      | Some _ => exists d, prints g (results Collect s) = Ok (PCount (AsJson d)) /\ NoDup (map fst d) /\
          (forall n x, In (n, x) d -> Item get human (g_count g) found n x) /\
          (forall n x, Item get human (g_count g) found n x -> exists y, In (n, y) d)
      end.
  Proof.
    intros P M (H1 & H2 & H3 & H4) K N1 N2 Hh (roots & Er & Hr & Hm).
    destruct (opening _ _ _ _ P M) as (o & so & Eg & F & J & A & Wt & Hc & _).
    assert (W : waits (g_processing g)) by (apply Wt; inversion K; unfold Waits; auto).
    assert (Q : g_processing g = CollectiveConsole NullConsole).
    { assert (A' := asked_unique _ _ _ _ A K). destruct W as [W|[c' W]]; rewrite W in A' |- *; [discriminate A'|].
      destruct c'; try discriminate A'; reflexivity. }
    assert (Gc : given (a_count (process_arguments (changed a o so)))).
    { apply (proj2 (process_same (changed a o so))). inversion K; assumption. }
    assert (Gj : a_json (process_arguments (changed a o so)) = a_json a) by (exact (proj1 (arguments_look (changed a o so)))).
    rewrite Eg in Hc. destruct (a_count (process_arguments (changed a o so))) as [l|] eqn:El; [|destruct Gc as (y0 & k0 & G0); discriminate G0].
    destruct (counted R rcompile rsearch parse_time debug (case (g_ns g)) registered init_plugin (reference_value (g_ns g)) score other plugin_value cwd device listing
      human Plain [] (changed a o so) ess H1 H2 H3 H4 (or_introl eq_refl) (g_count g) (useful ls_colors other plugin_value human link broken g)
      _ (s_halt (g_settings g)) timeout J) as (roots' & Er' & X); [rewrite El; exact (Hc l eq_refl)|exact N1|exact N2|exact Hh|].
    rewrite Eg in Er, Hr. rewrite Er in Er'. injection Er' as <-. rewrite Q in Hr. cbn [mode_of] in Hr.
    destruct (X ls s [results Collect s] Hr Hm ltac:(cbn; apply app_nil_r)) as (found & N & C & L1 & (d & E & L2)).
    exists found. split; [exact N|]. split; [exact C|].
    unfold MainModel.prints. rewrite Q, Eg, Gj. cbv zeta. destruct (a_json a).
    - exists d. rewrite E. split; [reflexivity|exact L2].
    - intros lines. destruct (count_output human get (g_count g) false [results Collect s]) as [x|] eqn:Ex; [|discriminate].
      cbn [bindr]. intros H. injection H as ->. exact (L1 lines eq_refl).
  Qed.
  (** -x *)
  Lemma main_exec ff_options argv g a ess ts templates full timeout ls s : prepare ff_options argv = Some g -> Means ff_options argv (g_ns g) a ->
    sensible (g_ns g) a ess -> ~ Waits a -> a_exec a = Some ts -> ts <> [] ->
    Forall2 Reads ts templates -> Forall (holes_ok registered init_plugin) templates -> with_path templates full -> searched g timeout ls s ->
    exists cmds, NoDup (map fst (ran s)) /\
      (forall e, In e (map fst (ran s)) <-> Reported (g_ns g) a ess e /\ ~ Exists (Fails get (all g) (slot registered init_plugin) e) full) /\
      map (command other plugin_value human (all g) (g_exec g)) (map fst (ran s)) = map Some cmds /\
      Forall2 (fun e args => Forall2 (Expands get human (all g) (slot registered init_plugin) e) full args) (map fst (ran s)) cmds.
  Proof.
    intros P M (H1 & H2 & H3 & H4) W Ex Ne T1 T2 T3 (roots & Er & Hr & Hm).
    destruct (opening _ _ _ _ P M) as (o & so & Eg & F & J & A & Wt & _ & He & _). rewrite <- Wt in W.
    assert (K : Asked a terminal Commands).
    { apply asked_commands. left. unfold given. rewrite Ex. destruct ts; [now destruct Ne|eauto]. }
    assert (Q : g_processing g = ImmediateExec).
    { assert (A' := asked_unique _ _ _ _ A K). destruct (g_processing g) as [|c'| |c'] eqn:G; try reflexivity; try (exfalso; apply W; unfold waits; eauto; fail).
      destruct c'; discriminate A'. }
    assert (Ge : a_exec (g_args g) = Some ts).
    { rewrite Eg. destruct (process_same (changed a o so)) as [(_ & X & _) _]. rewrite X. exact Ex. }
    specialize (He ts Ge).
    destruct (executed R rcompile rsearch parse_time debug (case (g_ns g)) registered init_plugin (reference_value (g_ns g)) score other plugin_value cwd device listing
      human (all g) (changed a o so) ess H1 H2 H3 H4 ts templates full T1 T2 T3 _ (s_halt (g_settings g)) true timeout J) as (fs & roots' & Es & Er' & X).
    rewrite He in Es. injection Es as <-. rewrite Eg in Er, Hr. rewrite Er in Er'. injection Er' as <-.
    assert (U : useful ls_colors other plugin_value human link broken g = has_command other plugin_value human (all g) (g_exec g)).
    { unfold useful. rewrite Q. reflexivity. }
    rewrite U, Q in Hr. exact (X ls s Hr Hm).
  Qed.
  Notation executes := (executes other plugin_value human).
  Lemma collective_exec ff_options argv g a : prepare ff_options argv = Some g -> Means ff_options argv (g_ns g) a ->
    Asked a terminal Commands -> Waits a -> g_processing g = CollectiveExec.
  Proof.
    intros P M K W. destruct (opening _ _ _ _ P M) as (o & so & Eg & F & J & A & Wt & _). apply Wt in W.
    assert (A' := asked_unique _ _ _ _ A K). destruct W as [W|[c' W]]; [exact W|]. rewrite W in A'. destruct c'; discriminate A'.
  Qed.
  (** -x after all results are known *)
  Lemma main_exec_after ff_options argv g a ess ts templates full os timeout ls s : prepare ff_options argv = Some g -> Means ff_options argv (g_ns g) a ->
    sensible (g_ns g) a ess -> sortable g -> Waits a -> a_exec a = Some ts -> ts <> [] ->
    Forall2 Reads ts templates -> Forall (holes_ok registered init_plugin) templates -> with_path templates full -> searched g timeout ls s ->
    exists found sorted part cmds, NoDup found /\ (forall e, In e found <-> Reported (g_ns g) a ess e) /\
      Ordered get (g_sort g) (s_reverse (g_settings g)) found sorted /\ Limited (a_limit a) sorted part /\
      ActionSpec.Commands get human (all g) (slot registered init_plugin) full part cmds /\
      executes g os (results Collect s) = Ok (match part with [] => RNothing | _ :: _ => RPool part end) /\
      forall pls p, prun (command other plugin_value human (all g) (g_exec g)) (s_halt (g_settings g)) (pinitial (s_jobs (g_settings g)) part) pls p ->
        (exists others, Permutation cmds (map fst (pran p) ++ others)) /\
        (s_halt (g_settings g) = false -> ~ In PLStop pls -> pfinal p -> Permutation (map fst (pran p)) cmds).
  Proof.
    intros P M S V W Ex Ne T1 T2 T3 Hs.
    destruct (main_collected _ _ _ _ _ _ _ _ P M S V W Hs) as (sorted & N & C & Fi & O).
    assert (Q : g_processing g = CollectiveExec).
    { apply (collective_exec _ _ _ _ P M); [|exact W]. apply asked_commands. left. unfold given. rewrite Ex. destruct ts; [now destruct Ne|eauto]. }
    destruct (opening _ _ _ _ P M) as (o & so & Eg & F & J & A & Wt & _ & He & _).
    assert (Ge : a_exec (g_args g) = Some ts).
    { rewrite Eg. destruct (process_same (changed a o so)) as [(_ & X & _) _]. rewrite X. exact Ex. }
    specialize (He ts Ge). destruct S as (H1 & H2 & H3 & H4).
    destruct (command_spec registered init_plugin other plugin_value human (all g) H1 ts templates full T1 T2 T3) as (fs & Es & Hc).
    rewrite He in Es. injection Es as <-.
    set (part := entries_range (a_limit a) sorted).
    exists (results Collect s), sorted, part, (PoolSpec.commands (command other plugin_value human (all g) (g_exec g)) part).
    split; [exact N|]. split; [exact C|]. split; [exact O|]. split; [apply OutputProofs.limited|].
    split; [exact (commands_ok registered init_plugin other plugin_value human (all g) full (g_exec g) Hc part)|].
    split.
    - unfold MainModel.executes. rewrite Q, (limit_same _ _ _ _ Eg). cbv zeta. unfold exec_entries. rewrite Fi. cbn [bindr]. fold part.
      rewrite Ge. destruct part; reflexivity.
    - intros pls p R'. split; [exact (pool_subset _ _ _ _ _ _ R')|]. intros Hh L Fp. exact (pool_once _ _ _ _ _ _ J Hh L R' Fp).
  Qed.
  (** -X *)
  Lemma main_batch ff_options argv g a ess t ts l s0 templates full os timeout ls s : prepare ff_options argv = Some g -> Means ff_options argv (g_ns g) a ->
    sensible (g_ns g) a ess -> sortable g -> a_exec a = None -> a_exec_batch a = Some (t :: ts) ->
    Reads t l -> Forall2 Reads ts templates -> l = map PChar s0 -> Forall (holes_ok registered init_plugin) templates -> with_path (l :: templates) (l :: full) ->
    searched g timeout ls s ->
    exists found sorted part d rest, NoDup found /\ (forall e, In e found <-> Reported (g_ns g) a ess e) /\
      Ordered get (g_sort g) (s_reverse (g_settings g)) found sorted /\ Limited (a_limit a) sorted part /\
      executes g os (results Collect s) = Ok (match part with [] => RNothing | _ :: _ => RCalls d end) /\
      part = concat (map (fun c => fst (fst c)) (BatchModel.calls d)) ++ rest /\
      (forall k args status, In (k, args, status) (BatchModel.calls d) -> k <> [] /\
         exists outs, args = s0 :: concat outs /\ Forall2 (Batch get human (all g) (slot registered init_plugin) k) full outs) /\
      (BatchModel.ended d = Ok tt \/ BatchModel.ended d = Err SubprocessErr /\ exists m args, os m args = BatchModel.Refused) /\
      (BatchModel.ended d = Ok tt -> rest <> [] -> exists x rest' m args, rest = x :: rest' /\
         render_batch get human (all g) (g_batch g) [x] = Ok args /\ os m args = BatchModel.TooLong) /\
      (BatchModel.bad_exit d = true <-> exists k args status, In (k, args, status) (BatchModel.calls d) /\ status <> 0%Z).
  Proof.
    intros P M S V Ex0 Ex T0 T1 T2 T3 T4 Hs.
    assert (W : Waits a) by (unfold Waits, given; rewrite Ex; eauto 10).
    assert (Q : g_processing g = CollectiveExec).
    { apply (collective_exec _ _ _ _ P M); [|exact W]. apply asked_commands. right. unfold given. rewrite Ex. eauto. }
    destruct (main_collected _ _ _ _ _ _ _ _ P M S V W Hs) as (sorted0 & _ & _ & Fi & _).
    destruct Hs as (roots & Er & Hr & Hm).
    destruct (opening _ _ _ _ P M) as (o & so & Eg & F & J & A & Wt & _ & _ & He).
    assert (Ge0 : a_exec (g_args g) = None).
    { rewrite Eg. destruct (process_same (changed a o so)) as [(_ & X & _) _]. rewrite X. exact Ex0. }
    assert (Ge : a_exec_batch (g_args g) = Some (t :: ts)).
    { rewrite Eg. destruct (process_same (changed a o so)) as [(_ & _ & X & _) _]. rewrite X. exact Ex. }
    specialize (He _ Ge). destruct S as (H1 & H2 & H3 & H4).
    destruct (batched R rcompile rsearch parse_time debug (case (g_ns g)) registered init_plugin (reference_value (g_ns g)) score other plugin_value cwd device listing
      human (all g) (s_reverse (g_settings g)) (changed a o so) ess H1 H2 H3 H4 t ts l s0 templates full T0 T1 T2 T3 T4 (g_output g) (g_sort g) F (a_limit a) os
      (useful ls_colors other plugin_value human link broken g) _ (s_halt (g_settings g)) timeout J V) as (fs & roots' & Es & Er' & X).
    rewrite He in Es. injection Es as <-. rewrite Eg in Er, Hr. rewrite Er in Er'. injection Er' as <-. rewrite Q in Hr. cbn [mode_of] in Hr.
    destruct (X ls s Hr Hm) as (found & sorted & part & d & rest & N & C & O & L & Ee & Eb & Rest).
    exists found, sorted, part, d, rest. split; [exact N|]. split; [exact C|]. split; [exact O|]. split; [exact L|]. split; [|exact Rest].
    unfold batch_calls in Eb. unfold exec_entries in Ee. rewrite Fi in Ee, Eb. cbn [bindr] in Ee, Eb. injection Ee as Ee. injection Eb as Eb.
    unfold MainModel.executes. rewrite Q, (limit_same _ _ _ _ Eg). cbv zeta. unfold exec_entries. rewrite Fi. cbn [bindr]. rewrite Ge0, Ge, Ee.
    rewrite Ee in Eb. destruct part as [|e part]; [reflexivity|]. rewrite Eb. reflexivity.
  Qed.
End Main.

(** ** --case *)
Lemma case_end R rcompile (rsearch : R -> str -> bool) parse_time debug registered init_plugin reference_value (ns : namespace) s a o v at_ t :
  Writes s a o None v -> TestProofs.resolves registered init_plugin a at_ t -> In t [TString; TPath] -> In o [$"="; $":"] ->
  exists test, parse_test R rcompile parse_time debug (case_of (ns ($"case"))) registered init_plugin reference_value s = Ok test /\
    forall name dir x, exists b, run rsearch test name dir (VStr x) = Ok b /\
      (ns ($"case") = AStr ($"sensitive") -> (b = true <-> StringTest x v o)) /\
      (ns ($"case") = AStr ($"ignore") -> (b = true <-> StringTest (lower x) (lower v) o)) /\
      (ns ($"case") = AStr ($"smart") -> (exists c, In c v /\ upper_case c) -> (b = true <-> StringTest x v o)) /\
      (ns ($"case") = AStr ($"smart") -> (forall c, In c v -> ~ upper_case c) -> (b = true <-> StringTest (lower x) (lower v) o)).
Proof.
  intros W H Ht Ho.
  destruct (TestProofs.string_end R rcompile rsearch parse_time debug (case_of (ns ($"case"))) registered init_plugin reference_value s a o v at_ t W H Ht Ho) as (test & E & F).
  exists test. split; [exact E|]. intros name dir x. destruct (F name dir x) as (b & Eb & B). exists b. split; [exact Eb|].
  split; [|split; [|split]]; intros C; rewrite C in B; cbn [case_of] in B.
  - change (str_eqb ($"sensitive") ($"smart")) with false in B. change (str_eqb ($"sensitive") ($"ignore")) with false in B. exact B.
  - change (str_eqb ($"ignore") ($"smart")) with false in B. change (str_eqb ($"ignore") ($"ignore")) with true in B. exact B.
  - intros (c & Hc & Hu). change (str_eqb ($"smart") ($"smart")) with true in B. cbn [TestProofs.folds] in B.
    destruct (str_eqb v (lower v)) eqn:X; [|exact B]. apply str_eqb_eq in X. exfalso. exact (proj1 (TestProofs.lower_same v) X c Hc Hu).
  - intros Hn. change (str_eqb ($"smart") ($"smart")) with true in B. cbn [TestProofs.folds] in B.
    destruct (str_eqb v (lower v)) eqn:X; [exact B|]. apply str_eqb_neq in X. exfalso. apply X. now apply TestProofs.lower_same.
Qed.
