(** ff as a whole *)
From Coq Require Import List NArith ZArith Bool Lia Permutation.
From Verif Require Import Py ExprSpec GrammarSpec TypeSpec WalkModel WalkSpec.
From Verif Require Import EntryModel ArgsModel ArgsSpec ArgsProofs ArgsMoreProofs ArgsTableProofs ArgumentsModel ArgumentsSpec ArgumentsProofs DirectoryProofs TypeModel TestModel RegistryModel FieldModel TemplateModel TemplateSpec
  SortModel SortSpec CountModel CountSpec JsonModel ConsoleModel ConsoleSpec ConsoleProofs SearchModel SearchSpec SearchProofs SearchEndProofs OutputModel OutputSpec OutputProofs OutputRunProofs ActionModel ActionSpec ActionProofs
  PresentModel PresentSpec PresentProofs ShlexModel ShlexSpec ShlexProofs StartModel StartSpec StartProofs MainModel MainSpec.
Import ListNotations.

(** ** The settings *)
Lemma args_taken ns a : args_of ns = Some a <-> Taken ns a.
Proof.
  split.
  - unfold args_of. repeat match goal with |- obind ?x _ = Some a -> _ => let E := fresh "E" in destruct x eqn:E; cbn [obind]; [|discriminate] end.
    intros H. injection H as <-. unfold Taken. cbn [a_tests a_directories a_exclude a_depth a_ignore a_one_file_system a_hide a_json a_color a_absolute_path
      a_count a_limit a_sort a_output a_exec a_exec_batch a_profile].
    repeat match goal with
    | E : ?f (ns ?d) = Some ?x |- _ =>
        generalize dependent x; intros x E; destruct (ns d) eqn:?; try discriminate E; injection E as <-
    | E : maybe ?f (ns ?d) = Some ?x |- _ =>
        destruct (ns d) eqn:?; try discriminate E; injection E as <-
    end; cbn [if_given fst snd]; intuition auto.
  - destruct a as [t d e dp ig ofs hd js co ab cn li so ou ex xb pr]. unfold Taken, args_of.
    cbn [a_tests a_directories a_exclude a_depth a_ignore a_one_file_system a_hide a_json a_color a_absolute_path
      a_count a_limit a_sort a_output a_exec a_exec_batch a_profile].
    intros (-> & -> & -> & -> & -> & -> & -> & -> & -> & -> & -> & -> & -> & -> & -> & -> & P).
    destruct dp, js, cn, li as [[? ?]|], so, ex, xb, P as [->|[-> ->]]; reflexivity.
Qed.

Section Table.
Variable debug : bool.
Variable cpus : Z.
Variable cache color : str.
Notation options := (create_parser debug cpus cache color).
Notation parse_args := (parse_args cpus options).
Notation convert := (convert cpus).
Notation ok := (table_ok_create debug cpus cache color).
Hypothesis Hcpus : (1 <= cpus)%Z.

Definition some_jobs (x : aval) : Prop := exists n, x = ANum n /\ (1 <= n <= cpus)%Z.
Lemma jobs_option : forallb (fun o => if str_eqb (o_dest o) ($"jobs") then
  match o_action o, o_type o with Store, TJobs => true | _, _ => false end else true) options = true.
Proof. destruct debug; vm_compute; reflexivity. Qed.
Lemma change_jobs i c : item_ok options i -> Change options convert i ($"jobs") c ->
  exists x, c = Becomes x /\ some_jobs x.
Proof.
  intros K C. assert (A := jobs_option). rewrite forallb_forall in A. remember ($"jobs") as d eqn:D.
  destruct C as [o H|o H|o v H|o v x H V|o s x H V|o l|o l I H]; cbn [item_ok] in K.
  - destruct K as [I _]. specialize (A o I). rewrite D, str_eqb_refl, H in A. discriminate.
  - destruct K as [I _]. specialize (A o I). rewrite D, str_eqb_refl, H in A. discriminate.
  - destruct K as [I _]. specialize (A o I). rewrite D, str_eqb_refl, H in A. discriminate.
  - destruct K as [I _]. specialize (A o I). rewrite D, str_eqb_refl in A.
    destruct H as [H|H]; rewrite H in A; [|discriminate]. destruct (o_type o); try discriminate A.
    exists x. split; [reflexivity|]. cbn [ArgsModel.convert] in V. destruct (type_jobs cpus v) as [z|] eqn:T; [|discriminate]. cbn [bindr] in V. injection V as <-.
    exists z. split; [reflexivity|]. exact (c32_bounds cpus v z Hcpus T).
  - destruct K as [I H']. specialize (A o I). rewrite D, str_eqb_refl, H' in A. discriminate.
  - destruct K as (I & H & _). specialize (A o I). rewrite D, str_eqb_refl, H in A. discriminate.
  - specialize (A o I). rewrite D, str_eqb_refl, H in A. discriminate.
Qed.
Lemma parse_jobs argv ns : parse_args argv = Ok ns -> some_jobs (ns ($"jobs")).
Proof.
  intros H. apply (parse_leads cpus options ok) in H as (items & start & _ & HS & HL & Hok).
  assert (S : some_jobs (start ($"jobs"))).
  { rewrite (starts_unique cpus options ok start (initialize options) HS (initialize_starts options)). exists cpus. split; [destruct debug; reflexivity|lia]. }
  clear HS. induction HL as [ns ns' H|ns i items d' c ns1 ns' HC H1 H2 HL IH]; [rewrite H; exact S|].
  apply IH; [intros; apply Hok; now right|].
  destruct (str_eq_dec ($"jobs") d') as [<-|N]; [|rewrite H1 by exact N; exact S].
  destruct (change_jobs i c (Hok i (or_introl eq_refl)) HC) as (x & -> & J). rewrite H2. exact J.
Qed.
Lemma settings_ok argv ns : parse_args argv = Ok ns -> exists s, settings_of ns = Some s /\ Set_by ns s /\ (1 <= Z.of_nat (s_jobs s) <= cpus)%Z.
Proof.
  intros H. assert (F := parse_fits debug cpus cache color _ _ H). destruct (parse_jobs _ _ H) as (n & J & B). clear H.
  unfold settings_of, Set_by.
  repeat match goal with
  | |- exists s, obind (?f (ns ?d)) _ = Some s /\ _ =>
      let T := fresh in let y := fresh in let E := fresh "E" in
      assert (T : exists y, f (ns d) = Some y)
        by (generalize (F d); destruct (ns d); intro T; try (vm_compute in T; discriminate T); eexists; reflexivity);
      destruct T as [y E]; rewrite E; cbn [obind]
  end.
  eexists. split; [reflexivity|]. cbn [s_reverse s_all s_follow s_separator s_jobs s_halt].
  rewrite J in E3. cbn [num_of] in E3. injection E3 as <-.
  split; [|lia].
  destruct (ns ($"reverse")); try discriminate E. injection E as ->.
  destruct (ns ($"all")); try discriminate E0. injection E0 as ->.
  destruct (ns ($"follow_symlinks")); try discriminate E1. injection E1 as ->.
  destruct (ns ($"separator")); try discriminate E2. injection E2 as ->.
  destruct (ns ($"halt")) as [| |h| | | |]; try discriminate E4. injection E4 as ->.
  repeat (split; [reflexivity|]). split; [rewrite J; f_equal; lia|].
  eexists. split; [reflexivity|]. rewrite orb_true_iff, !str_eqb_eq. reflexivity.
Qed.
End Table.

(** ** The arguments *)
Definition changed (a : pargs) (output : list str) (sort : option (list str)) : pargs := set_sort (set_output a output) sort.
Lemma process_changed a output sort : process_arguments (changed a output sort) = changed (process_arguments a) output sort.
Proof.
  unfold process_arguments, changed. cbn [a_json set_sort set_output].
  destruct (a_json a) as [[|c j]|] eqn:J; cbv zeta; cbn [a_ignore set_json_output set_sort set_output a_one_file_system set_exclude a_hide a_depth].
  all: destruct (a_ignore a); cbn [a_one_file_system set_exclude a_hide a_depth set_json_output set_sort set_output].
  all: destruct (a_one_file_system a); cbn [a_hide a_depth set_exclude set_json_output set_sort set_output].
  all: destruct (a_hide a); cbn [a_depth set_exclude set_json_output set_sort set_output].
  all: destruct (a_depth a) as [[|r l]|]; unfold process_depth_argument; try destruct (all_stops (r :: l)); cbn [a_count set_tests set_exclude set_json_output set_sort set_output].
  all: destruct (a_count a) as [[|[|x y] [|z t]]|]; reflexivity.
Qed.
Lemma warnings_changed c : exists output sort, fst (collect_warnings c) = changed c output sort.
Proof.
  unfold collect_warnings. 
  assert (X : forall c : pargs, c = changed c (a_output c) (a_sort c)) by (intros []; reflexivity).
  destruct (_ && _); cbv beta iota; cbn [a_count set_output a_sort a_output];
    destruct (truthy (a_count c)); cbv beta iota; try destruct (truthy (a_sort c)); cbv beta iota; cbn [a_output set_sort set_output];
    try destruct (negb (strs_eqb _ _)); cbv beta iota; destruct (match a_limit _ with Some _ => _ | None => _ end); cbn [fst];
    first [eexists _, _; exact (X c) | exists (a_output c), None; reflexivity | exists default_output, None; reflexivity | exists default_output, (a_sort c); reflexivity].
Qed.
Lemma process_form isdir cwd debug a0 b w : ArgumentsModel.process isdir cwd debug a0 = Ok (b, w) -> exists a output sort,
  process_directories isdir cwd a0 = Ok a /\ b = process_arguments (changed a output sort).
Proof.
  unfold ArgumentsModel.process. destruct (process_directories isdir cwd a0) as [a|]; cbn [bindr]; [|discriminate].
  destruct (check_for_errors debug (process_arguments a)); cbn [bindr]; [|discriminate]. intros H. injection H as H.
  destruct (warnings_changed (process_arguments a)) as (o & s & E). rewrite H in E. cbn [fst] in E.
  exists a, o, s. split; [reflexivity|]. now rewrite process_changed.
Qed.

Section Main.
  Variable debug : bool.
  Variable cpus : Z.
  Variable cache color : str.
  Variable isdir : str -> bool.
  Variable cwd : str.
  Variable registered : list plugin.
  Variable init_plugin : str -> res unit.
  Variable R : Type.
  Variable rcompile : str -> res R.
  Variable rsearch : R -> str -> bool.
  Variable parse_time : str -> res Z.
  Variable reference_value : namespace -> str * str -> str -> res value.
  Variable terminal : bool.
  Variable ls_colors : str.
  Hypothesis Hcpus : (1 <= cpus)%Z.
  Notation parse_args := (parse_args cpus (create_parser debug cpus cache color)).
  Notation start := (StartModel.start debug cpus cache color shlex_split isdir cwd registered init_plugin R rcompile parse_time reference_value).
  Notation prepare := (prepare debug cpus cache color shlex_split isdir cwd registered init_plugin R rcompile parse_time reference_value terminal).
  Notation Means := (Means parse_args (process_directories isdir cwd)).

  (** What there is when the start succeeds *)
  Record ready (ff_options : option str) (argv : list str) (g : program) (a : pargs) (output : list str) (sort : option (list str)) : Prop := Ready {
    r_means : Means ff_options argv (g_ns g) a;
    r_args : g_args g = process_arguments (changed a output sort);
    r_fields : setup_fields registered init_plugin (g_args g) = Ok (g_output g, g_sort g);
    r_count : forall l, a_count (g_args g) = Some l -> count_fields registered init_plugin l = Ok (g_count g);
    r_exec : forall l, a_exec (g_args g) = Some l -> store registered init_plugin l = Ok (g_exec g);
    r_batch : forall l, a_exec_batch (g_args g) = Some l -> store_batch registered init_plugin l = Ok (g_batch g);
    r_settings : Set_by (g_ns g) (g_settings g);
    r_jobs : (1 <= Z.of_nat (s_jobs (g_settings g)) <= cpus)%Z;
    r_processing : exists a0, args_of (g_ns g) = Some a0 /\ process_directories isdir cwd a0 = Ok a /\
      start_processing isdir cwd debug terminal a0 = Ok (g_processing g)
  }.
  Lemma start_ready ff_options argv b output sort : start ff_options argv = Searches b output sort ->
    exists g a o so, prepare ff_options argv = Some g /\ g_args g = b /\ g_output g = output /\ g_sort g = sort /\ ready ff_options argv g a o so.
  Proof.
    intros H. assert (H' := H). unfold StartModel.start in H'. unfold MainModel.prepare. rewrite H. clear H.
    assert (G := given_collect ff_options argv).
    destruct (collect_arguments shlex_split ff_options argv) as [l|]; [|discriminate]. cbn [bindr].
    destruct (parse_args l) as [ns|e] eqn:P; [|destruct e; discriminate]. cbn [bindr].
    destruct (match ns ($"help") with AStr s => _ | _ => _ end); [discriminate|].
    destruct (args_of ns) as [a0|] eqn:A; [|discriminate].
    destruct (ArgumentsModel.process isdir cwd debug a0) as [[b' w]|e] eqn:Q; [|destruct e; discriminate].
    destruct (settings_ok debug cpus cache color Hcpus l ns P) as (s & Es & Ss & Js).
    destruct (process_form _ _ _ _ _ _ Q) as (a & o & so & Ed & Eb).
    unfold setup_components in H'.
    destruct (setup_fields registered init_plugin b') as [[out srt]|e] eqn:F; cbn [bindr] in H'; [|destruct (exitcode e) eqn:X; cbn [handled] in H'; rewrite X in H'; discriminate H'].
    destruct (optional_fields (count_fields registered init_plugin) (a_count b')) as [cf|e] eqn:C; cbn [bindr] in H'; [|destruct (exitcode e) eqn:X; cbn [handled] in H'; rewrite X in H'; discriminate H'].
    destruct (optional_fields (store registered init_plugin) (a_exec b')) as [ex|e] eqn:E; cbn [bindr] in H'; [|destruct (exitcode e) eqn:X; cbn [handled] in H'; rewrite X in H'; discriminate H'].
    destruct (optional_fields (store_batch registered init_plugin) (a_exec_batch b')) as [xb|e] eqn:B; cbn [bindr] in H'; [|destruct (exitcode e) eqn:X; cbn [handled] in H'; rewrite X in H'; discriminate H'].
    assert (Y : b' = b /\ out = output /\ srt = sort).
    { destruct (ns ($"action")); destruct (ns ($"help")); try discriminate H'; try (destruct (str_in _ _); discriminate H').
      destruct (setup_filters _ _ _ _ _ _ _ _ _) as [|e]; cbn [bindr] in H'; [|destruct (exitcode e) eqn:X; cbn [handled] in H'; rewrite X in H'; discriminate H'].
      cbn [handled] in H'. injection H' as -> -> ->. auto. }
    destruct Y as (<- & <- & <-). rewrite C, E, B. cbn [bindr]. cbv zeta. rewrite Es. cbn [option_map].
    eexists _, a, o, so. split; [reflexivity|]. cbn [g_args g_output g_sort]. repeat (split; [reflexivity|]).
    split; cbn [g_ns g_args g_output g_sort g_count g_exec g_batch g_settings g_processing]; auto.
    - exists l, a0. rewrite <- args_taken. auto.
    - intros k K. rewrite K in C. unfold optional_fields in C. destruct (count_fields registered init_plugin k); [|discriminate]. cbn [bindr] in C. now injection C as <-.
    - intros k K. rewrite K in E. unfold optional_fields in E. destruct (store registered init_plugin k); [|discriminate]. cbn [bindr] in E. now injection E as <-.
    - intros k K. rewrite K in B. unfold optional_fields in B. destruct (store_batch registered init_plugin k); [|discriminate]. cbn [bindr] in B. now injection B as <-.
    - exists a0. split; [exact A|]. split; [exact Ed|]. unfold start_processing. rewrite Q. reflexivity.
  Qed.
  Lemma prepare_ready ff_options argv g a : prepare ff_options argv = Some g -> Means ff_options argv (g_ns g) a ->
    exists o so, ready ff_options argv g a o so.
  Proof.
    intros H (l & a0 & G & P & A & D). apply args_taken in A. unfold MainModel.prepare in H. destruct (start ff_options argv) as [| |b o so] eqn:E; try discriminate.
    destruct (start_ready _ _ _ _ _ E) as (g' & a' & o' & so' & H' & _ & _ & _ & Y).
    assert (X : g' = g). { unfold MainModel.prepare in H'. rewrite E in H'. rewrite H in H'. now injection H' as ->. } subst g'.
    assert (X : a' = a).
    { destruct (r_means _ _ _ _ _ _ Y) as (l' & a0' & G' & P' & A' & D'). apply args_taken in A'. rewrite A in A'. injection A' as <-. rewrite D in D'. now injection D' as <-. }
    subst a'. eauto.
  Qed.

  (** ** How results are presented *)
  Lemma json_option : forallb (fun o => if str_eqb (o_dest o) ($"json") then
    match o_action o, o_const o with StoreConst, AStr s => str_eqb s ($"json") || str_eqb s ($"jsonl") | _, _ => false end else true)
    (create_parser debug cpus cache color) = true.
  Proof. destruct debug; vm_compute; reflexivity. Qed.
  Definition some_json (x : aval) : Prop := x = ANone \/ x = AStr ($"json") \/ x = AStr ($"jsonl").
  Lemma change_json i c : item_ok (create_parser debug cpus cache color) i -> Change (create_parser debug cpus cache color) (convert cpus) i ($"json") c ->
    exists x, c = Becomes x /\ some_json x.
  Proof.
    intros K C. assert (A := json_option). rewrite forallb_forall in A. remember ($"json") as d eqn:D.
    destruct C as [o H|o H|o v H|o v x H V|o s x H V|o l|o l I H]; cbn [item_ok] in K.
    - destruct K as [I _]. specialize (A o I). rewrite D, str_eqb_refl, H in A. discriminate.
    - destruct K as [I _]. specialize (A o I). rewrite D, str_eqb_refl, H in A. destruct (o_const o); try discriminate A.
      eexists. split; [reflexivity|]. apply orb_true_iff in A. rewrite !str_eqb_eq in A. right. destruct A as [->| ->]; auto.
    - destruct K as [I _]. specialize (A o I). rewrite D, str_eqb_refl, H in A. discriminate.
    - destruct K as [I _]. specialize (A o I). rewrite D, str_eqb_refl in A. destruct H as [H|H]; rewrite H in A; discriminate A.
    - destruct K as [I H']. specialize (A o I). rewrite D, str_eqb_refl, H' in A. discriminate.
    - destruct K as (I & H & _). specialize (A o I). rewrite D, str_eqb_refl, H in A. discriminate.
    - specialize (A o I). rewrite D, str_eqb_refl, H in A. discriminate.
  Qed.
  Lemma parse_json argv ns : parse_args argv = Ok ns -> some_json (ns ($"json")).
  Proof.
    intros H. apply (parse_leads cpus _ (table_ok_create debug cpus cache color)) in H as (items & start & _ & HS & HL & Hok).
    assert (S : some_json (start ($"json"))).
    { rewrite (starts_unique cpus _ (table_ok_create debug cpus cache color) start _ HS (initialize_starts _)). left. destruct debug; reflexivity. }
    clear HS. induction HL as [ns ns' H|ns i items d' c ns1 ns' HC H1 H2 HL IH]; [rewrite H; exact S|].
    apply IH; [intros; apply Hok; now right|].
    destruct (str_eq_dec ($"json") d') as [<-|N]; [|rewrite H1 by exact N; exact S].
    destruct (change_json i c (Hok i (or_introl eq_refl)) HC) as (x & -> & J). rewrite H2. exact J.
  Qed.
  Lemma args_json ns a0 : args_of ns = Some a0 -> some_json (ns ($"json")) -> json_known a0.
  Proof.
    unfold args_of. repeat match goal with |- obind ?x _ = Some a0 -> _ => let E := fresh "E" in destruct x eqn:E; cbn [obind]; [|discriminate] end.
    intros H J. injection H as <-. unfold json_known. cbn [a_json].
    destruct J as [J|[J|J]]; rewrite J in E6; cbn in E6; injection E6 as <-; auto.
  Qed.
  Lemma directories_look a0 a : process_directories isdir cwd a0 = Ok a ->
    a_json a = a_json a0 /\ a_color a = a_color a0 /\ a_limit a = a_limit a0 /\ a_exec a = a_exec a0 /\ a_exec_batch a = a_exec_batch a0 /\
    a_count a = a_count a0 /\ a_sort a = a_sort a0 /\ a_output a = a_output a0.
  Proof.
    intros H. apply process_detect in H. subst a. unfold detect. destruct (a_directories a0) eqn:Ed; [|rewrite Ed; auto 10]. cbv zeta.
    destruct (front_loop _ _ _ _) as [t1 d1]. destruct (back_loop _ _ _ _) as [t2 d2].
    cbn [a_directories set_directories]. destruct d2; cbn; auto 10.
  Qed.
  Lemma asked_same a a0 p : process_directories isdir cwd a0 = Ok a -> Asked a0 terminal p -> Asked a terminal p.
  Proof.
    intros H. apply directories_look in H. destruct H as (H1 & H2 & H3 & H4 & H5 & H6 & H7 & H8).
    assert (C : commands a <-> commands a0) by (unfold commands; now rewrite H4, H5).
    assert (C' : colours a terminal <-> colours a0 terminal) by (unfold colours; now rewrite H2).
    intros K.
    destruct K; [apply asked_commands|apply asked_statistics|apply asked_array|apply asked_objects|apply asked_colours|apply asked_lines];
      try (rewrite ?C, ?C', ?H6, ?H1; assumption).
  Qed.
  Lemma ready_presents ff_options argv g a o so : ready ff_options argv g a o so ->
    Asked a terminal (presents (g_processing g)) /\ (waits (g_processing g) <-> Waits a).
  Proof.
    intros Y. destruct (r_processing _ _ _ _ _ _ Y) as (a0 & A & D & P).
    assert (J : json_known a0).
    { destruct (r_means _ _ _ _ _ _ Y) as (l & a0' & _ & Pl & A' & _). exact (args_json _ _ A (parse_json _ _ Pl)). }
    split; [exact (asked_same _ _ _ D (start_presents _ _ _ _ _ _ J P))|].
    rewrite (start_waits _ _ _ _ _ _ J P). unfold Waits. destruct (directories_look _ _ D) as (-> & _ & -> & _ & -> & -> & -> & _). reflexivity.
  Qed.
End Main.
