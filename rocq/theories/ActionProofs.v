(** What a whole search runs and what the API yields. *)
From Coq Require Import List NArith ZArith Bool Lia Permutation.
From Verif Require Import Py PathSpec EntrySpec ExprSpec GrammarSpec TypeSpec WalkModel WalkSpec Re.
From Verif Require Import PathModel EntryModel EntryProofs TypeModel RegistryModel TestModel TestProofs FieldModel SortModel SortSpec TemplateModel TemplateSpec TemplateProofs PoolModel PoolSpec PoolProofs
  ConsoleModel ConsoleSpec ConsoleProofs ArgumentsModel ArgumentsSpec SearchModel SearchSpec SearchProofs SearchTreeProofs SearchEndProofs OutputModel OutputSpec OutputProofs OutputRunProofs ActionModel ActionSpec.
From Verif Require BatchModel BatchProofs.
Import ListNotations.
Local Open Scope Z_scope.

Section Search.
  Variable R : Type.
  Variable rcompile : str -> res R.
  Variable rsearch : R -> str -> bool.
  Variable parse_time : str -> res Z.
  Variable debug : bool.
  Variable case : case_mode.
  Variable registered : list plugin.
  Variable init_plugin : str -> res unit.
  Variable reference_value : str * str -> str -> res value.
  Variable score : test R -> Z.
  Variable other : entry -> str -> option value.
  Variable plugin_value : entry -> str * str -> option value.
  Variable cwd : str.
  Variable device : str -> Z.
  Variable listing : str -> list file.
  Variable human : ty -> Z -> str.
  Variable all : bool.
  Variable reverse : bool.
  Notation honest := (honest registered init_plugin other plugin_value).
  Notation sensible_args := (sensible_args R rcompile parse_time debug case registered init_plugin reference_value).
  Notation real_directories := (real_directories cwd listing).
  Notation Reported := (Reported R rcompile rsearch parse_time debug case registered init_plugin reference_value other plugin_value cwd device listing).
  Notation excluded a := (search_excluded R rcompile rsearch parse_time debug case registered init_plugin reference_value score other
    plugin_value (process_arguments a)).
  Notation matched a := (search_matched R rcompile rsearch parse_time debug case registered init_plugin reference_value score other
    plugin_value (process_arguments a)).
  Notation roots_of a := (search_roots cwd device listing (process_arguments a)).
  Notation get := (entry_value other plugin_value).
  Notation slot := (slot registered init_plugin).
  Notation holes_ok := (holes_ok registered init_plugin).
  Notation Expands := (Expands get human all slot).
  Notation Fails := (Fails get all slot).
  Notation Commands := (Commands get human all slot).
  Notation command := (command other plugin_value human all).
  Notation has_command := (has_command other plugin_value human all).

  Variable a : pargs.
  Variable ess : list (list bexp).
  Hypothesis Hhonest : honest.
  Hypothesis Hargs : sensible_args a ess.
  Hypothesis Hdirs : real_directories a.
  Hypothesis Hnodup : NoDup (map (start_path cwd (absolute_paths a)) (a_directories a)).

  Lemma path_slot : exists f, slot [] f.
  Proof.
    destruct Hhonest as (H1 & H2 & _). exists (Field ($"file", $"path") ($"file.path") TPath None None), ($"file.path"). split; [constructor|].
    unfold make_field.
    assert (X : match re_match field_re (strip ($"file.path")) with
                | Some (_, cs) => group 1 cs = Some ($"file.path") /\ group 2 cs = None /\ group 3 cs = None
                | None => False
                end) by (vm_compute; auto).
    destruct (re_match field_re (strip ($"file.path"))) as [[r cs]|]; [|destruct X]. destruct X as (-> & -> & ->).
    assert (E : setup_attribute registered init_plugin ($"file.path") = Ok ($"file", $"path")).
    { unfold setup_attribute, parse_attribute. change (split_dot ($"file.path")) with (Some ($"file", $"path")). cbn [bindr fst].
      pose proof (find_some _ _ H1) as [Hin _].
      assert (E2 : str_in ($"file") (map p_name registered) = true)
        by (apply str_in_iff; change ($"file") with (p_name file_plugin); now apply in_map).
      rewrite E2, H2. reflexivity. }
    rewrite E. cbn [bindr]. unfold get_attribute_type. cbn [fst snd]. rewrite H1. reflexivity.
  Qed.
  Lemma entry_typed : TemplateSpec.typed registered init_plugin get.
  Proof. intros e h f (name & _ & M). exact (make_typed registered init_plugin other plugin_value Hhonest name f e M). Qed.

  (** *** -x *)
  Section Exec.
    Variable ts : list str.
    Variable lits full : list (list piece).
    Hypothesis Hreads : Forall2 Reads ts lits.
    Hypothesis Hholes : Forall holes_ok lits.
    Hypothesis Hfull : with_path lits full.

    Lemma command_spec : exists fs, store registered init_plugin ts = Ok fs /\ forall e,
      (exists args, command fs e = Some args /\ Forall2 (Expands e) full args) \/ (command fs e = None /\ Exists (Fails e) full).
    Proof.
      destruct (exec_whole registered init_plugin get human all entry_typed path_slot ts lits full Hreads Hholes Hfull) as (fs & Es & H).
      exists fs. split; [exact Es|]. intros e. destruct (H e) as (H1 & H2 & [(args & E)|E]); unfold ActionModel.command; rewrite E.
      - left. exists args. split; [reflexivity|]. now apply H1.
      - right. split; [reflexivity|]. now apply H2.
    Qed.
    Lemma expands_exclusive e args : Forall2 (Expands e) full args -> Exists (Fails e) full -> False.
    Proof.
      clear. intros F E. induction F as [|l s ls ss H F IH]; inversion E as [? ? K|? ? K]; subst; [|exact (IH K)].
      exact (expands_fails registered init_plugin get human all e l s H K).
    Qed.
    Lemma executed jobs halt punctual timeout : (0 < jobs)%nat ->
      exists fs roots, store registered init_plugin ts = Ok fs /\ roots_of a = Ok roots /\ forall ls s,
      WalkModel.run entry (excluded a) (matched a) (has_command fs) Exec jobs halt true punctual timeout (initial entry jobs roots) ls s -> main_ s = MPassed ->
      exists cmds, NoDup (map fst (ran s)) /\
        (forall e, In e (map fst (ran s)) <-> Reported a ess e /\ ~ Exists (Fails e) full) /\
        map (command fs) (map fst (ran s)) = map Some cmds /\ Forall2 (fun e args => Forall2 (Expands e) full args) (map fst (ran s)) cmds.
    Proof.
      intros J. destruct command_spec as (fs & Es & Hc). exists fs.
      destruct (search_sound R rcompile rsearch parse_time debug case registered init_plugin reference_value score other plugin_value
        cwd device listing a ess Hhonest Hargs Hdirs (has_command fs) Exec jobs halt true punctual timeout) as (roots & Er & S).
      destruct (search_complete R rcompile rsearch parse_time debug case registered init_plugin reference_value score other plugin_value
        cwd device listing a ess Hhonest Hargs Hdirs (has_command fs) Exec jobs halt true punctual timeout J eq_refl) as (roots' & Er' & C); [discriminate|].
      rewrite Er in Er'. injection Er' as <-. exists roots. split; [exact Es|]. split; [exact Er|]. intros ls s Hr Hm.
      destruct (S ls s Hr) as [_ N]. specialize (N Hnodup). specialize (C ls s Hr Hm). cbn [results] in N, C.
      assert (C' : forall e, In e (map fst (ran s)) <-> Reported a ess e /\ ~ Exists (Fails e) full).
      { intros e. rewrite (C e). unfold processable, ActionModel.has_command. destruct (Hc e) as [(args & -> & F)|(-> & F)].
        - split; intros [H1 H2]; (split; [exact H1|]); [|reflexivity]. intros K. exact (expands_exclusive e args F K).
        - split; intros [H1 H2]; [discriminate|contradiction]. }
      assert (Q : forall l, (forall e, In e l -> ~ Exists (Fails e) full) ->
        exists cmds, map (command fs) l = map Some cmds /\ Forall2 (fun e args => Forall2 (Expands e) full args) l cmds).
      { induction l as [|e l IH]; intros H; [exists []; split; [reflexivity|constructor]|].
        destruct IH as (cmds & E & F); [intros x Hx; apply H; now right|].
        destruct (Hc e) as [(args & E1 & F1)|(_ & F1)]; [|exfalso; exact (H e (or_introl eq_refl) F1)].
        exists (args :: cmds). split; [cbn [map]; now rewrite E1, E|now constructor]. }
      destruct (Q (map fst (ran s))) as (cmds & E & F); [intros e He; now apply C' in He|].
      exists cmds. auto.
    Qed.
    Lemma commands_ok fs : (forall e,
      (exists args, command fs e = Some args /\ Forall2 (Expands e) full args) \/ (command fs e = None /\ Exists (Fails e) full)) ->
      forall l, Commands full l (commands (command fs) l).
    Proof.
      intros Hc. induction l as [|e l IH]; [constructor|]. unfold commands in *. cbn [flat_map].
      destruct (Hc e) as [(args & -> & F)|(-> & F)]; cbn [app]; now constructor.
    Qed.

    (** with --sort or --limit *)
    Variable fields : list field.
    Variable sort : option (list field).
    Hypothesis Hfields : setup_fields registered init_plugin (process_arguments a) = Ok (fields, sort).
    Lemma executed_after limit rendered jobs halt timeout : (0 < jobs)%nat ->
      (forall s f, sort = Some s -> In f s -> f_modifier f <> Some ($"v")) ->
      exists fs roots, store registered init_plugin ts = Ok fs /\ roots_of a = Ok roots /\ forall ls s,
      WalkModel.run entry (excluded a) (matched a) rendered Collect jobs halt true true timeout (initial entry jobs roots) ls s -> main_ s = MPassed ->
      exists found sorted part cmds, NoDup found /\ (forall e, In e found <-> Reported a ess e) /\
        Ordered get sort reverse found sorted /\ Limited limit sorted part /\ Commands full part cmds /\
        exec_entries other plugin_value sort reverse limit (results Collect s) = Ok part /\
        forall jobs' pls p, (0 < jobs')%nat -> ~ In PLStop pls -> prun (command fs) false (pinitial jobs' part) pls p -> pfinal p ->
          Permutation (map fst (pran p)) cmds.
    Proof.
      intros J V. destruct command_spec as (fs & Es & Hc). exists fs.
      destruct (collected R rcompile rsearch parse_time debug case registered init_plugin reference_value score other plugin_value cwd device listing
        Plain [] reverse a ess Hhonest Hargs Hdirs Hnodup (or_introl eq_refl) fields sort Hfields rendered jobs halt timeout J V) as (roots & Er & H).
      exists roots. split; [exact Es|]. split; [exact Er|]. intros ls s Hr Hm.
      destruct (H ls s Hr Hm) as (sorted & N & C & F & O).
      exists (results Collect s), sorted, (entries_range limit sorted), (commands (command fs) (entries_range limit sorted)).
      split; [exact N|]. split; [exact C|]. split; [exact O|]. split; [apply limited|]. split; [apply commands_ok, Hc|].
      split; [unfold exec_entries; now rewrite F|]. intros jobs' pls p J' L P Fp. exact (pool_once (command fs) false jobs' _ pls p J' eq_refl L P Fp).
    Qed.
  End Exec.

  (** *** -X *)
  Section Batch.
    Variable t : str.
    Variable ts : list str.
    Variable l : list piece.
    Variable s0 : str.
    Variable lits full : list (list piece).
    Hypothesis Hread : Reads t l.
    Hypothesis Hreads : Forall2 Reads ts lits.
    Hypothesis Hcommand : l = map PChar s0.
    Hypothesis Hholes : Forall holes_ok lits.
    Hypothesis Hfull : with_path (l :: lits) (l :: full).
    Variable fields : list field.
    Variable sort : option (list field).
    Hypothesis Hfields : setup_fields registered init_plugin (process_arguments a) = Ok (fields, sort).
    Notation Batch := (Batch get human all slot).
    Lemma batched limit os rendered jobs halt timeout : (0 < jobs)%nat ->
      (forall s f, sort = Some s -> In f s -> f_modifier f <> Some ($"v")) ->
      exists fs roots, store_batch registered init_plugin (t :: ts) = Ok fs /\ roots_of a = Ok roots /\ forall ls s,
      WalkModel.run entry (excluded a) (matched a) rendered Collect jobs halt true true timeout (initial entry jobs roots) ls s -> main_ s = MPassed ->
      exists found sorted part d rest, NoDup found /\ (forall e, In e found <-> Reported a ess e) /\
        Ordered get sort reverse found sorted /\ Limited limit sorted part /\
        exec_entries other plugin_value sort reverse limit (results Collect s) = Ok part /\
        batch_calls other plugin_value human all fs sort reverse limit os (results Collect s) = Ok d /\
        part = concat (map (fun c => fst (fst c)) (BatchModel.calls d)) ++ rest /\
        (forall k args status, In (k, args, status) (BatchModel.calls d) -> k <> [] /\
           exists outs, args = s0 :: concat outs /\ Forall2 (Batch k) full outs) /\
        (BatchModel.ended d = Ok tt \/ BatchModel.ended d = Err SubprocessErr /\ exists m args, os m args = BatchModel.Refused) /\
        (BatchModel.ended d = Ok tt -> rest <> [] -> exists x rest' m args, rest = x :: rest' /\
           render_batch get human all fs [x] = Ok args /\ os m args = BatchModel.TooLong) /\
        (BatchModel.bad_exit d = true <-> exists k args status, In (k, args, status) (BatchModel.calls d) /\ status <> 0).
    Proof.
      intros J V.
      destruct (batch_whole registered init_plugin get human all entry_typed path_slot t ts l lits s0 full Hread Hreads Hcommand Hholes Hfull) as (fs & Es & Hb).
      exists fs.
      destruct (collected R rcompile rsearch parse_time debug case registered init_plugin reference_value score other plugin_value cwd device listing
        Plain [] reverse a ess Hhonest Hargs Hdirs Hnodup (or_introl eq_refl) fields sort Hfields rendered jobs halt timeout J V) as (roots & Er & H).
      exists roots. split; [exact Es|]. split; [exact Er|]. intros ls s Hr Hm.
      destruct (H ls s Hr Hm) as (sorted & N & C & F & O).
      set (part := entries_range limit sorted).
      destruct (BatchProofs.finalize_passed (render_batch get human all fs) os part) as (P1 & rest & P2 & P3).
      set (d := BatchModel.finalize (render_batch get human all fs) os part) in *.
      exists (results Collect s), sorted, part, d, rest.
      split; [exact N|]. split; [exact C|]. split; [exact O|]. split; [apply limited|].
      split; [unfold exec_entries; now rewrite F|]. split; [unfold batch_calls; now rewrite F|]. split; [exact P2|].
      split; [|split; [|split]].
      - intros k args status Hk. destruct (P1 k args status Hk) as [K1 K2]. split; [exact K1|].
        destruct (Hb k) as (outs & E & Fo). rewrite E in K2. injection K2 as <-. exists outs. auto.
      - destruct (BatchModel.ended d) as [[]|e] eqn:Ee; [now left|right].
        assert (T : forall k, exists args, render_batch get human all fs k = Ok args) by (intros k; destruct (Hb k) as (outs & E & _); eauto).
        assert (U : e <> OutOfFuel).
        { intros ->. apply (BatchProofs.finalize_ends (render_batch get human all fs) os part); [|exact Ee].
          intros k K. destruct (T k) as (args & E). congruence. }
        destruct (BatchProofs.ended_errors _ os T _ _ _ _ e Ee U) as (-> & m & args & E). eauto.
      - intros Ee Hrest. destruct (P3 Ee) as [K|K]; [contradiction|exact K].
      - apply BatchProofs.exit_flag.
    Qed.
  End Batch.

  (** *** The API *)
  Variable link : entry -> str.
  Variable broken : entry -> bool.
  Notation cget := (fun c : centry => get (c_entry c)).
  Notation complete := (complete link broken).
  Section Find.
    Variable fields : list field.
    Variable sort : option (list field).
    Hypothesis Hfields : find_fields registered init_plugin (process_arguments a) = Ok (fields, sort).
    Lemma find_setup : setup_fields registered init_plugin (process_arguments a) = Ok (fields, sort) /\
      forall f, In f fields -> f_modifier f = None \/ f_modifier f = Some ($"n").
    Proof.
      unfold find_fields in Hfields. destruct (setup_fields registered init_plugin (process_arguments a)) as [x|]; [|discriminate]. cbn [bindr] in Hfields.
      destruct (forallb _ (fst x)) eqn:E; [|discriminate]. injection Hfields as ->. split; [reflexivity|]. cbn [fst] in E.
      intros f Hf. rewrite forallb_forall in E. specialize (E f Hf). destruct (f_modifier f) as [m|]; [|now left].
      apply str_eqb_eq in E. subst m. now right.
    Qed.
    Lemma records_ok entries : exists records,
      mapr (fun e => to_dict cget human fields (complete e)) entries = Ok records /\
      Forall2 (fun e r => IsRecord cget human (complete e) fields r) entries records.
    Proof.
      destruct find_setup as [Hs _].
      destruct (setup_output registered init_plugin a fields sort Hs) as (texts & Ht).
      induction entries as [|e l IH]; [exists []; split; [reflexivity|constructor]|].
      destruct IH as (rs & E & F). cbn [mapr].
      destruct (to_dict_ok cget human fields (complete e) (fields_good registered init_plugin other plugin_value Hhonest texts fields (complete e) Ht)) as (r & Er & Ir).
      exists (r :: rs). rewrite Er. cbn [bindr]. rewrite E. cbn [bindr]. split; [reflexivity|]. constructor; assumption.
    Qed.
    Lemma found_records rendered jobs halt timeout : (0 < jobs)%nat ->
      (forall s f, sort = Some s -> In f s -> f_modifier f <> Some ($"v")) ->
      exists roots, roots_of a = Ok roots /\ forall ls s,
      WalkModel.run entry (excluded a) (matched a) rendered Collect jobs halt true true timeout (initial entry jobs roots) ls s -> main_ s = MPassed ->
      exists found sorted records, NoDup found /\ (forall e, In e found <-> Reported a ess e) /\
        Ordered get (match sort with Some (_ :: _) => sort | _ => None end) reverse found sorted /\
        Forall2 (fun e r => IsRecord cget human (complete e) fields r) sorted records /\
        find_results other plugin_value human link broken fields sort reverse (results Collect s) = Ok records.
    Proof.
      intros J V. destruct find_setup as [Hs _].
      destruct (collected R rcompile rsearch parse_time debug case registered init_plugin reference_value score other plugin_value cwd device listing
        Plain [] reverse a ess Hhonest Hargs Hdirs Hnodup (or_introl eq_refl) fields sort Hs rendered jobs halt timeout J V) as (roots & Er & H).
      exists roots. split; [exact Er|]. intros ls s Hr Hm.
      destruct (H ls s Hr Hm) as (sorted & N & C & F & O). unfold find_results.
      assert (X : (exists f so, sort = Some (f :: so)) \/ match sort with Some (_ :: _) => sort | _ => None end = None).
      { clear. destruct sort as [[|f so]|]; [now right|left; eauto|now right]. }
      destruct X as [(f & so & X)|X].
      - destruct (records_ok sorted) as (rs & E & Fr). exists (results Collect s), sorted, rs.
        split; [exact N|]. split; [exact C|]. rewrite X in F, O |- *. split; [exact O|]. split; [exact Fr|]. rewrite F. exact E.
      - destruct (records_ok (results Collect s)) as (rs & E & Fr). exists (results Collect s), (results Collect s), rs.
        split; [exact N|]. split; [exact C|]. rewrite X. split; [reflexivity|]. split; [exact Fr|].
        assert (Y : match sort with Some (_ :: _) => finalize get sort reverse (results Collect s) | _ => Ok (results Collect s) end = Ok (results Collect s)).
        { clear -X. destruct sort as [[|f so]|]; [reflexivity|discriminate X|reflexivity]. }
        rewrite Y. exact E.
    Qed.
  End Find.
  Lemma find_refused x : setup_fields registered init_plugin (process_arguments a) = Ok x ->
    (exists f m, In f (fst x) /\ f_modifier f = Some m /\ m <> $"n") -> find_fields registered init_plugin (process_arguments a) = Err ValueError.
  Proof.
    intros E (f & m & Hf & Hm & Hn). unfold find_fields. rewrite E. cbn [bindr]. destruct (forallb _ (fst x)) eqn:B; [|reflexivity].
    exfalso. rewrite forallb_forall in B. specialize (B f Hf). rewrite Hm in B. apply Hn. now apply str_eqb_eq.
  Qed.
End Search.
