(** What a whole search prints. *)
From Coq Require Import List NArith ZArith Bool Lia Permutation.
From Verif Require Import Py PathSpec EntrySpec ExprSpec GrammarSpec TypeSpec WalkModel WalkSpec.
From Verif Require Import PathModel EntryModel EntryProofs TypeModel RegistryModel TestModel FieldModel SortModel SortSpec SortProofs SortRunProofs NaturalProofs
  CountModel CountSpec CountProofs CountSumProofs CountLinesProofs JsonModel ConsoleModel ConsoleSpec ConsoleProofs ArgumentsModel ArgumentsSpec ArgumentsProofs SearchModel SearchSpec SearchProofs SearchTreeProofs SearchEndProofs OutputModel OutputSpec OutputProofs.
Import ListNotations.
Local Open Scope Z_scope.

Section Search.
  Variable R : Type.
  Variable rcompile : str -> res R.
  Variable rsearch : R -> str -> bool.
  Variable parse_time : str -> res Z.
  Variable debug : bool.
  Variable case : case_mode.
  Variable registered : list plugin.
  Variable init_plugin : str -> res unit.
  Variable reference_value : str * str -> str -> res value.
  Variable score : test R -> Z.
  Variable other : entry -> str -> option value.
  Variable plugin_value : entry -> str * str -> option value.
  Variable cwd : str.
  Variable device : str -> Z.
  Variable listing : str -> list file.
  Variable human : ty -> Z -> str.
  Variable st : style.
  Variable env : str.
  Variable follow all : bool.
  Variable separator : str.
  Variable link : entry -> str.
  Variable broken : entry -> bool.
  Variable reverse : bool.
  Notation honest := (honest registered init_plugin other plugin_value).
  Notation sensible_args := (sensible_args R rcompile parse_time debug case registered init_plugin reference_value).
  Notation real_directories := (real_directories cwd listing).
  Notation Reported := (Reported R rcompile rsearch parse_time debug case registered init_plugin reference_value other plugin_value cwd device listing).
  Notation excluded a := (search_excluded R rcompile rsearch parse_time debug case registered init_plugin reference_value score other
    plugin_value (process_arguments a)).
  Notation matched a := (search_matched R rcompile rsearch parse_time debug case registered init_plugin reference_value score other
    plugin_value (process_arguments a)).
  Notation roots_of a := (search_roots cwd device listing (process_arguments a)).
  Notation cvalue := (fun c : centry => entry_value other plugin_value (c_entry c)).
  Notation complete := (complete link broken).
  Notation print fields sort limit l := (print_collected other plugin_value human st follow all separator link broken fields sort reverse limit l).
  Notation Lines fields := (Lines cvalue human st env all separator fields).
  Notation has_line := (has_line other plugin_value human st follow all separator link broken).

  Variable a : pargs.
  Variable ess : list (list bexp).
  Hypothesis Hhonest : honest.
  Hypothesis Hargs : sensible_args a ess.
  Hypothesis Hdirs : real_directories a.
  Hypothesis Hnodup : NoDup (map (start_path cwd (absolute_paths a)) (a_directories a)).
  Hypothesis Hst : st = Plain \/ (env <> [] /\ st = Coloured (read_colours env)).
  (** Nothing but directories is reported in the root directory. *)
  Hypothesis Hroot : forall e, Reported a ess e -> is_dir (complete e) = true \/ e_dir e <> [SLASH].
  Variable fields : list field.
  Variable sort : option (list field).
  Hypothesis Hfields : setup_fields registered init_plugin (process_arguments a) = Ok (fields, sort).

  Lemma setup_output : exists texts, output_fields registered init_plugin texts = Ok fields.
  Proof.
    unfold setup_fields in Hfields. destruct (output_fields registered init_plugin (expand_file _ _)) as [o|] eqn:E; [|discriminate].
    cbn [bindr] in Hfields. eexists.
    destruct (a_sort (process_arguments a)) as [l|]; [destruct (output_fields registered init_plugin l); [|discriminate]|];
      injection Hfields as <- <-; exact E.
  Qed.
  Lemma setup_sort s : sort = Some s -> exists texts, output_fields registered init_plugin texts = Ok s.
  Proof.
    intros ->. unfold setup_fields in Hfields. destruct (output_fields registered init_plugin (expand_file _ _)) as [o|] eqn:E; [|discriminate].
    cbn [bindr] in Hfields.
    destruct (a_sort (process_arguments a)) as [l|]; [destruct (output_fields registered init_plugin l) as [x|] eqn:El; [|discriminate]|discriminate].
    cbn [bindr] in Hfields. injection Hfields as <- <-. eauto.
  Qed.
  Lemma reported_good e : Reported a ess e -> good_entry (complete e).
  Proof.
    intros H. split; [|exact (Hroot e H)]. destruct H as (d & names & f & Hd & Hp & He & _). cbn [c_entry OutputModel.complete].
    destruct (Hdirs d Hd) as [Hr Hv]. unfold contents in *.
    destruct (place_valid _ names f Hv Hp) as (_ & _ & Hn).
    assert (Hne : names <> []) by (destruct Hp; [discriminate|intros K; now apply app_eq_nil in K as [_ K]]).
    destruct (entry_paths (start_dir cwd device (absolute_paths a) d) names (f_status f) Hr Hne Hn) as (e' & E & _ & _ & _ & _ & I & _).
    unfold entry_at in He. rewrite He in E. injection E as <-. exact I.
  Qed.

  (** The results have been collected. *)
  Lemma collected_all rendered jobs halt timeout : (0 < jobs)%nat ->
    exists roots, roots_of a = Ok roots /\ forall ls s,
    WalkModel.run entry (excluded a) (matched a) rendered Collect jobs halt true true timeout (initial entry jobs roots) ls s -> main_ s = MPassed ->
    NoDup (results Collect s) /\ (forall e, In e (results Collect s) <-> Reported a ess e).
  Proof.
    intros J.
    destruct (search_sound R rcompile rsearch parse_time debug case registered init_plugin reference_value score other plugin_value
      cwd device listing a ess Hhonest Hargs Hdirs rendered Collect jobs halt true true timeout) as (roots & Er & S).
    destruct (search_complete R rcompile rsearch parse_time debug case registered init_plugin reference_value score other plugin_value
      cwd device listing a ess Hhonest Hargs Hdirs rendered Collect jobs halt true true timeout J eq_refl (fun _ => eq_refl)) as (roots' & Er' & C).
    rewrite Er in Er'. injection Er' as <-. exists roots. split; [exact Er|]. intros ls s Hr Hm.
    destruct (S ls s Hr) as [_ N]. split; [exact (N Hnodup)|]. intros e. rewrite (C ls s Hr Hm e). cbn. tauto.
  Qed.
  Lemma collected rendered jobs halt timeout : (0 < jobs)%nat ->
    (forall s f, sort = Some s -> In f s -> f_modifier f <> Some ($"v")) ->
    exists roots, roots_of a = Ok roots /\ forall ls s,
    WalkModel.run entry (excluded a) (matched a) rendered Collect jobs halt true true timeout (initial entry jobs roots) ls s -> main_ s = MPassed ->
    exists sorted, NoDup (results Collect s) /\ (forall e, In e (results Collect s) <-> Reported a ess e) /\
      finalize (entry_value other plugin_value) sort reverse (results Collect s) = Ok sorted /\
      Ordered (entry_value other plugin_value) sort reverse (results Collect s) sorted.
  Proof.
    intros J V. destruct (collected_all rendered jobs halt timeout J) as (roots & Er & H). exists roots. split; [exact Er|].
    intros ls s Hr Hm. destruct (H ls s Hr Hm) as (N & C).
    assert (F : exists sorted, finalize (entry_value other plugin_value) sort reverse (results Collect s) = Ok sorted).
    { assert (X : sort = None \/ exists so, sort = Some so) by (clear; destruct sort; eauto).
      destruct X as [X|[so X]]; [rewrite X; eexists; reflexivity|]. destruct (setup_sort so X) as (texts & Ht). rewrite X.
      apply typed_sort; [exact (fields_typed registered init_plugin other plugin_value Hhonest texts so _ Ht)|].
      intros f Hf. exact (V so f X Hf). }
    destruct F as (sorted & F). exists sorted. split; [exact N|]. split; [exact C|]. split; [exact F|]. exact (ordered _ _ _ _ _ F).
  Qed.
  Lemma printed limit rendered jobs halt timeout :
    (0 < jobs)%nat -> (forall s f, sort = Some s -> In f s -> f_modifier f <> Some ($"v")) ->
    exists roots, roots_of a = Ok roots /\ forall ls s,
    WalkModel.run entry (excluded a) (matched a) rendered Collect jobs halt true true timeout (initial entry jobs roots) ls s -> main_ s = MPassed ->
    exists found sorted part lines, NoDup found /\ (forall e, In e found <-> Reported a ess e) /\
      Ordered (entry_value other plugin_value) sort reverse found sorted /\ Limited limit sorted part /\
      print fields sort limit (results Collect s) = Ok lines /\ Lines fields (map complete part) lines.
  Proof.
    intros J V. destruct (collected rendered jobs halt timeout J V) as (roots & Er & H). exists roots. split; [exact Er|]. intros ls s Hr Hm.
    destruct (H ls s Hr Hm) as (sorted & N & C & F & O). exists (results Collect s), sorted, (entries_range limit sorted).
    destruct setup_output as (texts & Ht).
    destruct (lines_ok registered init_plugin other plugin_value Hhonest human st env Hst follow all separator link broken texts fields
      (entries_range limit sorted) Ht) as (lines & El & L).
    { intros e He. apply reported_good, C. apply (Permutation_in e (Permutation_sym (ordered_perm _ _ _ _ _ O))).
      exact (limited_in limit sorted _ (limited limit sorted) e He). }
    exists lines. split; [exact N|]. split; [exact C|]. split; [exact O|]. split; [apply limited|]. split; [|exact L].
    unfold print_collected. rewrite F. exact El.
  Qed.
  (** The same with --json=json *)
  Lemma printed_json limit rendered jobs halt timeout :
    (0 < jobs)%nat -> (forall s f, sort = Some s -> In f s -> f_modifier f <> Some ($"v")) ->
    exists roots, roots_of a = Ok roots /\ forall ls s,
    WalkModel.run entry (excluded a) (matched a) rendered Collect jobs halt true true timeout (initial entry jobs roots) ls s -> main_ s = MPassed ->
    exists found sorted part records, NoDup found /\ (forall e, In e found <-> Reported a ess e) /\
      Ordered (entry_value other plugin_value) sort reverse found sorted /\ Limited limit sorted part /\
      Forall2 (fun e r => IsRecord cvalue human (complete e) fields r) part records /\
      print_json other plugin_value human link broken fields sort reverse limit (results Collect s)
        = Ok ($"[" ++ join_with ($",") (map dumps records) ++ $"]" ++ [10%N]).
  Proof.
    intros J V. destruct (collected rendered jobs halt timeout J V) as (roots & Er & H). exists roots. split; [exact Er|]. intros ls s Hr Hm.
    destruct (H ls s Hr Hm) as (sorted & N & C & F & O). exists (results Collect s), sorted, (entries_range limit sorted).
    destruct setup_output as (texts & Ht).
    destruct (json_whole cvalue human fields (map complete (entries_range limit sorted))) as (records & F2 & E & _).
    { intros e _. exact (fields_good registered init_plugin other plugin_value Hhonest texts fields e Ht). }
    exists records. split; [exact N|]. split; [exact C|]. split; [exact O|]. split; [apply limited|]. split.
    - clear -F2. revert records F2. induction (entries_range limit sorted) as [|e l IH]; intros records F2; cbn [map] in F2; inversion F2; subst; constructor; auto.
    - unfold print_json. rewrite F. exact E.
  Qed.
  (** --count *)
  Lemma counted cfields rendered jobs halt timeout :
    (0 < jobs)%nat -> count_fields registered init_plugin (match a_count (process_arguments a) with Some l => l | None => [] end) = Ok cfields ->
    NoDup (map ident cfields) -> NoDup ($"_total" :: map f_alias cfields) ->
    (forall f, In f cfields -> f_modifier f = Some ($"h") -> f_type f <> TMode /\ f_type f <> TTime) ->
    exists roots, roots_of a = Ok roots /\ forall ls s chunks,
    WalkModel.run entry (excluded a) (matched a) rendered Collect jobs halt true true timeout (initial entry jobs roots) ls s -> main_ s = MPassed ->
    concat chunks = results Collect s ->
    exists found, NoDup found /\ (forall e, In e found <-> Reported a ess e) /\
      (forall lines, count_output human (entry_value other plugin_value) cfields false chunks = Ok (AsLines lines) ->
         forall line, In line lines <-> Line (entry_value other plugin_value) human cfields found line) /\
      exists d, count_output human (entry_value other plugin_value) cfields true chunks = Ok (AsJson d) /\ NoDup (map fst d) /\
        (forall n x, In (n, x) d -> Item (entry_value other plugin_value) human cfields found n x) /\
        (forall n x, Item (entry_value other plugin_value) human cfields found n x -> exists y, In (n, y) d).
  Proof.
    intros J Hc N1 N2 Hm. destruct (collected_all rendered jobs halt timeout J) as (roots & Er & H). exists roots. split; [exact Er|].
    intros ls s chunks Hr Hp Ec. destruct (H ls s Hr Hp) as (N & C). exists (results Collect s). split; [exact N|]. split; [exact C|].
    unfold count_fields in Hc. destruct (output_fields _ _ _) as [l|] eqn:El; [|discriminate]. cbn [bindr] in Hc.
    destruct (existsb _ l) eqn:Ex; [discriminate|]. injection Hc as ->.
    assert (U : forall f, In f cfields -> count_of (f_type f) <> UNCOUNTABLE).
    { intros f Hf K. assert (X : existsb (fun f => match count_of (f_type f) with UNCOUNTABLE => true | _ => false end) cfields = true).
      { apply existsb_exists. exists f. split; [exact Hf|]. now rewrite K. } congruence. }
    assert (W : well_typed (entry_value other plugin_value) cfields (concat chunks))
      by (exact (fields_typed registered init_plugin other plugin_value Hhonest _ cfields _ El)).
    assert (D := plain_distinguishable _ human _ _ W Hm). rewrite <- Ec. split.
    - exact (as_lines _ _ _ N1 U N2 _ W D).
    - exact (as_json _ _ _ N1 U N2 _ W D).
  Qed.
  (** The order of arrival does not matter if the keys tell the results apart. *)
  Lemma printed_same limit rendered1 rendered2 so jobs1 halt1 timeout1 jobs2 halt2 timeout2 :
    (0 < jobs1)%nat -> (0 < jobs2)%nat -> sort = Some so ->
    (forall e e', Reported a ess e -> Reported a ess e' ->
       render (entry_value other plugin_value) so e = render (entry_value other plugin_value) so e' -> e = e') ->
    exists roots, roots_of a = Ok roots /\ forall ls1 s1 ls2 s2 lines,
    WalkModel.run entry (excluded a) (matched a) rendered1 Collect jobs1 halt1 true true timeout1 (initial entry jobs1 roots) ls1 s1 -> main_ s1 = MPassed ->
    WalkModel.run entry (excluded a) (matched a) rendered2 Collect jobs2 halt2 true true timeout2 (initial entry jobs2 roots) ls2 s2 -> main_ s2 = MPassed ->
    print fields sort limit (results Collect s1) = Ok lines -> print fields sort limit (results Collect s2) = Ok lines.
  Proof.
    intros J1 J2 Eso D. rewrite Eso.
    destruct (search_sound R rcompile rsearch parse_time debug case registered init_plugin reference_value score other plugin_value
      cwd device listing a ess Hhonest Hargs Hdirs rendered1 Collect jobs1 halt1 true true timeout1) as (roots & Er & S1).
    destruct (search_sound R rcompile rsearch parse_time debug case registered init_plugin reference_value score other plugin_value
      cwd device listing a ess Hhonest Hargs Hdirs rendered2 Collect jobs2 halt2 true true timeout2) as (roots' & Er' & S2).
    rewrite Er in Er'. injection Er' as <-.
    destruct (search_complete R rcompile rsearch parse_time debug case registered init_plugin reference_value score other plugin_value
      cwd device listing a ess Hhonest Hargs Hdirs rendered1 Collect jobs1 halt1 true true timeout1 J1 eq_refl (fun _ => eq_refl)) as (roots' & Er' & C1).
    rewrite Er in Er'. injection Er' as <-.
    destruct (search_complete R rcompile rsearch parse_time debug case registered init_plugin reference_value score other plugin_value
      cwd device listing a ess Hhonest Hargs Hdirs rendered2 Collect jobs2 halt2 true true timeout2 J2 eq_refl (fun _ => eq_refl)) as (roots' & Er' & C2).
    rewrite Er in Er'. injection Er' as <-.
    exists roots. split; [exact Er|]. intros ls1 s1 ls2 s2 lines R1 M1 R2 M2 E.
    destruct (S1 ls1 s1 R1) as [_ N1]. specialize (N1 Hnodup). specialize (C1 ls1 s1 R1 M1).
    destruct (S2 ls2 s2 R2) as [_ N2]. specialize (N2 Hnodup). specialize (C2 ls2 s2 R2 M2).
    assert (P : Permutation (results Collect s1) (results Collect s2)).
    { apply NoDup_Permutation; [exact N1|exact N2|]. intros e. rewrite (C1 e), (C2 e). cbn. reflexivity. }
    unfold print_collected in *.
    destruct (finalize (entry_value other plugin_value) (Some so) reverse (results Collect s1)) as [sorted|] eqn:F; [|discriminate].
    unfold finalize in *. rewrite (list_sort_perm _ _ _ _ _ F P); [exact E|].
    intros e e' H H' K. apply D; [now apply C1|now apply C1|exact K].
  Qed.
  (** Every process prints the results it finds. *)
  Lemma printed_immediately jobs halt punctual timeout : (0 < jobs)%nat ->
    exists roots, roots_of a = Ok roots /\ forall ls s,
    WalkModel.run entry (excluded a) (matched a) (has_line fields) Console jobs halt true punctual timeout (initial entry jobs roots) ls s -> main_ s = MPassed ->
    exists lines, NoDup (results Console s) /\
      (forall e, In e (results Console s) <-> Reported a ess e /\ ~ Suppressed cvalue all (complete e) fields) /\
      entry_lines other plugin_value human st follow all separator link broken fields (results Console s) = Ok lines /\
      length lines = length (results Console s) /\ Lines fields (map complete (results Console s)) lines.
  Proof.
    intros J.
    destruct (search_sound R rcompile rsearch parse_time debug case registered init_plugin reference_value score other plugin_value
      cwd device listing a ess Hhonest Hargs Hdirs (has_line fields) Console jobs halt true punctual timeout) as (roots & Er & S).
    destruct (search_complete R rcompile rsearch parse_time debug case registered init_plugin reference_value score other plugin_value
      cwd device listing a ess Hhonest Hargs Hdirs (has_line fields) Console jobs halt true punctual timeout J eq_refl) as (roots' & Er' & C); [discriminate|].
    rewrite Er in Er'. injection Er' as <-. exists roots. split; [exact Er|]. intros ls s Hr Hm.
    destruct (S ls s Hr) as [_ N]. specialize (N Hnodup). specialize (C ls s Hr Hm).
    destruct setup_output as (texts & Ht).
    assert (C' : forall e, In e (results Console s) <-> Reported a ess e /\ ~ Suppressed cvalue all (complete e) fields).
    { intros e. rewrite (C e). unfold processable. split; intros [H1 H2]; (split; [exact H1|]);
        apply (has_line_ok registered init_plugin other plugin_value Hhonest human st env Hst follow all separator link broken texts fields e Ht
          (reported_good e H1)); exact H2. }
    destruct (lines_ok registered init_plugin other plugin_value Hhonest human st env Hst follow all separator link broken texts fields
      (results Console s) Ht) as (lines & El & L).
    { intros e He. apply reported_good. now apply C' in He as [He _]. }
    exists lines. split; [exact N|]. split; [exact C'|]. split; [exact El|]. split; [|exact L].
    assert (Q : forall e, In e (results Console s) -> ~ Suppressed cvalue all (complete e) fields) by (intros e He; now apply C' in He as [_ He]).
    clear -L Q. revert lines L. induction (results Console s) as [|e l IH]; intros lines L; cbn [map] in L; inversion L; subst.
    - reflexivity.
    - cbn [length]. f_equal. apply IH; [intros x Hx; apply Q; now right|assumption].
    - exfalso. apply (Q e); [now left|assumption].
  Qed.
End Search.
