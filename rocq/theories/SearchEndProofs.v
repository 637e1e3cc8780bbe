(** The whole search: arguments, tests, directory tree and processes. *)
From Coq Require Import List NArith ZArith Bool Lia.
From Verif Require Import Py PathSpec EntrySpec ExprSpec GrammarSpec ParserModel ParserProofs TypeSpec WalkModel WalkSpec WalkProofs WalkInvProofs WalkEndProofs WalkStatusProofs.
From Verif Require Import OsPath PathModel EntryModel EntryProofs TypeModel RegistryModel TestModel TestProofs ArgumentsModel ArgumentsSpec
  ArgumentsProofs SearchModel SearchSpec SearchProofs SearchTreeProofs.
Import ListNotations.
Local Open Scope Z_scope.

Lemma process_absolute a : a_absolute_path (process_arguments a) = absolute_paths a.
Proof.
  unfold process_arguments, absolute_paths.
  set (a1 := match a_json a with Some (_ :: _) => set_json_output a | _ => a end).
  assert (E1 : a_absolute_path a1 = a_absolute_path a || match a_json a with Some (_ :: _) => true | _ => false end).
  { unfold a1. destruct (a_json a) as [[|c j]|]; cbn; now rewrite ?orb_false_r, ?orb_true_r. }
  rewrite <- E1. clearbody a1. clear E1.
  assert (X : forall (c : bool) (x : pargs) l, a_absolute_path (if c then set_exclude x l else x) = a_absolute_path x) by (intros []; reflexivity).
  cbv zeta.
  set (a2 := if a_ignore a1 then _ else a1). assert (E2 : a_absolute_path a2 = a_absolute_path a1) by apply X. rewrite <- E2. clearbody a2. clear E2.
  set (a3 := if a_one_file_system a2 then _ else a2). assert (E3 : a_absolute_path a3 = a_absolute_path a2) by apply X. rewrite <- E3. clearbody a3. clear E3.
  set (a4 := if a_hide a3 then _ else a3). assert (E4 : a_absolute_path a4 = a_absolute_path a3) by apply X. rewrite <- E4. clearbody a4. clear E4.
  set (a5 := match a_depth a4 with Some (r :: l) => _ | _ => a4 end).
  assert (E5 : a_absolute_path a5 = a_absolute_path a4).
  { unfold a5. destruct (a_depth a4) as [[|r l]|]; try reflexivity. unfold process_depth_argument. now destruct (all_stops (r :: l)). }
  rewrite <- E5. clearbody a5. clear.
  destruct (a_count a5) as [[|[|c t] [|? ?]]|]; reflexivity.
Qed.

Section Search.
  Variable R : Type.
  Variable rcompile : str -> res R.
  Variable rsearch : R -> str -> bool.
  Variable parse_time : str -> res Z.
  Variable debug : bool.
  Variable case : case_mode.
  Variable registered : list plugin.
  Variable init_plugin : str -> res unit.
  Variable reference_value : str * str -> str -> res value.
  Variable score : test R -> Z.
  Variable other : entry -> str -> option value.
  Variable plugin_value : entry -> str * str -> option value.
  Variable cwd : str.
  Variable device : str -> Z.
  Variable listing : str -> list file.
  Notation Legal := (Legal R rcompile parse_time debug case registered init_plugin reference_value).
  Notation Holds e s := (Holds R rcompile rsearch parse_time debug case registered init_plugin reference_value (attribute_value other plugin_value e) s).
  Notation Excluded := (Excluded R rcompile rsearch parse_time debug case registered init_plugin reference_value other plugin_value).
  Notation Reported := (Reported R rcompile rsearch parse_time debug case registered init_plugin reference_value other plugin_value cwd device listing).
  Notation matched := (search_matched R rcompile rsearch parse_time debug case registered init_plugin reference_value score other plugin_value).
  Notation excluded := (search_excluded R rcompile rsearch parse_time debug case registered init_plugin reference_value score other plugin_value).
  Notation roots_of := (search_roots cwd device listing).

  Notation honest := (honest registered init_plugin other plugin_value).
  Notation sensible_args := (sensible_args R rcompile parse_time debug case registered init_plugin reference_value).
  Notation real_directories := (real_directories cwd listing).

  Variable a : pargs.
  Variable ess : list (list bexp).
  Hypothesis Hhonest : honest.
  Hypothesis Hargs : sensible_args a ess.
  Hypothesis Hdirs : real_directories a.
  Notation b := (process_arguments a).
  Notation Excl := (Excl R rcompile rsearch parse_time debug case registered init_plugin reference_value other plugin_value a).
  Notation Hit := (Hit R rcompile rsearch parse_time debug case registered init_plugin reference_value other plugin_value a ess).

  Lemma matched_hit e : exists c, matched b e = Ok c /\ (c = true <-> Hit e).
  Proof.
    destruct Hhonest as (H1 & H2 & H3 & H4), Hargs as (A1 & A2 & A3 & A4 & A5 & A6). apply matched_spec; assumption.
  Qed.
  Lemma excluded_excl e : exists c, excluded b e = Ok c /\ (c = true <-> Excl e).
  Proof.
    destruct Hhonest as (H1 & H2 & H3 & H4), Hargs as (A1 & A2 & A3 & A4 & A5 & A6). eapply excluded_spec; eassumption.
  Qed.
  Lemma search_calm : calm entry (excluded b) (matched b).
  Proof.
    intros e. split.
    - destruct (excluded_excl e) as (c & E & _). eauto.
    - destruct (matched_hit e) as (c & E & _). eauto.
  Qed.
  Lemma excl_iff d names f e : root (start_dir cwd device (absolute_paths a) d) <> [] -> names <> [] -> Forall name_ok names ->
    entry_at cwd device a d names f e -> (Excl e <-> Excluded a names e).
  Proof.
    intros Hr N F E. destruct (entry_fields _ Hr names (f_status f) e N F E) as (E1 & _ & E3 & E4 & E5).
    unfold SearchProofs.Excl, SearchSpec.Excluded. rewrite E4, E3.
    replace (Z.of_nat (length names - 1)) with (Z.of_nat (length names) - 1); [tauto|].
    destruct names; [easy|]. cbn [length]. lia.
  Qed.
  Lemma hit_iff d names f e : root (start_dir cwd device (absolute_paths a) d) <> [] -> names <> [] -> Forall name_ok names ->
    entry_at cwd device a d names f e ->
    (Hit e <-> (ranges a <> [] -> in_ranges (ranges a) (Z.of_nat (length names) - 1)) /\ Satisfied (fun s => Holds e s) ess).
  Proof.
    intros Hr N F E. destruct (entry_fields _ Hr names (f_status f) e N F E) as (E1 & _ & E3 & E4 & E5).
    unfold SearchProofs.Hit. rewrite E3. replace (Z.of_nat (length names - 1)) with (Z.of_nat (length names) - 1); [tauto|].
    destruct names; [easy|]. cbn [length]. lia.
  Qed.

  (** *** The start directories *)
  Definition rooted (d : str) (n : node entry) : Prop :=
    exists k, n = start_node (start_dir cwd device (absolute_paths a) d) k /\
      Forall2 (Scanned (start_dir cwd device (absolute_paths a) d) []) (contents cwd listing a d) k.
  Lemma starts_ok dirs : (forall d, In d dirs -> In d (a_directories a)) ->
    exists roots, scan_starts cwd device listing (absolute_paths a) dirs = Ok roots /\ Forall2 rooted dirs roots.
  Proof.
    induction dirs as [|d dirs IH]; intros H.
    - exists []. split; [reflexivity|constructor].
    - destruct (Hdirs d (H d (or_introl eq_refl))) as [Hp Hv].
      destruct (scan_files_ok (start_dir cwd device (absolute_paths a) d) Hp (contents cwd listing a d) [] Hv) as (k & Ek & Sk); [constructor|].
      destruct IH as (roots & Er & Fr); [intros; apply H; now right|].
      exists (start_node (start_dir cwd device (absolute_paths a) d) k :: roots). split.
      + cbn [scan_starts]. match goal with |- context [scan_files ?x ?y ?z] => replace (scan_files x y z) with (Ok k) by (symmetry; exact Ek) end.
        cbn [bindr]. now rewrite Er.
      + constructor; [|exact Fr]. exists k. auto.
  Qed.
  Lemma roots_ok : exists roots, roots_of b = Ok roots /\ Forall2 rooted (a_directories a) roots.
  Proof.
    unfold search_roots. rewrite process_absolute.
    destruct (process_same a) as [(_ & _ & _ & _ & _ & _ & ->) _]. apply starts_ok. auto.
  Qed.
  Lemma match_reported roots : Forall2 rooted (a_directories a) roots ->
    forall e, Match entry (excluded b) (matched b) roots e <-> Reported a ess e.
  Proof.
    intros Hr e. split.
    - intros (d0 & n & Hd & Hb & Hm & He). destruct (Forall2_in _ _ _ _ Hr Hd) as (d & Hin & k & -> & Sk).
      destruct (Hdirs d Hin) as [Hp Hv].
      destruct (below_place _ (excluded b) _ (start_node (start_dir cwd device (absolute_paths a) d) k) Hv Sk n Hb) as (names & f & Pf & Sf & C).
      destruct (scanned_inv _ _ _ _ Sf) as (e' & l' & -> & Ee & _). cbn [node_entry] in He, Hm. subst e'.
      destruct (place_valid _ _ _ Hv Pf) as (_ & _ & F).
      exists d, (names ++ [f_name f]), f. split; [exact Hin|]. split; [exact Pf|]. split; [exact Ee|]. split; [|].
      + intros k' m g e' E N Pg Eg Hx. specialize (C k' m g e' E N Pg Eg).
        destruct (place_valid _ _ _ Hv Pg) as (_ & _ & F').
        apply (excl_iff d k' g e' Hp N F' Eg) in Hx. destruct (excluded_excl e') as (c & Ec & Bc). apply Bc in Hx. congruence.
      + apply (hit_iff d _ f e Hp (place_nonempty _ _ _ Pf) F Ee). destruct (matched_hit e) as (c & Ec & Bc). apply Bc. congruence.
    - intros (d & names & f & Hin & Pf & Ee & C & Hh). destruct (Forall2_in_l _ _ _ _ Hr Hin) as (d0 & Hd & k & -> & Sk).
      destruct (Hdirs d Hin) as [Hp Hv].
      destruct (place_to_below _ (excluded b) _ (start_node (start_dir cwd device (absolute_paths a) d) k) Hv Sk names f Pf) as (n & init & -> & Bn & Sn).
      { intros k' m g e' E N Pg Eg. destruct (excluded_excl e') as (c & Ec & Bc). destruct c; [|exact Ec]. exfalso.
        destruct (place_valid _ _ _ Hv Pg) as (_ & _ & F'). apply (C k' m g e' E N Pg Eg), (excl_iff d k' g e' Hp N F' Eg). now apply Bc. }
      destruct (scanned_inv _ _ _ _ Sn) as (e' & l' & -> & Ee' & _).
      assert (e' = e) by (unfold entry_at in Ee; congruence). subst e'.
      destruct (place_valid _ _ _ Hv Pf) as (_ & _ & F).
      eexists _, _. split; [exact Hd|]. split; [exact Bn|]. split; [|reflexivity]. cbn [node_entry].
      apply (hit_iff d _ f e Hp (place_nonempty _ _ _ Pf) F Ee) in Hh. destruct (matched_hit e) as (c & Ec & Bc). apply Bc in Hh. congruence.
  Qed.
  Lemma roots_nodup roots dirs : (forall d, In d dirs -> In d (a_directories a)) -> NoDup (map (start_path cwd (absolute_paths a)) dirs) ->
    Forall2 rooted dirs roots -> NoDup (tree_all roots).
  Proof.
    intros H N F. induction F as [|d n dirs roots (k & -> & Sk) F IH]; [constructor|].
    cbn [tree_all flat_map start_node kids]. inversion N as [|? ? N0 D0]; subst.
    destruct (Hdirs d (H d (or_introl eq_refl))) as [Hp Hv].
    destruct (tree_nodup (start_dir cwd device (absolute_paths a) d) Hp (contents cwd listing a d) k Hv Sk) as [T1 T2].
    apply NoDup_app; [exact T1|apply IH; [intros; apply H; now right|exact D0]|].
    intros e He He'. apply T2 in He. fold (@tree_all entry roots) in He'.
    unfold tree_all in He'. apply in_flat_map in He' as (n' & Hn' & He'). 
    destruct (Forall2_in _ _ _ _ F Hn') as (d' & Hd' & k' & -> & Sk').
    destruct (Hdirs d' (H d' (or_intror Hd'))) as [Hp' Hv'].
    destruct (tree_nodup (start_dir cwd device (absolute_paths a) d') Hp' (contents cwd listing a d') k' Hv' Sk') as [_ T2'].
    apply T2' in He'. apply N0. rewrite He in He'. apply (f_equal root) in He'. cbn in He'. rewrite He'.
    apply in_map_iff. exists d'. auto.
  Qed.

  Variable rendered : entry -> bool.
  Variable m : mode.
  Variable jobs : nat.
  Variable halt prompt punctual : bool.
  Variable timeout : Z.
  Notation run := (WalkModel.run entry (excluded b) (matched b) rendered m jobs halt prompt punctual timeout).
  Notation initial := (initial entry jobs).

  Lemma search_sound : exists roots, roots_of b = Ok roots /\ forall ls s, run (initial roots) ls s ->
    (forall e, In e (results m s) -> Reported a ess e /\ processable m rendered e) /\
    (NoDup (map (start_path cwd (absolute_paths a)) (a_directories a)) -> NoDup (results m s)).
  Proof.
    destruct roots_ok as (roots & Er & Fr). exists roots. split; [exact Er|]. intros ls s Hrun.
    destruct (safe _ _ _ _ _ _ _ _ _ _ _ _ Hrun) as [S1 S2]. split.
    - intros e He. destruct (S1 e He) as [M P]. split; [|exact P]. now apply (match_reported roots Fr).
    - intros N. apply S2. apply (roots_nodup roots (a_directories a)); auto.
  Qed.
  Lemma search_complete : (0 < jobs)%nat -> prompt = true -> (m = Collect -> punctual = true) ->
    exists roots, roots_of b = Ok roots /\ forall ls s, run (initial roots) ls s -> main_ s = MPassed ->
    forall e, In e (results m s) <-> Reported a ess e /\ processable m rendered e.
  Proof.
    intros Hj Hpr Hpu. destruct roots_ok as (roots & Er & Fr). exists roots. split; [exact Er|]. intros ls s Hrun Hm e.
    rewrite <- (match_reported roots Fr e).
    exact (all_results _ _ _ _ _ _ _ _ _ roots ls s Hj Hpr search_calm Hpu Hrun Hm e).
  Qed.
  (** It ends, unless something goes wrong. *)
  Lemma search_ends : 0 < timeout -> exists roots, roots_of b = Ok roots /\ forall ls s, run (initial roots) ls s -> healthy s ->
    exists ls' s', run s ls' s' /\ ~ In LStop ls' /\ main_ s' = MPassed.
  Proof.
    intros Ht. destruct roots_ok as (roots & Er & Fr). exists roots. split; [exact Er|]. intros ls s Hrun Hh.
    exact (WalkEndProofs.ends _ _ _ _ _ _ _ _ _ _ _ _ Ht search_calm Hrun Hh).
  Qed.
End Search.
