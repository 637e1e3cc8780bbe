(** A search with ignore files. *)
From Coq Require Import List NArith ZArith Bool Lia.
From Verif Require Import Py Re ReJoin OsPath ExprSpec GrammarSpec TypeSpec WalkModel WalkSpec WalkProofs WalkInvProofs WalkEndProofs WalkStatusProofs PathSpec PathModel PathProofs GlobModel GlobSpec GlobProofs GlobPathProofs IgnoreModel IgnoreSpec
  IgnoreProofs IgnoreListProofs IgnoreTreeProofs.
From Verif Require Import EntrySpec EntryModel EntryProofs TypeModel RegistryModel TestModel TestProofs ArgumentsModel ArgumentsSpec ArgumentsProofs SearchModel SearchSpec
  SearchProofs SearchTreeProofs SearchEndProofs CarryModel CarrySpec CarryProofs.
Import ListNotations.
Local Open Scope nat_scope.

Lemma way_exists files l names f : Place l names f -> forall here, valid l -> exists fs, OnTheWay files here l names fs.
Proof.
  intros H. revert l f H. induction names as [|n names IH]; intros l f H here Hv; [now apply place_nonempty in H|].
  destruct names as [|m rest]; [eexists; constructor|]. destruct (valid_inv _ Hv) as (_ & _ & V).
  destruct (place_cons' _ _ _ _ H) as (d & Hd & <- & _ & Pd); [discriminate|].
  destruct (IH _ _ Pd (here ++ [f_name d]) (V d Hd)) as (fs & W). eexists. eapply way_below; eassumption.
Qed.
Lemma way_in files : forall here l names fs, OnTheWay files here l names fs -> valid l ->
  forall f, In f fs -> name_ok (snd f) /\ exists k rest, rest <> [] /\ names = k ++ rest /\ fst f = here ++ k.
Proof.
  assert (O : forall here l, valid l -> forall f, In f (own files here l) -> name_ok (snd f) /\ fst f = here).
  { intros here l Hv f Hf. unfold own in Hf. apply in_map_iff in Hf as (g & <- & Hg). apply filter_In in Hg as [Hg _].
    destruct (valid_inv _ Hv) as (_ & V & _). rewrite Forall_forall in V. split; [now apply V|reflexivity]. }
  induction 1 as [here l n|here l g names fs Hg W IH]; intros Hv f Hf.
  - destruct (O _ _ Hv f Hf) as [H1 ->]. split; [exact H1|]. exists [], [n]. split; [discriminate|]. split; [reflexivity|now rewrite app_nil_r].
  - apply in_app_or in Hf as [Hf|Hf].
    + destruct (O _ _ Hv f Hf) as [H1 ->]. split; [exact H1|]. exists [], (f_name g :: names). split; [discriminate|]. split; [reflexivity|now rewrite app_nil_r].
    + destruct (valid_inv _ Hv) as (_ & _ & V). destruct (IH (V g Hg) f Hf) as (H1 & k & rest & H2 & -> & ->). split; [exact H1|].
      exists (f_name g :: k), rest. split; [exact H2|]. split; [reflexivity|]. now rewrite <- app_assoc.
Qed.
Lemma component_plain n : tree_component n -> plain_name n.
Proof. intros ((H1 & H2 & _) & H3 & H4). repeat split; assumption. Qed.

Section Attribute.
  Variable ignore_files : list str.
  Variable patterns : list str -> str -> option (list pattern).
  Variable read : str -> option (list str).
  Notation written := (written patterns read).
  Notation rules_of := (rules_of patterns).

  Lemma written_rules fs e : (forall f, In f fs -> name_ok (snd f) /\ (exists rest, rest <> [] /\ e = fst f ++ rest) /\ written f) ->
    Forall tree_component e ->
    flat_map (path_rules read) (map (fun f => file_in (fst f) (snd f)) fs) = map to_rule (rules_of fs) /\
    (forall d n p, In (d, n, p) (rules_of fs) -> (exists rest, rest <> [] /\ e = d ++ rest) /\ name_ok n /\ well_formed p).
  Proof.
    intros H He. induction fs as [|[d n] fs IH]; [split; [reflexivity|intros d n p []]|].
    destruct IH as [IH1 IH2]; [intros; apply H; now right|]. destruct (H (d, n) (or_introl eq_refl)) as (Hn & (rest & Hr & E) & W).
    cbn [fst snd] in *.
    assert (Fd : Forall plain_name d).
    { rewrite E in He. apply Forall_app in He as [He _]. eapply Forall_impl; [|exact He]. exact component_plain. }
    assert (S : split (file_in d n) = (abs_dir d, n)).
    { apply split_inside; [|exact Hn]. unfold inside. rewrite <- (join_abs d n Fd Hn). destruct d as [|x d].
      - right; left. split; [reflexivity|]. unfold join, abs_dir. cbn [join_with app]. change ($"/" ++ []) with [SLASH]. destruct Hn as [Hn _].
        destruct n; [easy|reflexivity].
      - right; right. split; [discriminate|]. split; [apply abs_dir_nonroot; [discriminate|exact Fd]|].
        apply join_names; [discriminate| |exact Hn]. apply abs_dir_nonroot; [discriminate|exact Fd]. }
    unfold CarrySpec.written in W. cbn [map flat_map fst snd rules_of]. unfold path_rules at 1. rewrite S. cbn [fst snd].
    fold (rules_of fs). destruct (patterns d n) as [ps|].
    - destruct W as (lines & -> & El & Wf). rewrite IH1, map_app. split.
      + apply (f_equal (fun x => x ++ map to_rule (rules_of fs))). unfold file_rules. rewrite El, !map_map. reflexivity.
      + intros d' n' p Hin. apply in_app_or in Hin as [Hin|Hin]; [|now apply IH2].
        apply in_map_iff in Hin as (p' & Ep & Hp). injection Ep as <- <- <-. split; [eauto|]. split; [exact Hn|]. rewrite Forall_forall in Wf. now apply Wf.
    - rewrite W. split; [exact IH1|exact IH2].
  Qed.
  Lemma file_in_absolute d n : IgnoreSpec.absolute (file_in d n).
  Proof. unfold file_in, abs_dir, IgnoreSpec.absolute. eexists. reflexivity. Qed.
  Lemma ignored_value fs e is_dir : e <> [] -> Forall tree_component e ->
    (forall f, In f fs -> name_ok (snd f) /\ (exists rest, rest <> [] /\ e = fst f ++ rest) /\ written f) ->
    exists v, Decided (rule_at e is_dir) None (rules_of fs) v /\
      is_ignored read (map (fun f => file_in (fst f) (snd f)) fs) (abs_dir e) (last e []) is_dir = COk (tree_answer v).
  Proof.
    intros Hne He Hf. destruct (written_rules fs e Hf He) as [R1 R2].
    assert (Hent : Forall entry_name e) by (eapply Forall_impl; [|exact He]; now intros n [G _]).
    destruct (is_ignored_decides read (map (fun f => file_in (fst f) (snd f)) fs) (abs_dir e) (last e []) is_dir) as (v & D & E).
    - apply Forall_map, Forall_forall. intros f _. apply file_in_absolute.
    - rewrite R1. apply Forall_map, Forall_forall. intros [[d n] p] Hin.
      destruct (R2 _ _ _ Hin) as (_ & _ & (Hs & Hw)). unfold to_rule, rule_valid, IgnoreSpec.valid. now apply glob_compiles.
    - rewrite R1 in D. apply decided_map_inv in D as (w & -> & D). exists w. split.
      + eapply decided_ext; [|exact D]. intros [[d n] p] Hin. destruct (R2 _ _ _ Hin) as ((r & Hrne & ->) & _ & Hw).
        unfold to_rule, rule_applies. destruct (relpath_below d r Hrne) as (k & Ek). rewrite Ek.
        assert (Hre : Forall entry_name r) by now apply Forall_app in Hent as [_ Hent].
        assert (El : last (d ++ r) [] = last r []) by now apply last_app_ne. rewrite El.
        rewrite (applies_dec p _ _ r k is_dir Hw Hre Hrne eq_refl eq_refl). unfold rule_at. split.
        * intros G. exists r. auto.
        * intros (r' & Er & G). apply app_inv_head in Er. now subst r'.
      + rewrite E. f_equal. destruct w as [[[d n] p]|]; [|reflexivity]. apply decided_in, R2 in D as ((r & _ & ->) & Hn & Hs & Hw).
        cbn [option_map to_rule answer tree_answer]. rewrite glob_include by assumption.
        destruct (p_negated p); [reflexivity|]. cbn [negb]. do 2 f_equal. apply join_abs; [|exact Hn].
        apply Forall_app in He as [He _]. eapply Forall_impl; [|exact He]. exact component_plain.
  Qed.

  Variable listing : str -> list file.
  Variable parents : str -> list str.
  Notation carry := (carry ignore_files listing parents).
  Variable sd : start.
  Variable comps : list str.
  Variable above : list (list str * str).
  Hypothesis Hroot : root sd <> [].
  Hypothesis Habs : absroot sd = abs_dir comps.
  Hypothesis Hpar : parents (root sd) = map (fun f => file_in (fst f) (snd f)) above.
  Hypothesis Hvalid : valid (listing (root sd)).
  Hypothesis Horder : orderly ignore_files patterns read (listing (root sd)) comps above.

  (** The value for the entry at the end of names *)
  Lemma attribute_at names f e fs : Place (listing (root sd)) names f -> mk_entry sd (walk_relpath names) (f_status f) = Ok e ->
    OnTheWay ignore_files comps (listing (root sd)) names fs ->
    exists v, Decided (rule_at (comps ++ names) (dir_status (f_status f))) None (rules_of (above ++ fs)) v /\
      is_ignored read (snd (carry e)) (e_abspath e) (e_name e) (dir_status (f_status f)) = COk (tree_answer v).
  Proof.
    intros Hp Ee W. destruct Horder as (O1 & O2 & O3 & O4). pose proof (place_nonempty _ _ _ Hp) as N.
    pose proof (O3 _ _ Hp) as F. destruct (place_valid _ _ _ Hvalid Hp) as (_ & _ & Fn).
    rewrite (carry_at ignore_files listing parents sd Hroot names _ e N Fn Ee). cbn [snd].
    destruct (place_last _ _ _ Hp) as (init & En).
    assert (Ep : paths_at ignore_files listing parents sd (removelast names) = map (fun f => file_in (fst f) (snd f)) (above ++ fs)).
    { rewrite En, removelast_last, map_app, <- Hpar. unfold paths_at. rewrite En in Hp, W.
      refine (way_paths ignore_files sd comps Habs _ init [] (listing (root sd)) f fs _ Hvalid Hp _ _).
      - eapply Forall_impl; [|exact O1]. exact component_plain.
      - constructor.
      - now rewrite app_nil_r. }
    rewrite Ep.
    assert (Ea : e_abspath e = abs_dir (comps ++ names) /\ e_name e = last (comps ++ names) []).
    { pose proof Ee as Ee'. rewrite mk_entry_ok in Ee' by assumption. injection Ee' as <-. cbn [e_abspath e_name]. split.
      - apply abs_join; [exact Habs| |exact N|exact Fn]. eapply Forall_impl; [|exact O1]. exact component_plain.
      - symmetry. now apply last_app_ne. }
    destruct Ea as [-> ->]. apply ignored_value.
    - intros E. apply app_eq_nil in E as [_ E]. now apply N.
    - now apply Forall_app.
    - intros g Hg. apply in_app_or in Hg as [Hg|Hg].
      + destruct (O2 g Hg) as (H1 & (rest & H2) & H3). split; [exact H1|]. split; [|exact H3]. exists (rest ++ names). split.
        * intros E. apply app_eq_nil in E as [_ E]. now apply N.
        * now rewrite app_assoc, <- H2.
      + destruct (way_in _ _ _ _ _ W Hvalid g Hg) as (H1 & k & rest & H2 & H3 & H4). split; [exact H1|]. split.
        * exists rest. split; [exact H2|]. now rewrite H4, H3, app_assoc.
        * specialize (O4 _ _ _ Hp W). rewrite Forall_forall in O4. now apply O4.
  Qed.
End Attribute.

Lemma start_ignores_path exists_ cwd files ignore no_parent absolute d :
  start_ignores exists_ cwd files ignore no_parent absolute d =
  start_ignores exists_ cwd files ignore no_parent false (start_path cwd absolute d).
Proof. unfold start_ignores, start_path. now destruct absolute. Qed.

(** The test that -I stands for *)
Lemma way_unique files : forall here l names fs, OnTheWay files here l names fs -> valid l -> forall fs', OnTheWay files here l names fs' -> fs = fs'.
Proof.
  induction 1 as [here l n|here l g names fs Hg W IH]; intros Hv fs' W'.
  - inversion W' as [|? ? ? ? ? ? W2]; subst; [reflexivity|inversion W2].
  - inversion W' as [h l' n E1 E2 E3|h l' g' names' fs2 Hg' W2 E1 E2 E3]; subst; [inversion W|].
    destruct (valid_inv _ Hv) as (V & _ & V2). assert (g' = g) by (eapply NoDup_map_inj; eauto). subst g'.
    f_equal. apply IH; [now apply V2|exact W2].
Qed.
Lemma process_ignore a : a_ignore (process_arguments a) = a_ignore a.
Proof.
  unfold process_arguments.
  set (a1 := match a_json a with Some (_ :: _) => set_json_output a | _ => a end).
  assert (E1 : a_ignore a1 = a_ignore a) by (unfold a1; destruct (a_json a) as [[|x l]|]; reflexivity).
  rewrite <- E1. clearbody a1. clear E1.
  assert (X : forall (c : bool) (x : pargs) l, a_ignore (if c then set_exclude x l else x) = a_ignore x) by (intros []; reflexivity).
  cbv zeta.
  set (a2 := if a_ignore a1 then _ else a1). assert (E2 : a_ignore a2 = a_ignore a1) by apply X. rewrite <- E2. clearbody a2. clear E2.
  set (a3 := if a_one_file_system a2 then _ else a2). assert (E3 : a_ignore a3 = a_ignore a2) by apply X. rewrite <- E3. clearbody a3. clear E3.
  set (a4 := if a_hide a3 then _ else a3). assert (E4 : a_ignore a4 = a_ignore a3) by apply X. rewrite <- E4. clearbody a4. clear E4.
  set (a5 := match a_depth a4 with Some (r :: l) => _ | _ => a4 end).
  assert (E5 : a_ignore a5 = a_ignore a4).
  { unfold a5. destruct (a_depth a4) as [[|r l]|]; try reflexivity. unfold process_depth_argument. now destruct (all_stops (r :: l)). }
  rewrite <- E5. clearbody a5. clear.
  destruct (a_count a5) as [[|[|c t] [|? ?]]|]; reflexivity.
Qed.
Section Test.
  Variable R : Type.
  Variable rcompile : str -> res R.
  Variable rsearch : R -> str -> bool.
  Variable parse_time : str -> res Z.
  Variable debug : bool.
  Variable case : case_mode.
  Variable registered : list plugin.
  Variable init_plugin : str -> res unit.
  Variable reference_value : str * str -> str -> res value.
  Variable other : entry -> str -> option value.
  Variable plugin_value : entry -> str * str -> option value.
  Hypothesis Hready : ignore_ready registered init_plugin.
  Notation Holds e s := (Holds R rcompile rsearch parse_time debug case registered init_plugin reference_value (attribute_value other plugin_value e) s).
  Notation Legal := (Legal R rcompile parse_time debug case registered init_plugin reference_value).
  Lemma ignored_resolves : resolves registered init_plugin ($"ignored") ($"ignore", $"ignored") TBoolean.
  Proof.
    destruct Hready as (H1 & H2 & H3). pose proof (find_some _ _ H1) as [Hin _]. split.
    - unfold setup_attribute, parse_attribute. change (split_dot ($"ignored")) with (@None (str * str)). rewrite H2.
      change (str_in ($"file") [$"ignore"]) with false. cbn [bindr fst length].
      assert (E : str_in ($"ignore") (map p_name registered) = true).
      { apply str_in_iff. change ($"ignore") with (p_name ignore_plugin). now apply in_map. }
      cbv iota. cbn [bindr fst]. rewrite E, H3. reflexivity.
    - unfold get_attribute_type. cbn [fst snd]. rewrite H1. reflexivity.
  Qed.
  Lemma ignored_writes : Writes ($"ignored=yes") ($"ignored") ($"=") None ($"yes") /\ boolean_text ($"yes") true.
  Proof.
    assert (V4 : boolean_text ($"yes") true).
    { apply (proj2 (boolean_text_iff R rcompile parse_time init_plugin reference_value _ _)). vm_compute. tauto. }
    split; [|exact V4].
    assert (Hw : ExprSpec.word ($"ignored")) by (split; [discriminate|]; intros c Hc; cbn in Hc; intuition; subst c; reflexivity).
    assert (V1 : ExprSpec.value ($"yes")) by (split; [discriminate|cbn; intuition discriminate]).
    assert (V2 : not_starting (fun c => is_space c = true) ($"yes")) by (cbn; discriminate).
    assert (V3 : not_starting (eq 123%N) ($"yes")) by (cbn; discriminate).
    assert (N : blanks []) by (intros c []).
    pose proof (Writes_intro [] ($"ignored") [] ($"=") ($"=") None [] [] ($"yes") [] N (or_introl Hw) N op_eq ref_none N V1 N I V2
                  (fun _ _ => V3)) as K. unfold ExprSpec.written in K. cbn [app] in K. rewrite app_nil_r in K. apply K.
    intros _ _ Hin. cbn in Hin. intuition discriminate.
  Qed.
  Lemma ignored_legal : Legal ($"ignored=yes").
  Proof.
    destruct ignored_writes as [W B]. exists ($"ignored"), ($"="), None, ($"yes"), ($"ignore", $"ignored"), TBoolean. split; [exact W|].
    split; [exact ignored_resolves|]. apply testable_sensible. now apply (sen_boolean _ _ _ _ _ _ true).
  Qed.
  Lemma ignored_holds e b : plugin_value e ($"ignore", $"ignored") = Some (VBool b) -> Holds e ($"ignored=yes") <-> b = true.
  Proof.
    intros E. destruct ignored_writes as [W B]. rewrite (holds_iff _ _ _ _ _ _ _ _ _ _ _ e _ _ _ _ _ _ W ignored_resolves ltac:(discriminate)).
    change (attribute_value other plugin_value e ($"ignore", $"ignored")) with (plugin_value e ($"ignore", $"ignored")). rewrite E. split.
    - intros (x & Ex & S). injection Ex as <-. now apply (sat_boolean_iff _ _ _ _ _ _ init_plugin reference_value _ _ _ B) in S.
    - intros ->. eexists. split; [reflexivity|]. now apply (sat_boolean_iff _ _ _ _ _ _ init_plugin reference_value _ _ _ B).
  Qed.
End Test.

Section Search.
  Variable ignore_files : list str.
  Variable exists_ : str -> bool.
  Variable no_parent : bool.
  Variable patterns : list str -> str -> option (list pattern).
  Variable read : str -> option (list str).
  Variable R : Type.
  Variable rcompile : str -> res R.
  Variable rsearch : R -> str -> bool.
  Variable parse_time : str -> res Z.
  Variable debug : bool.
  Variable case : case_mode.
  Variable registered : list plugin.
  Variable init_plugin : str -> res unit.
  Variable reference_value : str * str -> str -> res value.
  Variable score : test R -> Z.
  Variable other : entry -> str -> option value.
  Variable plugin_value : entry -> str * str -> option value.
  Variable cwd : str.
  Variable device : str -> Z.
  Variable listing : str -> list file.
  Variable comps : str -> list str.
  Variable above : str -> list (list str * str).
  Notation Reported pv := (Reported R rcompile rsearch parse_time debug case registered init_plugin reference_value other pv cwd device listing).
  Notation Excluded pv := (Excluded R rcompile rsearch parse_time debug case registered init_plugin reference_value other pv).
  Notation honest := (honest registered init_plugin other).
  Variable a : pargs.
  Variable ess : list (list bexp).
  Notation b := (process_arguments a).
  Notation excluded := (carry_excluded read plugin_value R rcompile rsearch parse_time debug case registered init_plugin reference_value score other b).
  Notation matched := (carry_matched read plugin_value R rcompile rsearch parse_time debug case registered init_plugin reference_value score other b).
  Notation roots_of := (carry_roots ignore_files cwd device listing exists_ no_parent).
  Definition parents_of (path : str) : list str := start_ignores exists_ cwd ignore_files (a_ignore a) no_parent false path.
  Definition full_parents (d : str) : list str := start_ignores exists_ cwd ignore_files (a_ignore a) no_parent (absolute_paths a) d.
  Hypothesis Hhonest : honest plugin_value.
  Hypothesis Hready : ignore_ready registered init_plugin.
  Hypothesis Hargs : sensible_args R rcompile parse_time debug case registered init_plugin reference_value a ess.
  Hypothesis Hdirs : real_directories cwd listing a.
  Hypothesis Horder : orderly_starts ignore_files patterns cwd device listing comps above read full_parents a.
  Notation carry := (carry ignore_files listing parents_of).
  Definition pv (e : entry) (at_ : str * str) : option value := carried_value read plugin_value (carry e) at_.

  Lemma honest_carried (L : entry -> list str) : honest (fun e at_ => carried_value read plugin_value (e, L e) at_).
  Proof.
    destruct Hhonest as (H1 & H2 & H3 & H4). split; [exact H1|]. split; [exact H2|]. split; [exact H3|].
    intros e at_ t x F T E. unfold carried_value in E. destruct (str_eqb (fst at_) ($"ignore")) eqn:Ei.
    - apply str_eqb_eq in Ei. unfold get_attribute_type in T. rewrite Ei in T. destruct Hready as (Hf & _ & _). rewrite Hf in T.
      unfold ignore_value in E. cbn [fst snd] in E. destruct (is_ignored _ _ _ _ _) as [[v p]| |]; try discriminate.
      destruct (str_eqb (snd at_) ($"ignored")) eqn:E1.
      + apply str_eqb_eq in E1. rewrite E1 in T. injection T as <-. now injection E as <-.
      + destruct (str_eqb (snd at_) ($"path")) eqn:E2; [|discriminate]. apply str_eqb_eq in E2. rewrite E2 in T. injection T as <-. now injection E as <-.
    - eapply H4; eassumption.
  Qed.
  Lemma honest_pv : honest pv.
  Proof. exact (honest_carried (fun e => snd (carry e))). Qed.
  Lemma carry_calm : calm carrier excluded matched.
  Proof.
    intros c. pose proof (honest_carried (fun _ => snd c)) as H.
    destruct (search_calm R rcompile rsearch parse_time debug case registered init_plugin reference_value score other _ a ess H Hargs (fst c)) as [E M].
    split; [exact E|exact M].
  Qed.

  Lemma values_right : ignore_values ignore_files patterns cwd device listing comps above a plugin_value pv.
  Proof.
    split.
    - intros d names f e Hd Hp He. destruct (Horder d Hd) as (O1 & O2 & O3). destruct (Hdirs d Hd) as [Hr Hv].
      destruct (way_exists ignore_files _ _ _ Hp (comps d) Hv) as (fs & W).
      assert (P : parents_of (root (start_dir cwd device (absolute_paths a) d)) = map (fun f => file_in (fst f) (snd f)) (above d)).
      { rewrite <- O2. unfold full_parents. rewrite start_ignores_path. reflexivity. }
      destruct (attribute_at ignore_files patterns read listing parents_of (start_dir cwd device (absolute_paths a) d) (comps d) (above d)
                  Hr O1 P Hv O3 names f e fs Hp He W) as (v & D & E).
      destruct (place_valid _ _ _ Hv Hp) as (_ & _ & Fn). pose proof (place_nonempty _ _ _ Hp) as N.
      assert (St : e_status e = f_status f).
      { unfold entry_at in He. rewrite mk_entry_ok in He by (exact Hr || exact N || exact Fn). now injection He as <-. }
      fold (dir_status (f_status f)) in E.
      assert (V : forall n, pv e ($"ignore", n) = (let '(b, p) := tree_answer v in
        if str_eqb n ($"ignored") then Some (VBool b) else if str_eqb n ($"path") then Some (VStr (match p with Some p => p | None => [] end)) else None)).
      { intros n. unfold pv, carried_value, ignore_value. cbn [fst snd]. change (str_eqb ($"ignore") ($"ignore")) with true. cbn iota.
        change (fst (carry e)) with e. rewrite St. fold (dir_status (f_status f)). now rewrite E. }
      rewrite !V. clear V E. assert (U : forall fs' is_dir by_, OnTheWay ignore_files (comps d) (contents cwd listing a d) names fs' ->
        (is_dir = true <-> directory (f_status f)) -> Ignored patterns (above d ++ fs') (comps d ++ names) is_dir by_ ->
        exists p, v = Some (by_, p) /\ p_negated p = false).
      { intros fs' is_dir by_ W' B (p & D' & Np). assert (fs' = fs) by (eapply way_unique; eassumption). subst fs'.
        assert (is_dir = dir_status (f_status f)).
        { apply eq_true_iff_eq. rewrite B. symmetry. apply dir_status_iff. }
        subst is_dir. exists p. split; [|exact Np]. eapply decided_unique; eassumption. }
      destruct v as [[[d' n'] p]|].
      + destruct (p_negated p) eqn:Np.
        * right. split; [|cbn [tree_answer]; rewrite Np; split; reflexivity].
          intros (by_ & fs' & is_dir & W' & B & I'). destruct (U _ _ _ W' B I') as (p' & E' & Np'). injection E' as <- <-. congruence.
        * left. exists (d', n'). split; [|cbn [tree_answer]; rewrite Np; split; reflexivity].
          exists fs, (dir_status (f_status f)). split; [exact W|]. split; [apply dir_status_iff|]. exists p. split; [exact D|exact Np].
      + right. split; [|split; reflexivity]. intros (by_ & fs' & is_dir & W' & B & I'). destruct (U _ _ _ W' B I') as (p' & E' & _). discriminate.
    - intros e at_ N. unfold pv, carried_value. apply str_eqb_neq in N. now rewrite N.
  Qed.

  (** *** The trees *)
  Lemma carry_starts_ok dirs roots : (forall d, In d dirs -> In d (a_directories a)) ->
    Forall2 (rooted cwd device listing a) dirs roots ->
    exists roots', carry_starts ignore_files cwd device listing exists_ no_parent (a_ignore a) (absolute_paths a) dirs = Ok roots' /\
      Forall2 (same_root carry) roots roots'.
  Proof.
    intros H F. induction F as [|d n dirs roots (k & -> & Sk) F IH]; [exists []; split; [reflexivity|constructor]|].
    destruct IH as (roots' & Er & Fr); [intros; apply H; now right|]. destruct (Hdirs d (H d (or_introl eq_refl))) as [Hr Hv].
    exists (carry_start (start_dir cwd device (absolute_paths a) d) (map (map_node carry) k) :: roots'). split.
    - cbn [carry_starts]. rewrite start_ignores_path.
      pose proof (carry_files_ok ignore_files listing parents_of (start_dir cwd device (absolute_paths a) d) Hr Hv k Sk) as E.
      change (listing (root (start_dir cwd device (absolute_paths a) d))) with (listing (start_path cwd (absolute_paths a) d)) in E.
      change (parents_of (root (start_dir cwd device (absolute_paths a) d))) with
        (start_ignores exists_ cwd ignore_files (a_ignore a) no_parent false (start_path cwd (absolute_paths a) d)) in E.
      rewrite E. cbn [bindr]. now rewrite Er.
    - constructor; [reflexivity|exact Fr].
  Qed.
  Lemma carry_roots_ok : exists roots roots', roots_of b = Ok roots' /\ Forall2 (rooted cwd device listing a) (a_directories a) roots /\
    Forall2 (same_root carry) roots roots'.
  Proof.
    destruct (roots_ok cwd device listing a Hdirs) as (roots & _ & Fr).
    destruct (carry_starts_ok (a_directories a) roots ltac:(auto) Fr) as (roots' & Er & F'). exists roots, roots'. split; [|split; assumption].
    unfold carry_roots. rewrite process_absolute. destruct (process_same a) as [(_ & _ & _ & _ & _ & _ & ->) _].
    rewrite process_ignore. exact Er.
  Qed.
  Lemma carry_match roots roots' : Forall2 (rooted cwd device listing a) (a_directories a) roots -> Forall2 (same_root carry) roots roots' ->
    forall c, Match carrier excluded matched roots' c <-> exists e, c = carry e /\ Reported pv a ess e.
  Proof.
    intros Fr F' c.
    rewrite (match_map entry carrier carry
      (search_excluded R rcompile rsearch parse_time debug case registered init_plugin reference_value score other pv b)
      (search_matched R rcompile rsearch parse_time debug case registered init_plugin reference_value score other pv b)
      excluded matched (fun _ => eq_refl) (fun _ => eq_refl) roots roots' F' c).
    split; intros (e & E & M); exists e; (split; [exact E|]);
      now apply (match_reported R rcompile rsearch parse_time debug case registered init_plugin reference_value score other pv cwd device listing a ess
        honest_pv Hargs Hdirs roots Fr).
  Qed.

  Variable rendered : entry -> bool.
  Variable m : mode.
  Variable jobs : nat.
  Variable halt prompt punctual : bool.
  Variable timeout : Z.
  Notation run := (WalkModel.run carrier excluded matched (fun c => rendered (fst c)) m jobs halt prompt punctual timeout).
  Notation initial := (initial carrier jobs).
  Notation right pv := (ignore_values ignore_files patterns cwd device listing comps above a plugin_value pv).

  Lemma carry_sound : exists roots pv, roots_of b = Ok roots /\ right pv /\ forall ls s, run (initial roots) ls s ->
    (forall c, In c (results m s) -> Reported pv a ess (fst c) /\ processable m rendered (fst c)) /\
    (NoDup (map (start_path cwd (absolute_paths a)) (a_directories a)) -> NoDup (map fst (results m s))).
  Proof.
    destruct carry_roots_ok as (roots & roots' & Er & Fr & F'). exists roots', pv. split; [exact Er|]. split; [exact values_right|].
    intros ls s Hrun. destruct (safe _ _ _ _ _ _ _ _ _ _ _ _ Hrun) as [S1 S2].
    assert (C : forall c, In c (results m s) -> exists e, c = carry e /\ Reported pv a ess e).
    { intros c Hc. apply (carry_match roots roots' Fr F'). now apply S1. }
    split.
    - intros c Hc. destruct (C c Hc) as (e & -> & H). split; [exact H|]. now apply S1.
    - intros N. assert (T : NoDup (tree_all roots')).
      { rewrite (tree_map _ _ carry roots roots' F'). apply FinFun.Injective_map_NoDup.
        - intros x y E. now apply (f_equal fst) in E.
        - eapply (roots_nodup cwd device listing a Hdirs roots (a_directories a)); auto. }
      specialize (S2 T). clear -C S2. induction (results m s) as [|c l IH]; [constructor|]. inversion S2 as [|? ? N0 D0]; subst.
      cbn [map]. constructor; [|apply IH; [exact D0|intros; apply C; now right]].
      intros Hin. apply in_map_iff in Hin as (c' & E & Hc'). apply N0.
      destruct (C c (or_introl eq_refl)) as (e & -> & _), (C c' (or_intror Hc')) as (e' & -> & _). change (e' = e) in E. subst e'. exact Hc'.
  Qed.
  Lemma carry_complete : 0 < jobs -> prompt = true -> (m = Collect -> punctual = true) ->
    exists roots pv, roots_of b = Ok roots /\ right pv /\ forall ls s, run (initial roots) ls s -> main_ s = MPassed ->
    forall e, In e (map fst (results m s)) <-> Reported pv a ess e /\ processable m rendered e.
  Proof.
    intros Hj Hpr Hpu. destruct carry_roots_ok as (roots & roots' & Er & Fr & F'). exists roots', pv. split; [exact Er|]. split; [exact values_right|].
    intros ls s Hrun Hm e.
    pose proof (all_results _ _ _ _ _ _ _ _ _ roots' ls s Hj Hpr carry_calm Hpu Hrun Hm) as A. split.
    - intros Hin. apply in_map_iff in Hin as (c & <- & Hc). apply A in Hc as [M P]. apply (carry_match roots roots' Fr F') in M as (e & -> & H).
      split; [exact H|]. exact P.
    - intros [H P]. apply in_map_iff. exists (carry e). split; [reflexivity|]. apply A. split.
      + apply (carry_match roots roots' Fr F'). exists e. auto.
      + exact P.
  Qed.
  Lemma carry_ends : (0 < timeout)%Z -> exists roots, roots_of b = Ok roots /\ forall ls s, run (initial roots) ls s -> healthy s ->
    exists ls' s', run s ls' s' /\ ~ In LStop ls' /\ main_ s' = MPassed.
  Proof.
    intros Ht. destruct carry_roots_ok as (roots & roots' & Er & _). exists roots'. split; [exact Er|]. intros ls s Hrun Hh.
    exact (WalkEndProofs.ends _ _ _ _ _ _ _ _ _ _ _ _ Ht carry_calm Hrun Hh).
  Qed.
End Search.

Section Meaning.
  Variable ignore_files : list str.
  Variable patterns : list str -> str -> option (list pattern).
  Variable R : Type.
  Variable rcompile : str -> res R.
  Variable rsearch : R -> str -> bool.
  Variable parse_time : str -> res Z.
  Variable debug : bool.
  Variable case : case_mode.
  Variable registered : list plugin.
  Variable init_plugin : str -> res unit.
  Variable reference_value : str * str -> str -> res value.
  Variable other : entry -> str -> option value.
  Variables plugin_value pv : entry -> str * str -> option value.
  Variable cwd : str.
  Variable device : str -> Z.
  Variable listing : str -> list file.
  Variable comps : str -> list str.
  Variable above : str -> list (list str * str).
  Variable a : pargs.
  Hypothesis Hready : ignore_ready registered init_plugin.
  Hypothesis Hright : ignore_values ignore_files patterns cwd device listing comps above a plugin_value pv.
  Notation Holds e s := (Holds R rcompile rsearch parse_time debug case registered init_plugin reference_value (attribute_value other pv e) s).
  Notation ignored_by := (ignored_by ignore_files patterns cwd listing comps above a).
  Lemma holds_ignored d names f e : In d (a_directories a) -> Place (contents cwd listing a d) names f -> entry_at cwd device a d names f e ->
    Holds e ($"ignored=yes") <-> exists by_, ignored_by d names f by_.
  Proof.
    intros Hd Hp He. destruct (proj1 Hright d names f e Hd Hp He) as [(by_ & H & V & _)|(H & V & _)];
      rewrite (ignored_holds R rcompile rsearch parse_time debug case registered init_plugin reference_value other pv Hready e _ V); split; eauto; try discriminate.
  Qed.
  Lemma none_ignored ess e : real_directories cwd listing a -> a_ignore a = true ->
    Reported R rcompile rsearch parse_time debug case registered init_plugin reference_value other pv cwd device listing a ess e ->
    exists d names f, In d (a_directories a) /\ Place (contents cwd listing a d) names f /\ entry_at cwd device a d names f e /\
      forall k l g by_, names = k ++ l -> k <> [] -> Place (contents cwd listing a d) k g -> ~ ignored_by d k g by_.
  Proof.
    intros Hdirs Hi (d & names & f & Hd & Hp & He & C & _). exists d, names, f. split; [exact Hd|]. split; [exact Hp|]. split; [exact He|].
    intros k l g by_ E N Pg Hb. destruct (Hdirs d Hd) as [Hr Hv]. destruct (place_valid _ _ _ Hv Pg) as (_ & _ & F).
    assert (Ee : exists e', entry_at cwd device a d k g e').
    { unfold entry_at. eexists. apply mk_entry_ok; assumption. }
    destruct Ee as (e' & Ee). apply (C k l g e' E N Pg Ee). right; left. split; [exact Hi|].
    apply (holds_ignored d k g e' Hd Pg Ee). eauto.
  Qed.
  Lemma reported_ignore ess e : real_directories cwd listing a -> a_ignore a = true ->
    Reported R rcompile rsearch parse_time debug case registered init_plugin reference_value other pv cwd device listing a ess e <->
    exists d names f, In d (a_directories a) /\ Place (contents cwd listing a d) names f /\ entry_at cwd device a d names f e /\
      (forall k l g e', names = k ++ l -> k <> [] -> Place (contents cwd listing a d) k g -> entry_at cwd device a d k g e' ->
         ~ Excluded R rcompile rsearch parse_time debug case registered init_plugin reference_value other pv (no_ignore a) k e' /\
         ~ exists by_, ignored_by d k g by_) /\
      (ranges a <> [] -> in_ranges (ranges a) (Z.of_nat (length names) - 1)) /\ Satisfied (fun s => Holds e s) ess.
  Proof.
    intros Hdirs Hi.
    assert (X : forall d k g e', In d (a_directories a) -> Place (contents cwd listing a d) k g -> entry_at cwd device a d k g e' ->
      ~ Excluded R rcompile rsearch parse_time debug case registered init_plugin reference_value other pv a k e' <->
      ~ Excluded R rcompile rsearch parse_time debug case registered init_plugin reference_value other pv (no_ignore a) k e' /\ ~ exists by_, ignored_by d k g by_).
    { intros d k g e' Hd Hp He. rewrite <- (holds_ignored d k g e' Hd Hp He).
      change (Excluded R rcompile rsearch parse_time debug case registered init_plugin reference_value other pv (no_ignore a) k e') with
        ((exists s, In s (a_exclude a) /\ Holds e' s) \/ (false = true /\ Holds e' ($"ignored=yes")) \/
         (a_one_file_system a = true /\ st_dev (e_status e') <> start_dev (e_start e')) \/
         (a_hide a = true /\ dotted (last k [])) \/
         (ranges a <> [] /\ bounded (ranges a) /\ beyond (ranges a) (Z.of_nat (length k) - 1)%Z)).
      unfold Excluded. rewrite Hi. set (H := Holds e' ($"ignored=yes")).
      set (P1 := exists s, _). set (P2 := _ /\ st_dev _ <> _). set (P3 := _ /\ dotted _). set (P4 := ranges a <> [] /\ _).
      assert (F : false = true -> False) by discriminate. clearbody H P1 P2 P3 P4. clear -F.
      split.
      - intros N. split; [intros [Q|[[Q _]|[Q|[Q|Q]]]]; apply N; auto; now destruct (F Q)|intros Q; apply N; auto].
      - intros [N1 N2] [Q|[[_ Q]|[Q|[Q|Q]]]]; [|exact (N2 Q)|..]; apply N1; auto. }
    split; intros (d & names & f & Hd & Hp & He & C & Hrest); exists d, names, f; (split; [exact Hd|]; split; [exact Hp|]; split; [exact He|]; split; [|exact Hrest]);
      intros k l g e' E N Pg Eg; apply (X d k g e' Hd Pg Eg); eapply C; eassumption.
  Qed.
End Meaning.
