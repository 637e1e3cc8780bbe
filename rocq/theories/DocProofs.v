(** The examples of the documentation. *)
From Coq Require Import List NArith ZArith Bool Lia.
From Verif Require Import Py Re NaturalProofs PathSpec PathModel EntrySpec ExprSpec ExprModel ExprProofs GlobModel GlobSpec GrammarSpec ParserModel ParserProofs TypeSpec.
From Verif Require Import EntryModel EntryProofs TypeModel TypeProofs RegistryModel TestModel TestProofs ArgumentsModel ArgumentsSpec
  ArgumentsProofs SearchModel SearchSpec SearchTestProofs SearchProofs DocSpec.
From Verif Require Import ConvertSpec.
From Verif Require TimeModel TimeMoreProofs.
Import ListNotations.
Local Open Scope Z_scope.

(** ** Expressions *)
Lemma conjunction ts : ts <> [] -> Forall is_test ts -> Expression ts [map BTest ts].
Proof.
  intros N H. split; [|right; repeat constructor; destruct ts; cbn; congruence].
  apply Alts_one. clear N. induction H as [|t ts Ht _ IH]; [constructor|]. exact (Run_op _ [t] _ ts _ (Op_test _ t Ht) IH).
Qed.
Lemma same_classes t u : Same t u -> classify t = classify u.
Proof.
  intros [? ? A B|? ? A B|? ? A B|? ? A B|? ? A B|? ? ? ? ? ? A B _ _].
  - now rewrite (classify_open _ A), (classify_open _ B).
  - now rewrite (classify_close _ A), (classify_close _ B).
  - now rewrite (classify_AND _ A), (classify_AND _ B).
  - now rewrite (classify_OR _ A), (classify_OR _ B).
  - now rewrite (classify_NOT _ A), (classify_NOT _ B).
  - now rewrite (classify_test _ A), (classify_test _ B).
Qed.
Section Spelling.
  Context {T : Type} (pt : str -> res T).
  Hypothesis Hpt : forall t u a o r v, Writes t a o r v -> Writes u a o r v -> pt t = pt u.
  Definition alike (x y : res (list str * seqs T)) : Prop :=
    match x, y with
    | Ok (l, s), Ok (l', s') => Forall2 Same l l' /\ s = s'
    | Err e, Err e' => e = e'
    | _, _ => False
    end.
  Lemma same_pt t u : Same t u -> classify t = TTest -> pt t = pt u.
  Proof.
    intros H C. pose proof (classify_spec t) as K. rewrite C in K. destruct K as (K1 & K2 & K3 & K4 & K5).
    destruct H as [? ? A _|? ? A _|? ? A _|? ? A _|? ? A _|? ? ? ? ? ? _ _ A B]; try contradiction. eapply Hpt; eassumption.
  Qed.
  Lemma sequence_same f : forall ts us, Forall2 Same ts us -> forall d c,
    alike (parse_sequence pt f ts d c) (parse_sequence pt f us d c).
  Proof.
    induction f as [|f IH]; intros ts us H d c; [reflexivity|]. rewrite !parse_sequence_step. unfold step_eqn.
    assert (G : forall k ts us d c, Forall2 Same ts us ->
      alike (bindr (parse_sequence pt f ts [] []) (fun x => let (ts', sub) := x in
        match ts' with [] => Err ParserError
        | _ :: ts'' => parse_sequence pt f ts'' d (c ++ [close_seqs k sub]) end))
      (bindr (parse_sequence pt f us [] []) (fun x => let (ts', sub) := x in
        match ts' with [] => Err ParserError
        | _ :: ts'' => parse_sequence pt f ts'' d (c ++ [close_seqs k sub]) end))).
    { intros k l l' d' c' K. pose proof (IH l l' K [] []) as Q. destruct (parse_sequence pt f l [] []) as [[r s]|e],
        (parse_sequence pt f l' [] []) as [[r' s']|e']; cbn [alike bindr] in *; try contradiction; [|exact Q].
      destruct Q as [K1 <-]. destruct K1 as [|? ? ? ? _ K2]; [reflexivity|]. now apply IH. }
    destruct H as [|t u ts us S H].
    - destruct (_ && _); cbn; auto.
    - rewrite <- (same_classes _ _ S). destruct (classify t) eqn:C.
      + now apply G.
      + destruct (is_nil c); cbn; auto.
      + now apply IH.
      + now apply IH.
      + destruct H as [|n m ts us S' H]; [reflexivity|]. rewrite <- (same_classes _ _ S'). destruct (classify n) eqn:C'; try reflexivity.
        * now apply G.
        * rewrite <- (same_pt _ _ S' C'). destruct (pt n); [now apply IH|reflexivity].
      + rewrite <- (same_pt _ _ S C). destruct (pt t); [now apply IH|reflexivity].
  Qed.
  Lemma parse_same ts us : Forall2 Same ts us -> parse pt ts = parse pt us.
  Proof.
    intros H. unfold parse. assert (L : length ts = length us) by (induction H; cbn; congruence). rewrite <- L.
    pose proof (sequence_same (S (length ts)) ts us H [] []) as K.
    destruct (parse_sequence pt (S (length ts)) ts [] []) as [[r s]|e],
        (parse_sequence pt (S (length ts)) us [] []) as [[r' s']|e']; cbn [alike bindr] in *; try contradiction; [|congruence].
    destruct K as [K <-]. destruct K; reflexivity.
  Qed.
End Spelling.
Section Examples.
  Variable R : Type.
  Variable rcompile : str -> res R.
  Variable rsearch : R -> str -> bool.
  Variable parse_time : str -> res Z.
  Variable debug : bool.
  Variable case : case_mode.
  Variable registered : list plugin.
  Variable init_plugin : str -> res unit.
  Variable reference_value : str * str -> str -> res value.
  Variable score : test R -> Z.
  Variable other : entry -> str -> option value.
  Variable plugin_value : entry -> str * str -> option value.
  Notation parse := (parse_test R rcompile parse_time debug case registered init_plugin reference_value).
  Notation create := (create_test R rcompile parse_time debug case registered init_plugin reference_value).
  Notation resolves := (resolves registered init_plugin).
  Notation matched := (search_matched R rcompile rsearch parse_time debug case registered init_plugin reference_value score other plugin_value).
  Notation outcome e := (entry_test R rsearch other plugin_value e).
  Variable a : pargs.
  Variable e : entry.

  (** Expressions written in two ways *)
  Lemma spelling b : Forall2 Same (a_tests a) (a_tests b) -> matched a e = matched b e.
  Proof.
    intros H. unfold search_matched, matcher. rewrite (parse_same parse) with (us := a_tests b); [reflexivity| |exact H].
    intros t u n o r v W W'. unfold parse_test. apply split_writes in W, W'. now rewrite W, W'.
  Qed.

  Definition Verdict (s : str) (P : Prop) : Prop :=
    is_test s /\ exists x b, parse s = Ok x /\ truth (outcome e x) b /\ (b = true <-> P).
  Lemma all_hold l : l <> [] -> a_tests a = map fst l -> Forall (fun p => Verdict (fst p) (snd p)) l ->
    exists b, matched a e = Ok b /\ (b = true <-> Forall (fun P => P) (map snd l)).
  Proof.
    intros N E H.
    pose (v t := match parse t with Ok x => match outcome e x with Val b => b | _ => false end | Err _ => false end).
    assert (V : forall s P, Verdict s P -> v s = true <-> P).
    { intros s P (_ & x & b & K & [T|[T ->]] & B); unfold v; rewrite K, T; exact B. }
    exists (denote_alts v [map BTest (map fst l)]). split.
    - unfold search_matched. rewrite E. apply matcher_meaning.
      + apply conjunction; [destruct l; cbn; congruence|]. apply Forall_map. eapply Forall_impl; [|exact H]. intros p K. apply K.
      + intros t Ht _. apply in_map_iff in Ht as ((s & P) & <- & Hin). rewrite Forall_forall in H. destruct (H _ Hin) as (_ & x & b & K & T & B).
        exists x. split; [exact K|]. unfold v. cbn [fst]. cbn [fst] in K. rewrite K. destruct T as [T|[T ->]]; rewrite T; [left; exact eq_refl|right; now split].
    - unfold denote_alts. cbn [existsb]. rewrite orb_false_r. clear E N. induction H as [|(s & P) l K _ IH].
      + cbn. split; [constructor|reflexivity].
      + cbn [map fst snd forallb denote]. rewrite andb_true_iff, IH, (V s P K), Forall_cons_iff. reflexivity.
  Qed.
  Lemma one_test s P : a_tests a = [s] -> Verdict s P -> exists b, matched a e = Ok b /\ (b = true <-> P).
  Proof.
    intros E H. destruct (all_hold [(s, P)] ltac:(discriminate) E (Forall_cons (s, P) H (Forall_nil _))) as (b & K & B).
    exists b. split; [exact K|]. rewrite B. cbn [map snd]. rewrite Forall_cons_iff. intuition.
  Qed.
  Lemma two_tests s P s' P' : a_tests a = [s; s'] -> Verdict s P -> Verdict s' P' ->
    exists b, matched a e = Ok b /\ (b = true <-> P /\ P').
  Proof.
    intros E H H'. destruct (all_hold [(s, P); (s', P')] ltac:(discriminate) E (Forall_cons (s, P) H (Forall_cons (s', P') H' (Forall_nil _)))) as (b & K & B).
    exists b. split; [exact K|]. rewrite B. cbn [map snd]. rewrite !Forall_cons_iff. intuition.
  Qed.

  (** ** Tests *)
  Lemma test_token s : classify s = TTest -> is_test s.
  Proof. intros H. pose proof (classify_spec s) as K. now rewrite H in K. Qed.
  Notation attribute := (attribute_value other plugin_value e).
  Notation is_dir := (str_eqb (type_of_mode (st_mode (e_status e))) ($"directory")).
  Lemma verdict s n o r v at_ t tv ic (P : Prop) : classify s = TTest -> split_test s = Some (n, o, r, v) -> resolves n at_ t ->
    create at_ o r v = Ok (Test at_ o t tv ic) ->
    match attribute at_ with
    | None => ~ P
    | Some x => exists b, type_test rsearch t (e_name e) is_dir ic o tv x = Ok b /\ (b = true <-> P)
    end -> Verdict s P.
  Proof.
    intros C E [Hs Ht] K H. split; [now apply test_token|]. exists (Test at_ o t tv ic).
    assert (Ep : parse s = Ok (Test at_ o t tv ic)) by (unfold parse_test; rewrite E, Hs; exact K).
    unfold entry_test, run_entry, run. cbn [t_attribute t_type t_ignore_case t_operator t_value].
    destruct (attribute at_) as [x|].
    - destruct H as (b & E' & B). exists b. split; [exact Ep|]. rewrite E'. split; [now left|exact B].
    - exists false. split; [exact Ep|]. split; [right; now split|]. split; [discriminate|contradiction].
  Qed.
  (** Strings without capital letters *)
  Definition ignores : bool := match case with CaseSensitive => false | _ => true end.
  Lemma string_create at_ t o v : get_attribute_type registered at_ = Ok t -> string_type t = true -> In o [$"="; $":"] ->
    lower v = v -> create at_ o None v = Ok (Test at_ o t (TV (VStr v)) ignores).
  Proof.
    intros E S Ho L. unfold create_test. rewrite E. cbn [bindr].
    assert (O : str_in o (operators t) = true).
    { apply str_in_iff. destruct t; try discriminate S; cbn in Ho |- *; tauto. }
    assert (I : input parse_time debug t v = Ok (VStr v)) by (destruct t; try discriminate S; reflexivity).
    assert (Ch : choices t = None) by (destruct t; try discriminate S; reflexivity).
    rewrite O, I, Ch, S. cbn [negb]. unfold prepare, ignores, py_lower.
    assert (Q : str_eqb v (lower v) = true) by now rewrite L, str_eqb_refl.
    assert (N1 : str_eqb o ($"~") = false) by (destruct Ho as [<-|[<-|[]]]; reflexivity).
    assert (N2 : str_eqb o ($"%") = false) by (destruct Ho as [<-|[<-|[]]]; reflexivity).
    destruct case; cbn [bindr]; rewrite ?Q, ?N1, ?N2; cbn [bindr fst snd]; rewrite ?L, ?N1, ?N2; reflexivity.
  Qed.
  Lemma letters_ignores x : (if ignores then lower x else x) = letters case x.
  Proof. unfold ignores, letters. now destruct case. Qed.

  Section File.
  Hypothesis Hfile : find_plugin registered ($"file") = Some file_plugin.
  Hypothesis Hinit : init_plugin ($"file") = Ok tt.
  Lemma known n t : split_dot n = None -> find_attr n file_plugin = Some t -> resolves n ($"file", n) t.
  Proof. now apply file_resolves. Qed.
  Ltac test s n o v t tv ic :=
    let K := fresh "K" in
    assert (K : resolves n ($"file", n) t) by (apply known; vm_compute; reflexivity);
    apply (verdict s n o None v ($"file", n) t tv ic); [vm_compute; reflexivity|vm_compute; reflexivity|exact K| |].

  Lemma type_f : str_eqb (type_of_mode (st_mode (e_status e))) ($"file") = true <-> Regular e.
  Proof.
    rewrite type_of_mode_spec. unfold Regular. pose proof (Z.mod_pos_bound (st_mode (e_status e) / 4096) 16 ltac:(lia)) as B.
    set (f := (st_mode (e_status e) / 4096) mod 16) in *. clearbody f.
    assert (H : In f [0;1;2;3;4;5;6;7;8;9;10;11;12;13;14;15]) by (cbn; lia).
    cbn [In] in H. repeat (destruct H as [<-|H]; [split; [vm_compute; first [reflexivity|discriminate]|first [reflexivity|lia]]|]). destruct H.
  Qed.
  Lemma test_type_f : Verdict ($"type=f") (Regular e).
  Proof.
    test ($"type=f") ($"type") ($"=") ($"f") TFileType (@TV R (VStr ($"f"))) false.
    - destruct K as [_ Ht]. unfold create_test. rewrite Ht. reflexivity.
    - change (attribute ($"file", $"type")) with (Some (VStr (type_of_mode (st_mode (e_status e))))). eexists. split; [reflexivity|apply type_f].
  Qed.

  Lemma test_hidden : Verdict ($"hidden=yes") (e_hidden e = true).
  Proof.
    test ($"hidden=yes") ($"hidden") ($"=") ($"yes") TBoolean (@TV R (VBool true)) false.
    - destruct K as [_ Ht]. apply create_plain; [exact Ht|now left| |reflexivity|reflexivity].
      cbn [input]. change (str_in (lower ($"yes")) (TRUE ++ FALSE)) with true. rewrite andb_false_r. reflexivity.
    - change (attribute ($"file", $"hidden")) with (Some (VBool (e_hidden e))). eexists. split; [reflexivity|].
      unfold TypeModel.boolean_test. destruct (e_hidden e); reflexivity.
  Qed.
  Lemma test_exec : Verdict ($"exec=yes") (~ Directory e /\ ~ Symlink e /\ (Allows e 6 \/ Allows e 3 \/ Allows e 0)).
  Proof.
    test ($"exec=yes") ($"exec") ($"=") ($"yes") TBoolean (@TV R (VBool true)) false.
    - destruct K as [_ Ht]. apply create_plain; [exact Ht|now left| |reflexivity|reflexivity].
      cbn [input]. change (str_in (lower ($"yes")) (TRUE ++ FALSE)) with true. rewrite andb_false_r. reflexivity.
    - change (attribute ($"file", $"exec")) with (Some (VBool (executable_of (st_mode (e_status e))))). eexists. split; [reflexivity|].
      pose proof (executable_spec (st_mode (e_status e))) as X. unfold Directory, Symlink, Allows.
      unfold TypeModel.boolean_test. destruct (executable_of (st_mode (e_status e))); cbn; intuition discriminate.
  Qed.
  Lemma mode_verdict v n (P : Prop) : parse_mode v = Ok n ->
    classify ($"perm:" ++ v) = TTest -> split_test ($"perm:" ++ v) = Some ($"perm", $":", None, v) ->
    ((forall i, permission i -> Z.testbit n i = true -> Allows e i) <-> P) -> Verdict ($"perm:" ++ v) P.
  Proof.
    intros Hv C S HP. assert (K : resolves ($"perm") ($"file", $"perm") TMode) by (apply known; vm_compute; reflexivity).
    apply (verdict _ ($"perm") ($":") None v ($"file", $"perm") TMode (TV (VInt n)) false P C S K).
    - destruct K as [_ Ht]. apply create_plain; [exact Ht|cbn; tauto| |reflexivity|reflexivity]. cbn [input]. now rewrite Hv.
    - change (attribute ($"file", $"perm")) with (Some (VInt (perm_of (st_mode (e_status e))))). eexists. split; [reflexivity|].
      rewrite <- HP, (mode_op ($":") ltac:(cbn; tauto)). unfold Allows. split.
      + intros M. inversion M as [|H|]. intros i Hi Hn. specialize (H i Hi Hn).
        unfold perm_of in H. rewrite Z.land_spec, andb_true_iff in H. apply H.
      + intros H. apply mode_all. intros i Hi Hn. unfold perm_of. rewrite Z.land_spec, (H i Hi Hn).
        change EntryModel.MODE_ALL with (Z.ones 12). rewrite Z.ones_spec_low; [reflexivity|exact Hi].
  Qed.
  Lemma bits_448 i : permission i -> Z.testbit 448 i = true <-> i = 8 \/ i = 7 \/ i = 6.
  Proof.
    intros [H0 H1]. assert (H : In i [0;1;2;3;4;5;6;7;8;9;10;11]) by (cbn; lia). clear H0 H1.
    cbn [In] in H. repeat (destruct H as [<-|H]; [split; [vm_compute; first [discriminate|tauto]|first [reflexivity|lia]]|]). destruct H.
  Qed.
  Lemma bits_64 i : permission i -> Z.testbit 64 i = true <-> i = 6.
  Proof.
    intros [H0 H1]. assert (H : In i [0;1;2;3;4;5;6;7;8;9;10;11]) by (cbn; lia). clear H0 H1.
    cbn [In] in H. repeat (destruct H as [<-|H]; [split; [vm_compute; first [discriminate|tauto]|first [reflexivity|lia]]|]). destruct H.
  Qed.
  Lemma test_perm_700 : Verdict ($"perm:700") (Allows e 8 /\ Allows e 7 /\ Allows e 6).
  Proof.
    apply (mode_verdict ($"700") 448); [vm_compute; reflexivity|vm_compute; reflexivity|vm_compute; reflexivity|]. split.
    - intros H. repeat split; apply H; try (unfold permission; lia); apply bits_448; unfold permission; lia.
    - intros (H1 & H2 & H3) i Hi Hn. apply bits_448 in Hn; [|exact Hi]. destruct Hn as [->|[->| ->]]; assumption.
  Qed.
  Lemma test_perm_ux : Verdict ($"perm:u+x") (Allows e 6).
  Proof.
    apply (mode_verdict ($"u+x") 64); [vm_compute; reflexivity|vm_compute; reflexivity|vm_compute; reflexivity|]. split.
    - intros H. apply H; [unfold permission; lia|reflexivity].
    - intros H i Hi Hn. apply bits_64 in Hn; [|exact Hi]. now subst i.
  Qed.
  Lemma string_eq_iff x v : string_test rsearch ignores ($"=") (TV (VStr v)) x = Ok (str_eqb (letters case x) v).
  Proof. unfold string_test. rewrite letters_ignores. reflexivity. Qed.
  Lemma string_in_iff x v : string_test rsearch ignores ($":") (TV (VStr v)) x = Ok (is_sub v (letters case x)).
  Proof. unfold string_test. rewrite letters_ignores. reflexivity. Qed.
  Lemma test_ext_mp4 : Verdict ($"ext=mp4") (letters case (e_ext e) = $"mp4").
  Proof.
    test ($"ext=mp4") ($"ext") ($"=") ($"mp4") TString (@TV R (VStr ($"mp4"))) ignores.
    - destruct K as [_ Ht]. apply string_create; [exact Ht|reflexivity|now left|reflexivity].
    - change (attribute ($"file", $"ext")) with (Some (VStr (e_ext e))). eexists. split; [apply string_eq_iff|apply str_eqb_eq].
  Qed.
  Lemma ge_op t v : number_test ($"+=") t v = true <-> t <= v.
  Proof. rewrite (number_op ($"+=") ltac:(cbn; tauto)). split; [intros H; now inversion H|now constructor]. Qed.
  Lemma gt_op t v : number_test ($"+") t v = true <-> t < v.
  Proof. rewrite (number_op ($"+") ltac:(cbn; tauto)). split; [intros H; now inversion H|now constructor]. Qed.
  Lemma test_size : Verdict ($"size+=100M") (100 * 1024 * 1024 <= size_of (e_status e)).
  Proof.
    test ($"size+=100M") ($"size") ($"+=") ($"100M") TSize (@TV R (VInt 104857600)) false.
    - destruct K as [_ Ht]. apply create_plain; [exact Ht|cbn; tauto| |reflexivity|reflexivity]. vm_compute. reflexivity.
    - change (attribute ($"file", $"size")) with (Some (VInt (size_of (e_status e)))). eexists. split; [reflexivity|].
      apply ge_op.
  Qed.
  Lemma test_links n : other e ($"links") = Some (VInt n) -> Verdict ($"links+1") (1 < n).
  Proof.
    intros H. test ($"links+1") ($"links") ($"+") ($"1") TNumber (@TV R (VInt 1)) false.
    - destruct K as [_ Ht]. apply create_plain; [exact Ht|cbn; tauto| |reflexivity|reflexivity]. vm_compute. reflexivity.
    - change (attribute ($"file", $"links")) with (other e ($"links")). rewrite H. eexists. split; [reflexivity|].
      apply gt_op.
  Qed.
  Lemma test_mtime n m : reference_value ($"file", $"mtime") ($"foo") = Ok (VInt n) -> other e ($"mtime") = Some (VInt m) ->
    Verdict ($"mtime+={}foo") (n <= m).
  Proof.
    intros Hr H. assert (K : resolves ($"mtime") ($"file", $"mtime") TTime) by (apply known; vm_compute; reflexivity).
    apply (verdict _ ($"mtime") ($"+=") (Some []) ($"foo") ($"file", $"mtime") TTime (TV (VInt n)) false).
    - vm_compute. reflexivity.
    - vm_compute. reflexivity.
    - exact K.
    - destruct K as [_ Ht]. unfold create_test, get_reference_value. rewrite Ht. cbn [bindr]. rewrite Ht. cbn [bindr].
      change (get_common_super_type TTime TTime) with (Some (CSub TTime)). cbv iota. rewrite Hr. reflexivity.
    - change (attribute ($"file", $"mtime")) with (other e ($"mtime")). rewrite H. eexists. split; [reflexivity|].
      apply ge_op.
  Qed.
  Lemma test_time now m : parse_time ($"1h30m") = Ok (now - 90 * 60) -> other e ($"time") = Some (VInt m) ->
    Verdict ($"time+=1h30m") (now - 90 * 60 <= m).
  Proof.
    intros Hr H. test ($"time+=1h30m") ($"time") ($"+=") ($"1h30m") TTime (@TV R (VInt (now - 90 * 60))) false.
    - destruct K as [_ Ht]. apply create_plain; [exact Ht|cbn; tauto| |reflexivity|reflexivity]. cbn [input]. now rewrite Hr.
    - change (attribute ($"file", $"time")) with (other e ($"time")). rewrite H. eexists. split; [reflexivity|].
      apply ge_op.
  Qed.
  Definition star_txt : pattern :=
    {| p_negated := false; p_leading := false; p_elems := [PName (IStar :: map ILit ($".txt"))]; p_directory := false |}.
  Lemma literal_match l y : NameMatch (map ILit l) y <-> y = l.
  Proof.
    split.
    - revert y. induction l as [|c l IH]; intros y H; inversion H as [|? ? x z Hx Hz]; subst; [reflexivity|].
      inversion Hx; subst. cbn [app]. f_equal. now apply IH.
    - intros ->. induction l as [|c l IH]; [constructor|]. exact (nm_cons _ _ [c] l (im_lit c) IH).
  Qed.
  Lemma test_txt : ~ In SLASH (e_name e) ->
    Verdict ($"name%*.txt") (exists x y, letters case (e_name e) = x ++ $".txt" ++ y /\ (y = [] \/ y = [NL])).
  Proof.
    intros Hn. assert (K : resolves ($"name") ($"file", $"name") TString) by (apply known; vm_compute; reflexivity).
    apply (verdict _ ($"name") ($"%") None ($"*.txt") ($"file", $"name") TString (TGlob (translate ($"*.txt") false)) ignores).
    - vm_compute. reflexivity.
    - vm_compute. reflexivity.
    - exact K.
    - destruct K as [_ Ht]. unfold create_test. rewrite Ht. cbn [bindr]. unfold ignores. destruct case; reflexivity.
    - change (attribute ($"file", $"name")) with (Some (VStr (e_name e))). cbn [type_test]. unfold string_test. rewrite letters_ignores.
      change (str_eqb ($"%") ($"%")) with true. cbv iota.
      assert (G : name_glob star_txt (IStar :: map ILit ($".txt"))).
      { split; [|split; [|reflexivity]].
        - split; [reflexivity|]. split; [reflexivity|]. split; [discriminate|]. split; [|vm_compute; tauto].
          repeat constructor; vm_compute; intuition discriminate.
        - intros _. vm_compute. intuition discriminate. }
      destruct (glob_value R rcompile parse_time init_plugin reference_value star_txt _ (letters case (e_name e)) G) as (b & E & B).
      change (pattern_text star_txt) with ($"*.txt") in E. exists b. split; [exact E|]. rewrite B. cbn [p_negated star_txt].
      assert (L : ~ In SLASH (letters case (e_name e))).
      { unfold letters. destruct case; [| |exact Hn]; rewrite lower_in by reflexivity; exact Hn. }
      unfold GlobMatch. split.
      + intros (y & M & D). inversion M as [|? ? x z Hx Hz]; subst. apply (literal_match ($".txt")) in Hz. subst z.
        destruct D as [->| ->]; [exists x, []|exists x, [NL]]; rewrite <- ?app_assoc; [rewrite app_nil_r|]; auto.
      + intros (x & y & E' & D). exists (x ++ $".txt"). split.
        * apply nm_cons; [|now apply literal_match]. constructor. intros Hx. apply L. rewrite E'. apply in_or_app. now left.
        * rewrite E'. destruct D as [->| ->]; [left; now rewrite app_nil_r|right; now rewrite <- app_assoc].
  Qed.

  (** ** What is found *)
  Lemma find_regular : a_tests a = [$"type=f"] -> exists b, matched a e = Ok b /\ (b = true <-> Regular e).
  Proof. intros E. exact (one_test _ _ E test_type_f). Qed.
  Lemma find_hidden names st : root (e_start e) = $"/home/user" ->
    names <> [] -> Forall name_ok names -> mk_entry (e_start e) (walk_relpath names) st = Ok e ->
    a_tests a = [$"hidden=yes"] -> exists b, matched a e = Ok b /\ (b = true <-> Exists dotted names).
  Proof.
    intros Hs N F M E. destruct (one_test _ _ E test_hidden) as (b & K & B). exists b. split; [exact K|]. rewrite B.
    apply (entry_hidden_plain (e_start e) names st e); [rewrite Hs; discriminate|exact N|exact F| |exact M].
    right. rewrite Hs. intros H. rewrite <- existsb_dotted in H. vm_compute in H. discriminate.
  Qed.
  Lemma find_txt : ~ In SLASH (e_name e) -> a_tests a = [$"name%*.txt"] -> exists b, matched a e = Ok b /\
    (b = true <-> exists x y, letters case (e_name e) = x ++ $".txt" ++ y /\ (y = [] \/ y = [NL])).
  Proof. intros N E. exact (one_test _ _ E (test_txt N)). Qed.
  Lemma find_perm_700 : a_tests a = [$"type=f"; $"perm:700"] -> exists b, matched a e = Ok b /\
    (b = true <-> Regular e /\ Allows e 8 /\ Allows e 7 /\ Allows e 6).
  Proof. intros E. exact (two_tests _ _ _ _ E test_type_f test_perm_700). Qed.
  Lemma find_perm_ux : a_tests a = [$"type=f"; $"perm:u+x"] -> exists b, matched a e = Ok b /\ (b = true <-> Regular e /\ Allows e 6).
  Proof. intros E. exact (two_tests _ _ _ _ E test_type_f test_perm_ux). Qed.
  Lemma find_exec : a_tests a = [$"exec=yes"] -> exists b, matched a e = Ok b /\
    (b = true <-> ~ Directory e /\ ~ Symlink e /\ (Allows e 6 \/ Allows e 3 \/ Allows e 0)).
  Proof. intros E. exact (one_test _ _ E test_exec). Qed.
  Lemma find_big : a_tests a = [$"ext=mp4"; $"size+=100M"] -> exists b, matched a e = Ok b /\
    (b = true <-> letters case (e_ext e) = $"mp4" /\ Regular e /\ 100 * 1024 * 1024 <= st_size (e_status e)).
  Proof.
    intros E. destruct (two_tests _ _ _ _ E test_ext_mp4 test_size) as (b & K & B). exists b. split; [exact K|]. rewrite B.
    rewrite size_of_spec. unfold Regular. destruct (Z.eqb_spec ((st_mode (e_status e) / 4096) mod 16) 8); intuition lia.
  Qed.
  Lemma find_links n : other e ($"links") = Some (VInt n) -> a_tests a = [$"type=f"; $"links+1"] -> exists b, matched a e = Ok b /\
    (b = true <-> Regular e /\ 1 < n).
  Proof. intros H E. exact (two_tests _ _ _ _ E test_type_f (test_links n H)). Qed.
  Lemma find_newer n m : reference_value ($"file", $"mtime") ($"foo") = Ok (VInt n) -> other e ($"mtime") = Some (VInt m) ->
    a_tests a = [$"type=f"; $"mtime+={}foo"] -> exists b, matched a e = Ok b /\ (b = true <-> Regular e /\ n <= m).
  Proof. intros Hr H E. exact (two_tests _ _ _ _ E test_type_f (test_mtime n m Hr H)). Qed.
  Lemma find_recent now m : parse_time ($"1h30m") = Ok (now - 90 * 60) -> other e ($"time") = Some (VInt m) ->
    a_tests a = [$"type=f"; $"time+=1h30m"] -> exists b, matched a e = Ok b /\ (b = true <-> Regular e /\ now - 90 * 60 <= m).
  Proof. intros Hr H E. exact (two_tests _ _ _ _ E test_type_f (test_time now m Hr H)). Qed.
  End File.

  (** ** Other plugins *)
  Lemma list_hold v o l : (forall x, string_test rsearch ignores o (TV (VStr v)) x = Ok (if str_eqb o ($"=") then str_eqb (letters case x) v else is_sub v (letters case x))) ->
    exists b, list_test rsearch ignores o (TV (VStr v)) l = Ok b /\
      (b = true <-> exists x, In x l /\ (if str_eqb o ($"=") then str_eqb (letters case x) v else is_sub v (letters case x)) = true).
  Proof.
    intros H. induction l as [|x l (b & E & B)]; cbn [list_test].
    - exists false. split; [reflexivity|]. split; [discriminate|]. now intros (? & [] & _).
    - rewrite H. cbn [bindr]. destruct (if str_eqb o ($"=") then _ else _) eqn:F.
      + exists true. split; [reflexivity|]. split; [|reflexivity]. intros _. exists x. split; [now left|exact F].
      + exists b. split; [exact E|]. rewrite B. split; [intros (y & K & Q); exists y; split; [now right|exact Q]|].
        intros (y & [->|K] & Q); [congruence|eauto].
  Qed.
  Lemma find_members l : resolves ($"members") ($"tar", $"members") TListOfStrings -> plugin_value e ($"tar", $"members") = Some (VList l) ->
    a_tests a = [$"members:setup.py"] -> exists b, matched a e = Ok b /\
    (b = true <-> exists x, In x l /\ Contains ($"setup.py") (letters case x)).
  Proof.
    intros Hr H E. apply (one_test _ _ E).
    apply (verdict _ ($"members") ($":") None ($"setup.py") ($"tar", $"members") TListOfStrings (TV (VStr ($"setup.py"))) ignores).
    - vm_compute. reflexivity.
    - vm_compute. reflexivity.
    - exact Hr.
    - destruct Hr as [_ Ht]. apply string_create; [exact Ht|reflexivity|cbn; tauto|reflexivity].
    - change (attribute ($"tar", $"members")) with (plugin_value e ($"tar", $"members")). rewrite H. cbn [type_test].
      destruct (list_hold ($"setup.py") ($":") l) as (b & K & B); [intros x; apply string_in_iff|]. exists b. split; [exact K|]. rewrite B.
      change (str_eqb ($":") ($"=")) with false. cbv iota. unfold Contains. split; intros (x & Hx & Q); exists x; (split; [exact Hx|]); now apply is_sub_iff.
  Qed.
  Lemma find_sonames l : resolves ($"sonames") ($"elf", $"sonames") TListOfStrings -> plugin_value e ($"elf", $"sonames") = Some (VList l) ->
    a_tests a = [$"sonames=libz.so.1"] -> exists b, matched a e = Ok b /\
    (b = true <-> exists x, In x l /\ letters case x = $"libz.so.1").
  Proof.
    intros Hr H E. apply (one_test _ _ E).
    apply (verdict _ ($"sonames") ($"=") None ($"libz.so.1") ($"elf", $"sonames") TListOfStrings (TV (VStr ($"libz.so.1"))) ignores).
    - vm_compute. reflexivity.
    - vm_compute. reflexivity.
    - exact Hr.
    - destruct Hr as [_ Ht]. apply string_create; [exact Ht|reflexivity|cbn; tauto|reflexivity].
    - change (attribute ($"elf", $"sonames")) with (plugin_value e ($"elf", $"sonames")). rewrite H. cbn [type_test].
      destruct (list_hold ($"libz.so.1") ($"=") l) as (b & K & B); [intros x; apply string_eq_iff|]. exists b. split; [exact K|]. rewrite B.
      change (str_eqb ($"=") ($"=")) with true. cbv iota. split; intros (x & Hx & Q); exists x; (split; [exact Hx|]); now apply str_eqb_eq.
  Qed.
End Examples.

(** ** Times *)
Lemma find_recent_clock R rcompile rsearch timestamp now clock debug case registered init_plugin reference_value score other plugin_value a e m :
  find_plugin registered ($"file") = Some file_plugin -> init_plugin ($"file") = Ok tt ->
  90 * 60 * 1000000 <= clock -> other e ($"time") = Some (VInt m) -> a_tests a = [$"type=f"; $"time+=1h30m"] ->
  exists b, search_matched R rcompile rsearch (TimeModel.parse_time timestamp now clock) debug case registered init_plugin reference_value score other plugin_value a e = Ok b /\
    (b = true <-> Regular e /\ clock / 1000000 - 90 * 60 <= m).
Proof.
  intros Hf Hi Hc Hm E. apply find_recent; [exact Hf|exact Hi| |exact Hm|exact E].
  rewrite (TimeMoreProofs.parse_ago timestamp now clock ($"1h30m") 5400).
  - f_equal. rewrite Z.quot_div_nonneg by lia. replace (clock - 5400 * 1000000) with (clock + (- 5400) * 1000000) by lia.
    rewrite Z.div_add by lia. lia.
  - apply (dur_cons ($"1") 104%N 3600 ($"30m") 1800).
    + split; [discriminate|]. intros c Hin. cbn in Hin. intuition; subst c; lia.
    + exact u_h.
    + apply (dur_cons ($"30") 109%N 60 [] 0).
      * split; [discriminate|]. intros c Hin. cbn in Hin. intuition; subst c; lia.
      * exact u_m.
      * constructor.
  - discriminate.
Qed.

(** ** Examples that say something else *)
Definition status_entry (m size : Z) : entry :=
  Entry (Start ($".") ($"/home") 1) ($"foo.mp4") (Status m size 1) ($"foo.mp4") ($"/home/foo.mp4") [] ($"foo.mp4") false.
Section Wrong.
  Variable R : Type.
  Variable rcompile : str -> res R.
  Variable rsearch : R -> str -> bool.
  Variable parse_time : str -> res Z.
  Variable debug : bool.
  Variable case : case_mode.
  Variable registered : list plugin.
  Variable init_plugin : str -> res unit.
  Variable reference_value : str * str -> str -> res value.
  Variable score : test R -> Z.
  Variable other : entry -> str -> option value.
  Variable plugin_value : entry -> str * str -> option value.
  Notation matched := (search_matched R rcompile rsearch parse_time debug case registered init_plugin reference_value score other plugin_value).
  Hypothesis Hfile : find_plugin registered ($"file") = Some file_plugin.
  Hypothesis Hinit : init_plugin ($"file") = Ok tt.
  Lemma executable_order a1 a2 a3 e : a_tests a1 = [$"type=f"; $"perm:700"] -> a_tests a2 = [$"type=f"; $"perm:u+x"] -> a_tests a3 = [$"exec=yes"] ->
    (matched a1 e = Ok true -> matched a2 e = Ok true) /\ (matched a2 e = Ok true -> matched a3 e = Ok true).
  Proof.
    intros E1 E2 E3.
    destruct (find_perm_700 R rcompile rsearch parse_time debug case registered init_plugin reference_value score other plugin_value a1 e Hfile Hinit E1) as (b1 & -> & B1).
    destruct (find_perm_ux R rcompile rsearch parse_time debug case registered init_plugin reference_value score other plugin_value a2 e Hfile Hinit E2) as (b2 & -> & B2).
    destruct (find_exec R rcompile rsearch parse_time debug case registered init_plugin reference_value score other plugin_value a3 e Hfile Hinit E3) as (b3 & -> & B3).
    split.
    - intros K. injection K as ->. f_equal. apply B2. destruct B1 as [B1 _]. destruct (B1 eq_refl) as (? & ? & ? & ?). now split.
    - intros K. injection K as ->. f_equal. apply B3. destruct B2 as [B2 _]. destruct (B2 eq_refl) as (K1 & K2).
      unfold Regular, Directory, Symlink in *. split; [lia|]. split; [lia|now left].
  Qed.
  (** r-x------ and ------x--- *)
  Lemma executable_wrong a1 a2 a3 : a_tests a1 = [$"type=f"; $"perm:700"] -> a_tests a2 = [$"type=f"; $"perm:u+x"] -> a_tests a3 = [$"exec=yes"] ->
    (exists e, Regular e /\ Allows e 6 /\ matched a1 e = Ok false /\ matched a2 e = Ok true) /\
    (exists e, Regular e /\ ~ Allows e 6 /\ matched a2 e = Ok false /\ matched a3 e = Ok true) /\
    (exists e, ~ Regular e /\ matched a3 e = Ok true).
  Proof.
    intros E1 E2 E3.
    assert (F1 := fun e => find_perm_700 R rcompile rsearch parse_time debug case registered init_plugin reference_value score other plugin_value a1 e Hfile Hinit E1).
    assert (F2 := fun e => find_perm_ux R rcompile rsearch parse_time debug case registered init_plugin reference_value score other plugin_value a2 e Hfile Hinit E2).
    assert (F3 := fun e => find_exec R rcompile rsearch parse_time debug case registered init_plugin reference_value score other plugin_value a3 e Hfile Hinit E3).
    split; [|split].
    - exists (status_entry 33088 0). split; [reflexivity|]. split; [reflexivity|]. split.
      + destruct (F1 (status_entry 33088 0)) as ([|] & -> & B); [|reflexivity]. destruct (proj1 B eq_refl) as (_ & _ & K & _). discriminate K.
      + destruct (F2 (status_entry 33088 0)) as (b & -> & B). f_equal. apply B. now split.
    - exists (status_entry 32776 0). split; [reflexivity|]. split; [discriminate|]. split.
      + destruct (F2 (status_entry 32776 0)) as ([|] & -> & B); [|reflexivity]. destruct (proj1 B eq_refl) as (_ & K). discriminate K.
      + destruct (F3 (status_entry 32776 0)) as (b & -> & B). f_equal. apply B. split; [discriminate|]. split; [discriminate|]. right. now left.
    - exists (status_entry 4160 0). split; [discriminate|].
      destruct (F3 (status_entry 4160 0)) as (b & -> & B). f_equal. apply B. split; [discriminate|]. split; [discriminate|]. now left.
  Qed.
  Lemma bigger_wrong a : a_tests a = [$"ext=mp4"; $"size+=100M"] ->
    exists e, ~ 100 * 1024 * 1024 < st_size (e_status e) /\ matched a e = Ok true.
  Proof.
    intros E. exists (status_entry 33188 (100 * 1024 * 1024)). split; [cbn; lia|].
    destruct (find_big R rcompile rsearch parse_time debug case registered init_plugin reference_value score other plugin_value a
                (status_entry 33188 (100 * 1024 * 1024)) Hfile Hinit E) as (b & -> & B). f_equal. apply B.
    split; [|split; [reflexivity|cbn; lia]]. unfold letters. destruct case; vm_compute; reflexivity.
  Qed.
  Lemma newer_wrong a e n : a_tests a = [$"type=f"; $"mtime+={}foo"] -> reference_value ($"file", $"mtime") ($"foo") = Ok (VInt n) ->
    Regular e -> other e ($"mtime") = Some (VInt n) -> matched a e = Ok true.
  Proof.
    intros E Hr He Ho.
    destruct (find_newer R rcompile rsearch parse_time debug case registered init_plugin reference_value score other plugin_value a
                e Hfile Hinit n n Hr Ho E) as (b & -> & B). f_equal. apply B. split; [exact He|lia].
  Qed.
End Wrong.


(** EXAMPLES.md:68-79 *)
Lemma writes_short b n op o c v : (b = [] \/ b = [32%N]) -> word n -> operator op o -> ExprSpec.value (c :: v) -> is_w c = true ->
  Writes (n ++ b ++ op ++ b ++ c :: v) n o None (c :: v).
Proof.
  intros Hb Hn Ho Hv Hc.
  assert (B : blanks b) by (destruct Hb as [->| ->]; intros x Hx; cbn in Hx; intuition; subst; reflexivity).
  assert (N : blanks []) by (intros x []).
  assert (Sp : is_space c = false).
  { destruct (is_space c) eqn:E; [|reflexivity]. rewrite (space_not_w c E) in Hc. discriminate. }
  pose proof (Writes_intro [] n b op o None [] b (c :: v) [] N (or_introl Hn) B Ho ref_none B Hv N I) as K.
  unfold written in K. cbn [app] in K. rewrite app_nil_r in K. apply K.
  - cbn. now rewrite Sp.
  - intros _ _. cbn. intros <-. discriminate Hc.
  - intros _ _ _. cbn. intros <-. discriminate Hc.
Qed.
Lemma word_name n : n <> [] -> forallb is_w n = true -> word n.
Proof. intros N H. split; [exact N|]. now rewrite forallb_forall in H. Qed.
Lemma class_kind t : match classify t with TAnd => is_AND t | TOr => is_OR t | TNot => is_NOT t
  | TOpen => is_open t | TClose => is_close t | TTest => is_test t end.
Proof. pose proof (classify_spec t) as K. destruct (classify t); auto. Qed.
Lemma same_writing n op op' o c v : word n -> operator op o -> operator op' o -> ExprSpec.value (c :: v) -> is_w c = true ->
  classify (n ++ op ++ c :: v) = TTest -> classify (n ++ $" " ++ op' ++ $" " ++ c :: v) = TTest ->
  Same (n ++ op ++ c :: v) (n ++ $" " ++ op' ++ $" " ++ c :: v).
Proof.
  intros Hn Ho Ho' Hv Hc C C'. apply (same_test _ _ n o None (c :: v)); [now apply test_token|now apply test_token| |].
  - exact (writes_short [] n op o c v (or_introl eq_refl) Hn Ho Hv Hc).
  - exact (writes_short [32%N] n op' o c v (or_intror eq_refl) Hn Ho' Hv Hc).
Qed.
Lemma plain_value v : v <> [] -> has_char NL v = false -> ExprSpec.value v.
Proof. intros N H. split; [exact N|]. now apply has_char_false. Qed.
Lemma video_same : Forall2 Same video_short video_long.
Proof.
  constructor; [apply same_open; [now right|now left]|].
  constructor; [apply (same_writing ($"ext") ($"=") ($"=") ($"=") 109%N ($"kv"));
    [now apply word_name|constructor|constructor|now apply plain_value|reflexivity|vm_compute; reflexivity|vm_compute; reflexivity]|].
  constructor; [apply same_or; exact (class_kind ($"or"))|].
  constructor; [apply (same_writing ($"ext") ($"=") ($"=") ($"=") 109%N ($"p4"));
    [now apply word_name|constructor|constructor|now apply plain_value|reflexivity|vm_compute; reflexivity|vm_compute; reflexivity]|].
  constructor; [apply same_close; [now right|now left]|].
  constructor; [apply same_and; exact (class_kind ($"and"))|].
  constructor; [apply same_open; [now right|now left]|].
  constructor; [apply (same_writing ($"height") ($"+=") ($">=") ($"+=") 55%N ($"20"));
    [now apply word_name|constructor|constructor|now apply plain_value|reflexivity|vm_compute; reflexivity|vm_compute; reflexivity]|].
  constructor; [apply same_and; exact (class_kind ($"and"))|].
  constructor; [apply (same_writing ($"height") ($"-=") ($"<=") ($"-=") 49%N ($"080"));
    [now apply word_name|constructor|constructor|now apply plain_value|reflexivity|vm_compute; reflexivity|vm_compute; reflexivity]|].
  constructor; [apply same_close; [now right|now left]|]. constructor.
Qed.
