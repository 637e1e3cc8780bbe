(** C17-C19: glob patterns and ignore files.  See DESIGN.md. *)
From Coq Require Import List NArith ZArith Bool Permutation Lia.
From Verif Require Import Py Re ReJoin PathModel PathSpec GlobModel GlobSpec GlobPathProofs GlobExactProofs IgnoreModel IgnoreSpec
  IgnoreProofs IgnoreListProofs IgnoreTreeProofs.
Import ListNotations.
Local Open Scope nat_scope.

Definition ex_set : list (char * char) := [(97%N, 99%N); (120%N, 120%N)].
(** Side conditions on concrete patterns. *)
Local Ltac side :=
  repeat match goal with
  | |- _ /\ _ => split
  | |- context [ex_set] => unfold ex_set
  | |- Forall _ [] => constructor
  | |- Forall _ (_ :: _) => constructor
  | |- name_pattern _ => split
  | |- item_ok _ => unfold item_ok
  | |- item_no_slash _ => unfold item_no_slash
  | |- range_ok _ => unfold range_ok, set_char_ok
  | |- no_double _ => unfold no_double
  | |- entry_name _ => unfold entry_name
  | |- True => exact I
  | |- _ = _ => reflexivity
  | |- _ <> _ => discriminate
  | |- (_ <= _)%N => vm_compute; discriminate
  | |- ~ Exists _ _ => let H := fresh in intros H; repeat (apply Exists_cons in H as [[H1 H2]|H]; [vm_compute in H1, H2; congruence|]); now apply Exists_nil in H
  | |- ~ In _ _ => let H := fresh in vm_compute; intros H; repeat (destruct H as [H|H]; [discriminate|]); exact H
  end.

(** C17.  Patterns for a path match component by component. *)
Theorem C17_path_partial : forall p k ns base is_dir,
  for_path p -> starts_plain p -> Forall entry_name ns -> ns <> [] ->
  exists b, glob_match (translate (pattern_text p) true) (repeat SLASH k ++ join_with ($"/") ns) base is_dir = COk b /\
    (b = true <-> PathMatch (p_elems p) ns /\ (p_directory p = true -> is_dir = true)).
Proof. exact glob_path. Qed.
Print Assumptions C17_path_partial.
(** For any text and also for sets that contain the slash *)
Theorem C17_path_exact : forall p path base is_dir, path_form p -> starts_plain p ->
  exists b, glob_match (translate (pattern_text p) true) path base is_dir = COk b /\
    (b = true <-> (exists k x y, path = repeat SLASH k ++ x /\ (forall z, x <> SLASH :: z) /\
                    TextMatch (p_elems p) y /\ (x = y \/ x = y ++ [NL])) /\
                  (p_directory p = true -> is_dir = true)).
Proof. exact glob_path_exact. Qed.
Print Assumptions C17_path_exact.
(** x/[!b]/**: a set that matches the slash, and newlines *)
Definition ex_wide : pattern :=
  {| p_negated := false; p_leading := false; p_directory := false;
     p_elems := [PName [ILit 120%N]; PName [ISet true [(98%N, 98%N)]]; PDeep] |}.
Example C17_exact_example : path_form ex_wide /\ starts_plain ex_wide /\ pattern_text ex_wide = $"x/[!b]/**" /\
  TextMatch (p_elems ex_wide) ($"x//") /\ TextMatch (p_elems ex_wide) ([120; 47; NL; 47]%N ++ $"a") /\
  ~ TextMatch (p_elems ex_wide) ([120; 47; 97; 47; NL]%N ++ $"a").
Proof.
  split; [|split; [|split; [|split; [|split]]]].
  - split; [right; cbn; auto|]. split; [|split; discriminate]. cbn [ex_wide p_elems elems_ok]. side.
  - intros _. vm_compute. intuition discriminate.
  - reflexivity.
  - apply (text_name _ _ ($"x") ($"//")); [apply (nm_cons _ _ ($"x") []); constructor|].
    apply (after_name _ _ ($"/") []); [|constructor]. apply (nm_cons _ _ ($"/") []); [|constructor]. constructor. side.
  - apply (text_name _ _ ($"x") ([47; NL; 47]%N ++ $"a")); [apply (nm_cons _ _ ($"x") []); constructor|].
    apply (after_name _ _ [NL] ($"/a")); [apply (nm_cons _ _ [NL] []); [|constructor]; constructor; side|].
    apply (after_gap ($"a")). split; [discriminate|]. vm_compute. intuition discriminate.
  - intros H. inversion H as [? ? a b N A E1 E2| | ]; subst. clear H.
    inversion N as [|? ? c d I1 N1]; subst. inversion I1; subst. inversion N1; subst. injection E2 as E2. subst b.
    inversion A as [|? ? a' b' N' A' E3 E4| | | | ]; subst. clear A.
    inversion N' as [|? ? c' d' I1' N1']; subst. inversion I1'; subst. inversion N1'; subst. injection E4 as -> E4. subst b'.
    inversion A' as [| | |g [_ G]| | ]; subst. apply G. now left.
Qed.
(** Patterns without a slash match the base name. *)
Theorem C17_name_partial : forall p l path base is_dir,
  for_name p l -> starts_plain p -> ~ In NL base ->
  exists b, glob_match (translate (pattern_text p) true) path base is_dir = COk b /\
    (b = true <-> NameMatch l base /\ (p_directory p = true -> is_dir = true)).
Proof. exact glob_name. Qed.
Print Assumptions C17_name_partial.
(** For all names: a newline at the end of the name is not looked at. *)
Theorem C17_name_exact : forall p l path base is_dir, for_name p l -> starts_plain p ->
  exists b, glob_match (translate (pattern_text p) true) path base is_dir = COk b /\
    (b = true <-> (exists y, NameMatch l y /\ (base = y \/ base = y ++ [NL])) /\ (p_directory p = true -> is_dir = true)).
Proof. exact glob_name_exact. Qed.
Print Assumptions C17_name_exact.
(** A leading ! inverts. *)
Theorem C17_negation : forall p, starts_plain p -> (for_path p \/ exists l, for_name p l) ->
  g_include (translate (pattern_text p) true) = negb (p_negated p).
Proof. exact glob_include. Qed.
Print Assumptions C17_negation.
Definition ex_pattern : pattern :=
  {| p_negated := true; p_leading := false; p_directory := true;
     p_elems := [PName [ILit 115%N; IStar]; PDeep; PName [IAny; ILit 46%N; ISet false ex_set]] |}.
Example C17_example : for_path ex_pattern /\ starts_plain ex_pattern /\ pattern_text ex_pattern = $"!s*/**/?.[a-cx]/" /\
  PathMatch (p_elems ex_pattern) [$"src"; $"lib"; $"deep"; $"q.x"] /\ Forall entry_name [$"src"; $"lib"; $"deep"; $"q.x"].
Proof.
  split; [|split; [|split; [|split]]].
  - split; [|intros i [E|[E|[E|[]]]]; try discriminate E; injection E as <-; side]. split; [right; cbn; auto|]. split; [|split; discriminate].
    cbn [ex_pattern p_elems elems_ok ex_set]. side.
  - intros _. vm_compute. intuition discriminate.
  - reflexivity.
  - cbn [ex_pattern p_elems]. apply pm_name.
    + apply (nm_cons _ _ ($"s") ($"rc")); [constructor|]. apply (nm_cons _ _ ($"rc") []); [|constructor].
      constructor. vm_compute. intuition discriminate.
    + apply (pm_deep _ [$"lib"; $"deep"]). apply pm_name; [|constructor].
      apply (nm_cons _ _ ($"q")); [constructor; discriminate|].
      apply (nm_cons _ _ ($".")); [constructor|]. apply (nm_cons _ _ ($"x") []); [|constructor].
      constructor. right. left. vm_compute. now split.
  - repeat constructor; vm_compute; intuition discriminate.
Qed.
(** Without the restriction on newlines it is false: the pattern foo matches
    the name "foo\n". *)
Theorem C17_newline_refuted : exists p l path base,
  for_name p l /\ starts_plain p /\ glob_match (translate (pattern_text p) true) path base false = COk true /\
  ~ NameMatch l base.
Proof.
  exists {| p_negated := false; p_leading := false; p_directory := false; p_elems := [PName [ILit 102%N]] |},
    [ILit 102%N], [], [102%N; NL].
  split; [|split; [|split]].
  - split; [reflexivity|]. split; [reflexivity|]. side.
  - intros _. vm_compute. intuition discriminate.
  - vm_compute. reflexivity.
  - intros H. inversion H as [|i l a b H1 H2 E1 E2]; subst. inversion H1; subst. inversion H2; subst. discriminate.
Qed.
Print Assumptions C17_newline_refuted.

(** C18.  Whatever string a pattern for a path without ** matches, each of its
    components matches one component of it.  (Sets that contain the slash and
    negated sets are excluded by [for_path].) *)
Theorem C18_partial : forall p path base is_dir,
  for_path p -> starts_plain p -> (forall e, In e (p_elems p) -> e <> PDeep) -> ~ In NL path ->
  glob_match (translate (pattern_text p) true) path base is_dir = COk true ->
  exists k ns, path = repeat SLASH k ++ join_with ($"/") ns /\ PathMatch (p_elems p) ns /\ Forall (fun n => ~ In SLASH n) ns.
Proof. exact glob_components. Qed.
Print Assumptions C18_partial.
Definition ex_flat : pattern :=
  {| p_negated := false; p_leading := true; p_directory := false;
     p_elems := [PName [ILit 97%N; IStar]; PName [IAny; ISet false ex_set]] |}.
Example C18_example : for_path ex_flat /\ starts_plain ex_flat /\ (forall e, In e (p_elems ex_flat) -> e <> PDeep) /\
  glob_match (translate (pattern_text ex_flat) true) ($"/abc/zb") [] false = COk true /\
  glob_match (translate (pattern_text ex_flat) true) ($"/abc/d/zb") [] false = COk false.
Proof.
  split; [|split; [|split; [|split]]].
  - split; [|intros i [E|[E|[]]]; injection E as <-; side]. split; [now left|]. split; [|split; discriminate].
    cbn [ex_flat p_elems elems_ok ex_set]. side.
  - discriminate.
  - intros e [<-|[<-|[]]]; discriminate.
  - vm_compute. reflexivity.
  - vm_compute. reflexivity.
Qed.
(** A negated set matches the separator: x/a[!b]c matches x/a/c, a path with
    three components. *)
Theorem C18_refuted : exists p ns is_dir,
  Forall entry_name ns /\ length (p_elems p) = 2 /\ length ns = 3 /\
  pattern_text p = $"x/a[!b]c" /\ (forall e, In e (p_elems p) -> e <> PDeep) /\
  glob_match (translate (pattern_text p) true) (join_with ($"/") ns) (last ns []) is_dir = COk true.
Proof.
  exists {| p_negated := false; p_leading := false; p_directory := false;
     p_elems := [PName [ILit 120%N]; PName [ILit 97%N; ISet true [(98%N, 98%N)]; ILit 99%N]] |},
    [$"x"; $"a"; $"c"], false.
  split; [repeat constructor; vm_compute; intuition discriminate|]. repeat (split; [reflexivity|]).
  split; [|vm_compute; reflexivity]. intros e [<-|[<-|[]]]; discriminate.
Qed.
Print Assumptions C18_refuted.

(** C19.  If every single pattern of the files compiles, the last pattern that
    applies decides. *)
Theorem C19_partial : forall files path name is_dir,
  Forall (fun f => fst (fst f) <> []) files -> Forall rule_valid (flat_map file_rules files) ->
  exists igs v, Forall2 (fun (f : file) ig => let '(d, n, lines) := f in new_gitignore d n lines = COk ig) files igs /\
    Decided (rule_applies path name is_dir) None (flat_map file_rules files) v /\
    git_match igs path name is_dir = answer v.
Proof. exact git_match_decides. Qed.
Print Assumptions C19_partial.
Theorem C19_unique : forall (A : Type) (P : A -> Prop) d l v w, Decided P d l v -> Decided P d l w -> v = w.
Proof. exact @decided_unique. Qed.
Print Assumptions C19_unique.
(** The same for files with well-formed patterns in a tree of directories, in
    terms of components only. *)
Theorem C19_tree : forall files e is_dir,
  e <> [] -> Forall tree_component e -> Forall (tree_file_ok e) files ->
  exists igs v,
    Forall2 (fun (f : tree_file) ig => let '(d, n, ps) := f in
      new_gitignore (abs_dir d) n (map pattern_text ps) = COk ig) files igs /\
    Decided (rule_at e is_dir) None (flat_map tree_rules files) v /\
    git_match igs (abs_dir e) (last e []) is_dir = tree_answer v.
Proof. exact tree_decides. Qed.
Print Assumptions C19_tree.
Definition ex_keep : pattern :=
  {| p_negated := true; p_leading := false; p_directory := false; p_elems := [PName [ILit 107%N; IStar]] |}.
Definition ex_all : pattern :=
  {| p_negated := false; p_leading := false; p_directory := false; p_elems := [PName [IStar; ILit 46%N; ILit 111%N]] |}.
Definition ex_files : list tree_file :=
  [([], $".gitignore", [ex_keep; ex_all]); ([$"src"], $".ignore", [ex_all; ex_all; ex_keep; ex_flat])].
Example C19_example : Forall tree_component [$"src"; $"k.o"] /\ Forall (tree_file_ok [$"src"; $"k.o"]) ex_files /\
  Decided (rule_at [$"src"; $"k.o"] false) None (flat_map tree_rules ex_files) (Some ([$"src"], $".ignore", ex_keep)).
Proof.
  assert (W1 : well_formed ex_keep /\ line_ok (pattern_text ex_keep)).
  { split; [|split; reflexivity]. split; [intros _; vm_compute; intuition discriminate|]. right. eexists.
    split; [reflexivity|]. split; [reflexivity|]. side. }
  assert (W2 : well_formed ex_all /\ line_ok (pattern_text ex_all)).
  { split; [|split; reflexivity]. split; [intros _; vm_compute; intuition discriminate|]. right. eexists.
    split; [reflexivity|]. split; [reflexivity|]. side. }
  assert (W3 : well_formed ex_flat /\ line_ok (pattern_text ex_flat)).
  { split; [|split; reflexivity]. split; [apply C18_example|]. left. apply C18_example. }
  assert (N1 : forall n, n = $".gitignore" \/ n = $".ignore" -> name_ok n).
  { intros n [->| ->]; split; try discriminate; vm_compute; intuition discriminate. }
  split; [repeat constructor; try discriminate; vm_compute; intuition discriminate|]. split.
  - constructor; [|constructor; [|constructor]].
    + split; [exists [$"src"; $"k.o"]; split; [reflexivity|discriminate]|]. split; [auto|]. auto.
    + split; [exists [$"k.o"]; split; [reflexivity|discriminate]|]. split; [auto|]. auto.
  - apply (dec_last _ _ [([], $".gitignore", ex_keep); ([], $".gitignore", ex_all);
      ([$"src"], $".ignore", ex_all); ([$"src"], $".ignore", ex_all)] _ [([$"src"], $".ignore", ex_flat)]).
    + exists [$"k.o"]. split; [reflexivity|]. apply (ap_name _ _ _ [ILit 107%N; IStar]).
      * destruct W1 as ((_ & [H|(l & H)]) & _); [|]; [destruct H as (([H|H] & _) & _); [discriminate|cbn in H; lia]|].
        destruct (H) as (E & _). cbn in E. injection E as <-. exact H.
      * apply (nm_cons _ _ ($"k") ($".o")); [constructor|]. apply (nm_cons _ _ ($".o") []); [|constructor].
        constructor. vm_compute. intuition discriminate.
      * discriminate.
    + constructor; [|constructor]. intros (b & E & H). injection E as <-.
      destruct H as [l (E & _) _ _|_ H _]; [discriminate|]. cbn [ex_flat p_elems] in H.
      inversion H as [|l ps n ns _ H2 E1 E2|]; subst. inversion H2.
Qed.
(** It is false for patterns that are broken on their own: the lines "[" and
    "[fo]" become one set that contains the character "^". *)
Theorem C19_refuted : exists lines name ig v,
  new_gitignore ($"/d") ($".ignore") lines = COk ig /\
  Decided (rule_applies ($"/d" ++ $"/" ++ name) name false) None (file_rules ($"/d", $".ignore", lines)) v /\
  git_match [ig] ($"/d" ++ $"/" ++ name) name false <> answer v.
Proof.
  exists [$"["; $"[fo]"], ($"^").
  destruct (new_gitignore ($"/d") ($".ignore") [$"["; $"[fo]"]) as [ig| |] eqn:E; [|vm_compute in E; discriminate|vm_compute in E; discriminate].
  exists ig, None. split; [reflexivity|]. split.
  - constructor. constructor; [|constructor; [|constructor]]; vm_compute; discriminate.
  - vm_compute in E. injection E as <-. vm_compute. discriminate.
Qed.
Print Assumptions C19_refuted.
