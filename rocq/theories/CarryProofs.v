(** The lists of ignore files that a search hands down the tree. *)
From Coq Require Import List NArith ZArith Bool Lia.
From Verif Require Import Py Re OsPath WalkModel WalkSpec PathSpec PathModel PathProofs GlobModel GlobSpec GlobProofs IgnoreModel IgnoreSpec IgnoreProofs IgnoreListProofs IgnoreTreeProofs.
From Verif Require Import EntrySpec EntryModel EntryProofs TypeModel RegistryModel TestModel ArgumentsModel SearchModel SearchSpec SearchTreeProofs CarryModel CarrySpec.
Import ListNotations.
Local Open Scope nat_scope.

(** ** Trees whose entries are replaced *)
Section Map.
  Variables A B : Type.
  Variable g : A -> B.
  Fixpoint map_node (n : node A) : node B :=
    match n with Node a d l => Node (g a) d ((fix go l := match l with [] => [] | k :: l => map_node k :: go l end) l) end.
  Lemma map_node_eq a d l : map_node (Node a d l) = Node (g a) d (map map_node l).
  Proof. reflexivity. Qed.
  Lemma map_node_kids n : kids (map_node n) = map map_node (kids n).
  Proof. destruct n as [a d l]. now rewrite map_node_eq. Qed.
  Lemma map_node_entry n : WalkModel.entry (map_node n) = g (WalkModel.entry n).
  Proof. now destruct n. Qed.
  Lemma map_node_dir n : is_dir (map_node n) = is_dir n.
  Proof. now destruct n. Qed.
  Variable exA maA : A -> res bool.
  Variable exB maB : B -> res bool.
  Hypothesis Hex : forall a, exB (g a) = exA a.
  Hypothesis Hma : forall a, maB (g a) = maA a.
  (** Only the contents of a start directory count. *)
  Lemma below_map d d' : kids d' = map map_node (kids d) -> forall x, Below B exB d' x <-> exists n, x = map_node n /\ Below A exA d n.
  Proof.
    intros Hk x. split.
    - intros H. induction H as [x Hx He|m x Hm IH D Hx He].
      + rewrite Hk in Hx. apply in_map_iff in Hx as (n & <- & Hn). rewrite map_node_entry, Hex in He. exists n. split; [reflexivity|].
        now apply below_kid.
      + destruct IH as (m0 & -> & Hm0). rewrite map_node_kids in Hx. apply in_map_iff in Hx as (n & <- & Hn).
        rewrite map_node_entry, Hex in He. rewrite map_node_dir in D. exists n. split; [reflexivity|]. eapply below_deep; eauto.
    - intros (n & -> & H). induction H as [n Hn He|m n Hm IH D Hn He].
      + apply below_kid; [rewrite Hk; now apply in_map|]. now rewrite map_node_entry, Hex.
      + eapply below_deep; [exact IH|now rewrite map_node_dir|rewrite map_node_kids; now apply in_map|]. now rewrite map_node_entry, Hex.
  Qed.
  Definition same_root (d : node A) (d' : node B) : Prop := kids d' = map map_node (kids d).
  Lemma match_map roots roots' : Forall2 same_root roots roots' ->
    forall b, Match B exB maB roots' b <-> exists a, b = g a /\ Match A exA maA roots a.
  Proof.
    intros F b. split.
    - intros (d' & x & Hd & Hb & Hm & <-). destruct (Forall2_in _ _ _ _ F Hd) as (d & Hd0 & S).
      apply (below_map d d' S) in Hb as (n & -> & Hb). rewrite map_node_entry in *. rewrite Hma in Hm.
      exists (WalkModel.entry n). split; [reflexivity|]. exists d, n. auto.
    - intros (a & -> & d & n & Hd & Hb & Hm & <-). destruct (Forall2_in_l _ _ _ _ F Hd) as (d' & Hd' & S).
      exists d', (map_node n). split; [exact Hd'|]. rewrite map_node_entry, Hma. split; [|auto]. apply (below_map d d' S). eauto.
  Qed.
  Lemma below_all_map n : below_all (map_node n) = map g (below_all n).
  Proof.
    revert n. fix IH 1. intros [a d l]. rewrite map_node_eq. cbn [below_all]. destruct d; [|reflexivity].
    induction l as [|k l IHl]; [reflexivity|]. cbn [map]. rewrite map_node_entry, (IH k), map_app. f_equal. f_equal. exact IHl.
  Qed.
  Lemma tree_map roots roots' : Forall2 same_root roots roots' -> tree_all roots' = map g (tree_all roots).
  Proof.
    induction 1 as [|d d' roots roots' S F IH]; [reflexivity|]. cbn [tree_all flat_map]. rewrite map_app. f_equal; [|exact IH].
    rewrite S. clear. induction (kids d) as [|k l IH]; [reflexivity|]. cbn [map flat_map]. rewrite map_node_entry, below_all_map, IH.
    cbn [app map]. now rewrite map_app.
  Qed.
End Map.
Arguments map_node {A B}. Arguments same_root {A B}.

Lemma place_cons l names f : Place l names f -> forall n m rest, names = n :: m :: rest ->
  exists d, In d l /\ f_name d = n /\ directory (f_status d) /\ Place (f_kids d) (m :: rest) f.
Proof.
  intros H. induction H as [f Hf|names d f Hd IH D Hf]; intros n m rest E; [discriminate|].
  destruct names as [|a [|b names]]; [destruct (place_nonempty _ _ _ Hd eq_refl)| |].
  - injection E as -> <- <-. inversion Hd as [x Hx Ex|? ? ? K ? ? Ex]; subst.
    + exists d. split; [exact Hx|]. split; [reflexivity|]. split; [exact D|]. now constructor.
    + exfalso. change [n] with ([] ++ [n]) in Ex. apply app_inj_tail in Ex as [Ex _]. subst. now apply place_nonempty in K.
  - cbn [app] in E. injection E as -> -> E. destruct (IH n m names eq_refl) as (d0 & H1 & H2 & H3 & H4).
    exists d0. split; [exact H1|]. split; [exact H2|]. split; [exact H3|]. rewrite <- E.
    exact (place_below _ (m :: names) d f H4 D Hf).
Qed.
Lemma place_cons' l n rest f : Place l (n :: rest) f -> rest <> [] ->
  exists d, In d l /\ f_name d = n /\ directory (f_status d) /\ Place (f_kids d) rest f.
Proof. intros H N. destruct rest as [|m rest]; [easy|]. exact (place_cons _ _ _ H n m rest eq_refl). Qed.
Lemma place_one l n f : Place l [n] f -> In f l /\ f_name f = n.
Proof.
  intros H. inversion H as [x Hx Ex|? ? ? K ? ? Ex]; subst; [auto|].
  exfalso. change [n] with ([] ++ [n]) in Ex. apply app_inj_tail in Ex as [Ex _]. subst. now apply place_nonempty in K.
Qed.
Lemma find_name l f : NoDup (map f_name l) -> In f l -> find (fun k => str_eqb (f_name k) (f_name f)) l = Some f.
Proof.
  induction l as [|k l IH]; intros N H; [destruct H|]. cbn [find map] in *. inversion N as [|? ? N0 D0]; subst.
  destruct H as [->|H]; [now rewrite str_eqb_refl|]. destruct (str_eqb (f_name k) (f_name f)) eqn:E; [|auto].
  apply str_eqb_eq in E. exfalso. apply N0. rewrite E. now apply in_map.
Qed.

Section Carry.
  Variable ignore_files : list str.
  Notation dir_ignores := (dir_ignores ignore_files).

  Section Start.
  Variable sd : start.
  (** The list for the entries of the directory reached through names *)
  Fixpoint dir_paths (rel : str) (l : list file) (names paths : list str) : list str :=
    let paths := dir_ignores sd rel l paths in
    match names with
    | [] => paths
    | n :: rest => match find (fun f => str_eqb (f_name f) n) l with Some f => dir_paths (join rel n) (f_kids f) rest paths | None => paths end
    end.
  Lemma dir_paths_snoc names : forall rel l paths f, valid l -> Place l (names ++ [f_name f]) f ->
    dir_paths rel l (names ++ [f_name f]) paths = dir_ignores sd (fold_left join (names ++ [f_name f]) rel) (f_kids f) (dir_paths rel l names paths).
  Proof.
    induction names as [|n names IH]; intros rel l paths f Hv Hp.
    - cbn [app] in *. apply place_one in Hp as [Hf _]. destruct (valid_inv _ Hv) as (V & _ & _).
      cbn [dir_paths fold_left]. now rewrite (find_name l f V Hf).
    - cbn [app] in Hp |- *. destruct (valid_inv _ Hv) as (V & _ & V2).
      destruct (place_cons' _ _ _ _ Hp) as (d & Hd & <- & _ & Pd); [now destruct names|].
      cbn [dir_paths]. rewrite (find_name l d V Hd). rewrite (IH _ _ _ _ (V2 d Hd) Pd). reflexivity.
  Qed.
  End Start.
  (** The contents of start directories and the lists they start with *)
  Variable listing : str -> list file.
  Variable parents : str -> list str.
  Definition entry_names (e : entry) : list str := split_on SLASH (e_relpath e).
  Definition carry (e : entry) : carrier :=
    (e, dir_paths (e_start e) [] (listing (root (e_start e))) (removelast (entry_names e)) (parents (root (e_start e)))).

  Section Start2.
  Variable sd : start.
  Hypothesis Hroot : root sd <> [].
  Notation dir_paths := (dir_paths sd).
  Notation l0 := (listing (root sd)).
  Notation paths0 := (parents (root sd)).
  Hypothesis Hv0 : valid l0.
  Definition paths_at (names : list str) : list str := dir_paths [] l0 names paths0.
  Lemma carry_at names st e : names <> [] -> Forall name_ok names -> mk_entry sd (walk_relpath names) st = Ok e ->
    carry e = (e, paths_at (removelast names)).
  Proof.
    intros N F E. destruct (entry_fields _ Hroot names st e N F E) as (Es & Er & _). unfold carry, entry_names. rewrite Er, Es.
    now rewrite names_split.
  Qed.
  Lemma carry_kids rel paths l : (fix scan (l : list file) : res (list (node carrier)) :=
       match l with
       | [] => Ok []
       | k :: l => do x <- carry_file ignore_files sd rel paths k; do r <- scan l; Ok (x :: r)
       end) l = carry_files ignore_files sd rel paths l.
  Proof. induction l as [|k l IH]; [reflexivity|]. cbn [carry_files]. now rewrite IH. Qed.
  Lemma carry_file_ok f : forall names n, Scanned sd names f n -> Forall name_ok names -> Place l0 (names ++ [f_name f]) f ->
    carry_file ignore_files sd (walk_relpath names) (paths_at names) f = Ok (map_node carry n).
  Proof.
    induction f as [fn st l IH] using file_rect'. intros names n S Fn Hp. cbn [f_name] in *.
    destruct (place_valid _ _ _ Hv0 Hp) as (_ & Vk & F). cbn [f_kids] in Vk.
    assert (N : names ++ [fn] <> []) by (intros E; apply app_eq_nil in E as [_ E]; discriminate).
    apply scanned_inv in S as H_S; destruct H_S as (e & k & -> & Ee & Kk). cbn [f_name f_status f_kids] in *.
    cbn [carry_file]. rewrite relpath_snoc, Ee. cbn [bindr]. rewrite map_node_eq, (carry_at _ _ _ N F Ee), removelast_last.
    fold (dir_status st). destruct (dir_status st) eqn:D; [|now subst k].
    assert (Eq : dir_ignores sd (walk_relpath (names ++ [fn])) l (paths_at names) = paths_at (names ++ [fn])).
    { symmetry. exact (dir_paths_snoc sd names [] l0 paths0 (File fn st l) Hv0 Hp). }
    rewrite Eq, carry_kids.
    assert (X : carry_files ignore_files sd (walk_relpath (names ++ [fn])) (paths_at (names ++ [fn])) l = Ok (map (map_node carry) k)).
    { assert (K : forall x, In x l -> Place l0 ((names ++ [fn]) ++ [f_name x]) x).
      { intros x Hx. apply (place_below l0 (names ++ [fn]) (File fn st l) x Hp); [now apply dir_status_iff|exact Hx]. }
      clear -Kk IH K F. induction Kk as [|x y l k Sx Kk IHk]; [reflexivity|]. cbn [carry_files map].
      apply Forall_inv in IH as Hx. rewrite (Hx _ _ Sx F (K x (or_introl eq_refl))). cbn [bindr].
      rewrite IHk; [reflexivity|now apply Forall_inv_tail in IH|intros; apply K; now right]. }
    now rewrite X.
  Qed.
  Lemma carry_files_ok k : Forall2 (Scanned sd []) l0 k ->
    carry_files ignore_files sd [] (dir_ignores sd [] l0 paths0) l0 = Ok (map (map_node carry) k).
  Proof.
    intros S. change (dir_ignores sd [] l0 paths0) with (paths_at []).
    assert (K : forall x, In x l0 -> Place l0 ([] ++ [f_name x]) x) by (intros x Hx; now constructor).
    revert K S. generalize l0 at 1 3 4. intros l K S. induction S as [|x y l k Sx S IH]; [reflexivity|]. cbn [carry_files map].
    pose proof (carry_file_ok x [] y Sx ltac:(constructor) (K x (or_introl eq_refl))) as E.
    change (walk_relpath []) with (@nil char) in E. rewrite E. cbn [bindr]. rewrite IH; [reflexivity|]. intros z Hz. apply K. now right.
  Qed.

  (** *** In terms of names *)
  Variable comps : list str.
  Hypothesis Habs : absroot sd = abs_dir comps.
  Hypothesis Hcomps : Forall plain_name comps.
  Lemma own_paths here rel l paths : (forall f, In f l -> join (absroot sd) (join rel (f_name f)) = file_in here (f_name f)) ->
    dir_ignores sd rel l paths = paths ++ map (fun f => file_in (fst f) (snd f)) (own ignore_files here l).
  Proof.
    intros H. unfold CarryModel.dir_ignores, own. f_equal. rewrite map_map. cbn [fst snd]. apply map_ext_in.
    intros f Hf. apply H. apply filter_In in Hf. apply Hf.
  Qed.
  Lemma abs_join names : names <> [] -> Forall name_ok names -> join (absroot sd) (join_with [SLASH] names) = abs_dir (comps ++ names).
  Proof.
    intros N F. rewrite Habs. destruct comps as [|c cs] eqn:Ec.
    - cbn [app]. unfold abs_dir. cbn [join_with]. pose proof (join_with_nonnil names N F) as X.
      change ($"/" ++ []) with [SLASH]. unfold join. destruct (join_with [SLASH] names) as [|x t] eqn:E; [now destruct X|].
      cbn [str_eqb]. change (str_eqb [SLASH] [SLASH]) with true. cbn iota. cbn [app]. change ($"/") with [SLASH]. now rewrite E.
    - assert (Na : abs_dir (c :: cs) <> [SLASH]) by (apply abs_dir_nonroot; [discriminate|exact Hcomps]).
      unfold join. destruct (abs_dir (c :: cs)) as [|x t] eqn:E; [discriminate|]. rewrite <- E in *.
      pose proof (join_with_nonnil names N F) as X. destruct (join_with [SLASH] names) as [|y u] eqn:E2; [now destruct X|]. rewrite <- E2 in *.
      apply str_eqb_neq in Na. rewrite Na. unfold abs_dir. change ($"/") with [SLASH]. rewrite join_with_app by (discriminate || exact N).
      now rewrite <- app_assoc.
  Qed.
  Lemma own_ok before l : Forall name_ok before -> Forall (fun f => name_ok (f_name f)) l ->
    forall g, In g l -> join (absroot sd) (join (walk_relpath before) (f_name g)) = file_in (comps ++ before) (f_name g).
  Proof.
    intros Fb V1 g Hg. rewrite Forall_forall in V1. specialize (V1 g Hg).
    assert (N : before ++ [f_name g] <> []) by (intros E; apply app_eq_nil in E as [_ E]; discriminate).
    assert (F : Forall name_ok (before ++ [f_name g])) by (apply Forall_app; split; [exact Fb|now constructor]).
    rewrite relpath_snoc, walk_relpath_names by assumption. unfold file_in. rewrite <- app_assoc. now apply abs_join.
  Qed.
  Lemma way_paths names : forall before l f fs, Forall name_ok before -> valid l ->
    Place l (names ++ [f_name f]) f ->
    OnTheWay ignore_files (comps ++ before) l (names ++ [f_name f]) fs ->
    forall paths, dir_paths (walk_relpath before) l names paths = paths ++ map (fun f => file_in (fst f) (snd f)) fs.
  Proof.
    induction names as [|n names IH]; intros before l f fs Fb Hv Hp W paths; destruct (valid_inv _ Hv) as (V & V1 & V2);
      pose proof (own_ok before l Fb V1) as O.
    - cbn [app] in *. inversion W as [h l' n' E1 E2 E3|h l' g ns fs' Hg W' E1 E2 E3]; subst.
      + cbn [dir_paths]. now apply own_paths.
      + inversion W'.
    - cbn [app] in Hp, W. destruct (place_cons' _ _ _ _ Hp) as (d & Hd & En & _ & Pd); [now destruct names|].
      inversion W as [h l' n' E1 E2 E3|h l' g ns fs' Hg W' E1 E2 E3]; subst; [destruct names; discriminate|].
      assert (d = g) by (eapply NoDup_map_inj; eauto). subst g.
      cbn [dir_paths]. rewrite (find_name l d V Hd), relpath_snoc.
      rewrite (IH (before ++ [f_name d]) (f_kids d) f fs').
      + rewrite (own_paths (comps ++ before) _ _ _ O), map_app, app_assoc. reflexivity.
      + apply Forall_app. split; [exact Fb|]. constructor; [|constructor]. rewrite Forall_forall in V1. now apply V1.
      + now apply V2.
      + exact Pd.
      + now rewrite app_assoc.
  Qed.
  End Start2.
End Carry.
