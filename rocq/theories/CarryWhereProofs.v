(** Where the ignore files are that count. *)
From Coq Require Import List NArith ZArith Bool Lia.
From Verif Require Import Py ArgumentsSpec GlobSpec PathSpec IgnoreModel IgnoreSpec IgnoreTreeProofs.
From Verif Require Import EntryModel TypeModel RegistryModel ArgumentsModel SearchModel SearchSpec SearchTreeProofs CarryModel CarrySpec CarryProofs CarrySearchProofs.
Import ListNotations.

Lemma place_prepend l f names g : In f l -> directory (f_status f) -> Place (f_kids f) names g -> Place l (f_name f :: names) g.
Proof.
  intros I D H. induction H as [g Hg|names d g H IH Hd Hg].
  - apply (place_below l [f_name f] f g); [now apply place_here|exact D|exact Hg].
  - apply (place_below l (f_name f :: names) d g); assumption.
Qed.
Lemma way_where files : forall here l names fs, OnTheWay files here l names fs -> valid l -> forall x, Place l names x -> forall d n, In (d, n) fs ->
  exists k m g, names = k ++ m /\ m <> [] /\ d = here ++ k /\ In n files /\ Place l (k ++ [n]) g.
Proof.
  induction 1 as [here l y|here l f names fs Hf W IH]; intros V x Px d n I.
  - unfold own in I. apply in_map_iff in I as (g & E & I). injection E as <- <-. apply filter_In in I as [I J].
    exists [], [y], g. rewrite app_nil_r. apply str_in_iff in J. repeat split; auto; [discriminate|now apply place_here].
  - apply in_app_iff in I as [I|I].
    + unfold own in I. apply in_map_iff in I as (g & E & I). injection E as <- <-. apply filter_In in I as [I J].
      exists [], (f_name f :: names), g. rewrite app_nil_r. apply str_in_iff in J. repeat split; auto; [discriminate|now apply place_here].
    + destruct (valid_inv _ V) as (U & _ & V'). assert (NN : names <> []) by (intros ->; inversion W).
      destruct (place_cons' _ _ _ _ Px NN) as (f' & Hf' & E & D & P').
      assert (f' = f).
      { apply (place_unique l [f_name f] f'); [exact V| |now apply place_here]. rewrite <- E. now apply place_here. }
      subst f'. destruct (IH (V' f Hf) x P' d n I) as (k & m & g & -> & M & -> & N & P). exists (f_name f :: k), m, g. rewrite <- app_assoc.
      repeat split; auto. cbn [app]. now apply place_prepend.
Qed.
Section Where.
  Variable ignore_files : list str.
  Variable patterns : list str -> str -> option (list pattern).
  Variable cwd : str.
  Variable device : str -> Z.
  Variable listing : str -> list file.
  Variable comps : str -> list str.
  Variable above : str -> list (list str * str).
  Variable exists_ : str -> bool.
  Variable read : str -> option (list str).
  Variable no_parent : bool.
  Lemma ignored_where a d names f dir n : orderly_starts ignore_files patterns cwd device listing comps above read
      (full_parents ignore_files exists_ no_parent cwd a) a -> In d (a_directories a) ->
    ignored_by ignore_files patterns cwd listing comps above a d names f (dir, n) -> real_directories cwd listing a -> Place (contents cwd listing a d) names f ->
    (exists k m g, names = k ++ m /\ m <> [] /\ dir = comps d ++ k /\ In n ignore_files /\ Place (contents cwd listing a d) (k ++ [n]) g) \/
    (no_parent = false /\ a_ignore a = true /\ In (file_in dir n) (full_parents ignore_files exists_ no_parent cwd a d) /\ exists rest, comps d = dir ++ rest).
  Proof.
    intros O D (fs & is_dir & W & _ & (p & K & _)) RD Pf. apply decided_in in K. unfold rules_of in K. apply in_flat_map in K as ([d' n'] & K1 & K2).
    assert (E : (d', n') = (dir, n)).
    { destruct (patterns d' n') as [ps|]; [|destruct K2]. apply in_map_iff in K2 as (q & E & _). now injection E as <- <- _. }
    injection E as -> ->. apply in_app_iff in K1 as [K1|K1].
    - right. destruct (O d D) as (_ & P & (_ & A & _)).
      assert (F : In (file_in dir n) (full_parents ignore_files exists_ no_parent cwd a d)) by (rewrite P; exact (in_map (fun f => file_in (fst f) (snd f)) _ _ K1)).
      assert (G := F). unfold full_parents, start_ignores in G. destruct no_parent; [destruct G|]. destruct (a_ignore a); [|destruct G].
      split; [reflexivity|]. split; [reflexivity|]. split; [exact F|]. exact (proj1 (proj2 (A _ K1))).
    - left. exact (way_where _ _ _ _ _ W (proj2 (RD d D)) f Pf dir n K1).
  Qed.
End Where.
