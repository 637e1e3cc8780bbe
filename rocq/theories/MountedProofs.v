(** Proofs about --one-file-system on a file system with links. *)
From Coq Require Import List NArith ZArith Bool Lia.
From Verif Require Import Py GrammarSpec PathSpec TypeSpec WalkModel WalkSpec EntryModel EntryProofs TypeModel RegistryModel TestModel ArgumentsModel ArgumentsSpec
  SearchModel SearchSpec SearchTreeProofs SearchEndProofs LawProofs LocalSpec FollowModel FollowSpec FollowProofs FollowRuns MountedModel MountedSpec.
Import ListNotations.
Local Open Scope nat_scope.

Lemma mk_entry_parts sd rel st e : mk_entry sd rel st = Ok e -> e_start e = sd /\ e_status e = st.
Proof.
  unfold mk_entry. intros H. repeat match type of H with context [match ?x with _ => _ end] => destruct x end; try discriminate H;
    injection H as <-; now split.
Qed.
Lemma same_place fs limit named r u dv follow : start_place fs limit named = Got (r, u) -> start_device fs limit follow named = Got dv ->
  follow = true \/ ~ is_link (fs (fst named)) -> dv = st_dev (status_of (fs r)).
Proof.
  unfold start_place, start_device, behind. destruct named as [i n]. cbn [fst snd]. intros P D H.
  destruct (fs i) as [st rd x kids|st|st leads] eqn:E; cbn [then_sys fst snd] in *.
  - injection P as <- <-. injection D as <-. reflexivity.
  - injection P as <- <-. injection D as <-. reflexivity.
  - destruct H as [-> |H]; [|destruct H; exact I]. destruct leads as [er|[k j]]; [discriminate D|].
    destruct (Nat.leb (n + k) limit); [|discriminate D]. cbn [then_sys fst snd] in *. injection P as <- <-. injection D as <-. reflexivity.
Qed.
Lemma reach_ok fs limit root used0 follow used j names : sane fs -> Reach fs limit root used0 follow used j names -> Forall name_ok names.
Proof.
  intros Sa. induction 1 as [|used d names st kids n i used' j' Hr IH E Hin B]; [constructor|]. apply Forall_app. split; [exact IH|].
  constructor; [|constructor]. pose proof (proj2 (names_ok _ Sa _ _ _ _ _ E)) as F. rewrite Forall_forall in F. exact (F (n, i) Hin).
Qed.
Lemma reach_nil fs limit root used0 follow used j : Reach fs limit root used0 follow used j [] -> j = root.
Proof.
  intros H. remember (@nil str) as nm eqn:E. destruct H as [|used d names st kids n i used' j' Hr Ed Hin B]; [reflexivity|]. now destruct names.
Qed.

Section Search.
  Variable R : Type.
  Variable rcompile : str -> res R.
  Variable rsearch : R -> str -> bool.
  Variable parse_time : str -> res Z.
  Variable debug : bool.
  Variable case : case_mode.
  Variable registered : list plugin.
  Variable init_plugin : str -> res unit.
  Variable reference_value : str * str -> str -> res value.
  Variable score : test R -> Z.
  Variable other : entry -> str -> option value.
  Variable plugin_value : entry -> str * str -> option value.
  Variable cwd : str.
  Variable device : str -> Z.
  Variable fs : nat -> object.
  Variable limit : nat.
  Variable follow : bool.
  Variable named place_of : str -> nat * nat.
  Variable listing : str -> list file.
  Variable rendered : entry -> bool.
  Variable m : mode.
  Notation honest := (honest registered init_plugin other plugin_value).
  Notation sensible_args := (sensible_args R rcompile parse_time debug case registered init_plugin reference_value).
  Notation Excluded := (Excluded R rcompile rsearch parse_time debug case registered init_plugin reference_value other plugin_value).
  Notation Reported_in := (Reported_in R rcompile rsearch parse_time debug case registered init_plugin reference_value other plugin_value cwd device
    fs limit follow place_of).
  Notation Reported_within := (Reported_within R rcompile rsearch parse_time debug case registered init_plugin reference_value other plugin_value cwd device
    fs limit follow place_of).
  Notation Finds := (Finds R rcompile rsearch parse_time debug case registered init_plugin reference_value score other plugin_value
    cwd device listing rendered m).
  Hypothesis Sane : sane fs.

  Lemma excluded_device a k e : a_one_file_system a = true ->
    ~ Excluded a k e <-> ~ Excluded (set_flags a (a_ignore a) false (a_hide a)) k e /\ st_dev (e_status e) = start_dev (e_start e).
  Proof.
    intros O. unfold SearchSpec.Excluded. rewrite O. cbn [set_flags a_exclude a_ignore a_one_file_system a_hide].
    change (ranges (set_flags a (a_ignore a) false (a_hide a))) with (ranges a).
    set (P1 := exists s, _). set (P2 := a_ignore a = true /\ _). set (P3 := a_hide a = true /\ _). set (P4 := ranges a <> [] /\ _).
    clearbody P1 P2 P3 P4. assert (F : false = true -> False) by discriminate.
    destruct (Z.eq_dec (st_dev (e_status e)) (start_dev (e_start e))) as [D|D]; [tauto|].
    split; [intros N; destruct N; tauto|tauto].
  Qed.
  Lemma within_reported a ess e : a_one_file_system a = true ->
    (forall d, In d (a_directories a) -> let p := start_path cwd (absolute_paths a) d in
       p <> [] /\ device p = st_dev (status_of (fs (fst (place_of p))))) ->
    Reported_in a ess e <-> Reported_within a ess e.
  Proof.
    intros O Hd. split.
    - intros (d & names & D & N & L & X & Rg & Sf). destruct (Hd d D) as [Pn Dv]. exists d, names.
      split; [exact D|]. split; [exact N|]. split; [exact L|]. split.
      { intros k l e' E Nk Lk. exact (proj1 (proj1 (excluded_device a k e' O) (X k l e' E Nk Lk))). }
      split; [exact Rg|]. split; [exact Sf|]. cbv zeta. intros k l used j E Hr. destruct k as [|n k].
      { now rewrite (reach_nil _ _ _ _ _ _ _ Hr). }
      pose proof (reach_ok _ _ _ _ _ _ _ _ Sane Hr) as F.
      assert (Ee : exists e', mk_entry (start_dir cwd device (absolute_paths a) d) (walk_relpath (n :: k)) (status_of (fs j)) = Ok e').
      { eexists. apply mk_entry_ok; [exact Pn|discriminate|exact F]. }
      destruct Ee as (e' & Ee). destruct (mk_entry_parts _ _ _ _ Ee) as [Es Et].
      assert (Lk : Leads_to cwd device fs limit follow place_of a d (n :: k) e') by (exists used, j; split; [exact Hr|exact Ee]).
      assert (Nk : n :: k <> []) by discriminate.
      pose proof (proj2 (proj1 (excluded_device a (n :: k) e' O) (X (n :: k) l e' E Nk Lk))) as Q.
      rewrite Es, Et in Q. rewrite Q, <- Dv. reflexivity.
    - intros (d & names & D & N & L & X & Rg & S & W). destruct (Hd d D) as [Pn Dv]. exists d, names.
      split; [exact D|]. split; [exact N|]. split; [exact L|]. split; [|split; [exact Rg|exact S]].
      intros k l e' E Nk Lk. apply (excluded_device a k e' O). split; [exact (X k l e' E Nk Lk)|].
      destruct Lk as (used & j & Hr & Ee). destruct (mk_entry_parts _ _ _ _ Ee) as [-> ->].
      rewrite (W k l used j E Hr), <- Dv. reflexivity.
  Qed.
  Lemma found_within a ess : a_one_file_system a = true ->
    (forall d, In d (a_directories a) -> let p := start_path cwd (absolute_paths a) d in
       p <> [] /\ start_place fs limit (named p) = Got (place_of p) /\ start_device fs limit follow (named p) = Got (device p) /\
       (follow = true \/ ~ is_link (fs (fst (named p)))) /\ is_dir (fs (fst (place_of p))) /\
       exists fuel, view fs limit (fst (place_of p)) (snd (place_of p)) follow fuel [] = Some (listing p)) ->
    forall l, honest -> sensible_args a ess -> Finds a l -> forall e, In e l <-> Reported_within a ess e /\ processable m rendered e.
  Proof.
    intros O Hd l Ho So F e. rewrite <- (within_reported a ess e O).
    - apply (found_in R rcompile rsearch parse_time debug case registered init_plugin reference_value score other plugin_value cwd device fs limit
        follow place_of listing rendered m Sane a ess); [|exact Ho|exact So|exact F].
      intros d D. destruct (Hd d D) as (P & _ & _ & _ & I & V). repeat split; assumption.
    - intros d D. destruct (Hd d D) as (P & Pl & Dv & Lk & _). split; [exact P|].
      destruct (place_of (start_path cwd (absolute_paths a) d)) as [r u]. exact (same_place _ _ _ _ _ _ _ Pl Dv Lk).
  Qed.
End Search.
