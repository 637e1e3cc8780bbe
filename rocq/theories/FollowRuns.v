(** The search on a file system with links; some file systems. *)
From Coq Require Import List NArith ZArith Bool Lia.
From Verif Require Import Py GrammarSpec PathSpec TypeSpec WalkModel WalkSpec EntryModel TypeModel RegistryModel TestModel ArgumentsModel ArgumentsSpec
  SearchModel SearchSpec SearchTreeProofs SearchEndProofs LawProofs FollowModel FollowSpec FollowProofs.
Import ListNotations.
Local Open Scope nat_scope.

Section Search.
  Variable R : Type.
  Variable rcompile : str -> res R.
  Variable rsearch : R -> str -> bool.
  Variable parse_time : str -> res Z.
  Variable debug : bool.
  Variable case : case_mode.
  Variable registered : list plugin.
  Variable init_plugin : str -> res unit.
  Variable reference_value : str * str -> str -> res value.
  Variable score : test R -> Z.
  Variable other : entry -> str -> option value.
  Variable plugin_value : entry -> str * str -> option value.
  Variable cwd : str.
  Variable device : str -> Z.
  Variable fs : nat -> object.
  Variable limit : nat.
  Variable follow : bool.
  Variable place_of : str -> nat * nat.
  Variable listing : str -> list file.
  Variable rendered : entry -> bool.
  Variable m : mode.
  Notation honest := (honest registered init_plugin other plugin_value).
  Notation sensible_args := (sensible_args R rcompile parse_time debug case registered init_plugin reference_value).
  Notation Reported := (Reported R rcompile rsearch parse_time debug case registered init_plugin reference_value other plugin_value cwd device listing).
  Notation Reported_in := (Reported_in R rcompile rsearch parse_time debug case registered init_plugin reference_value other plugin_value cwd device
    fs limit follow place_of).
  Notation Finds := (Finds R rcompile rsearch parse_time debug case registered init_plugin reference_value score other plugin_value
    cwd device listing rendered m).
  Hypothesis Sane : sane fs.
  Variable a : pargs.
  Variable ess : list (list bexp).
  Hypothesis Hdirs : forall d, In d (a_directories a) -> let p := start_path cwd (absolute_paths a) d in
    p <> [] /\ is_dir (fs (fst (place_of p))) /\ exists fuel, view fs limit (fst (place_of p)) (snd (place_of p)) follow fuel [] = Some (listing p).
  Lemma follow_real : real_directories cwd listing a.
  Proof.
    intros d Hd. destruct (Hdirs d Hd) as (P & _ & fuel & V). split; [exact P|]. eapply view_valid; eauto.
  Qed.
  Lemma leads_place d names e : In d (a_directories a) -> names <> [] ->
    Leads_to cwd device fs limit follow place_of a d names e <->
    exists f, Place (contents cwd listing a d) names f /\ entry_at cwd device a d names f e.
  Proof.
    intros Hd N. destruct (Hdirs d Hd) as (_ & D & fuel & V). unfold Leads_to, entry_at. split.
    - intros (u & i & Hr & E). destruct (proj2 (seen _ _ _ _ Sane _ _ _ D V names (status_of (fs i)) N)) as (f & P & Es); [eauto|].
      exists f. split; [exact P|]. now rewrite Es.
    - intros (f & P & E). destruct (proj1 (seen _ _ _ _ Sane _ _ _ D V names (f_status f) N)) as (u & i & Hr & Es); [eauto|].
      exists u, i. split; [exact Hr|]. now rewrite <- Es.
  Qed.
  Lemma reported_in e : Reported a ess e <-> Reported_in a ess e.
  Proof.
    split.
    - intros (d & names & f & Hd & P & E & X & Rg & S). exists d, names. pose proof (place_nonempty _ _ _ P) as N.
      split; [exact Hd|]. split; [exact N|]. split; [apply (leads_place d names e Hd N); eauto|]. split; [|split; [exact Rg|exact S]].
      intros k l e' En Nk L. apply (leads_place d k e' Hd Nk) in L as (g & Pg & Eg). eapply X; eauto.
    - intros (d & names & Hd & N & L & X & Rg & S). apply (leads_place d names e Hd N) in L as (f & P & E).
      exists d, names, f. split; [exact Hd|]. split; [exact P|]. split; [exact E|]. split; [|split; [exact Rg|exact S]].
      intros k l g e' En Nk Pg Eg. apply (X k l e' En Nk). apply (leads_place d k e' Hd Nk). eauto.
  Qed.
  Lemma found_in l : honest -> sensible_args a ess -> Finds a l ->
    forall e, In e l <-> Reported_in a ess e /\ processable m rendered e.
  Proof.
    intros Ho Sa F e. rewrite <- reported_in. exact (finds_reported _ _ _ _ _ _ _ _ _ _ _ _ _ _ _ _ _ a ess l Ho Sa follow_real F e).
  Qed.
End Search.

(** ** Two links to the directory that they are in *)
Definition dir_st : status := Status 16877 4096 1.
Definition file_st : status := Status 33188 10 1.
Definition link_st : status := Status 41471 1 1.
Definition loops (i : nat) : object :=
  match i with
  | 0 => ODir dir_st true true [($"a", 1); ($"b", 2); ($"f", 3)]
  | 1 | 2 => OLink link_st (inr (1, 0))
  | _ => OFile file_st
  end.
Lemma loops_sane : sane loops.
Proof.
  constructor.
  - intros [|[|[|i]]]; (split; [intros H; first [destruct H; fail|vm_compute; reflexivity]|intros H; first [exact I|vm_compute in H; discriminate H]]).
  - intros [|[|[|i]]] st r x kids E; try discriminate E. injection E as <- <- <- <-. split.
    + cbn. repeat (apply NoDup_cons; [cbn; intuition discriminate|]). apply NoDup_nil.
    + repeat (apply Forall_cons; [split; [discriminate|cbn; intuition discriminate]|]). apply Forall_nil.
  - intros [|[|[|i]]] st k j E; try discriminate E; injection E as <- <- <-; constructor.
  - intros [|[|[|i]]] st k j st' l E; try discriminate E; injection E as <- <- <-; discriminate.
  - exists (fun _ => 0), 0. split; [constructor|]. intros [|[|[|i]]] st r x kids n j E H D; try discriminate E.
    injection E as <- <- <- <-. cbn in H. destruct H as [H|[H|[H|[]]]]; injection H as <- <-; destruct D.
Qed.
Lemma loops_reach limit names : Forall (fun n => n = $"a" \/ n = $"b") names -> length names <= limit ->
  Reach loops limit 0 0 true (length names) 0 names.
Proof.
  induction names as [|n names IH] using rev_ind; intros F L; [constructor|].
  apply Forall_app in F as [F1 F2]. rewrite app_length in *. cbn [length] in *.
  assert (Hn : n = $"a" \/ n = $"b") by (now inversion F2).
  assert (R : Reach loops limit 0 0 true (length names) 0 names) by (apply IH; [exact F1|lia]).
  destruct Hn as [-> | ->].
  - eapply (reach_step loops limit 0 0 true _ _ _ _ _ _ 1); [exact R|reflexivity|now left|].
    apply (behind_link loops limit true _ 1 link_st 1 0); [reflexivity|reflexivity|lia].
  - eapply (reach_step loops limit 0 0 true _ _ _ _ _ _ 2); [exact R|reflexivity|right; now left|].
    apply (behind_link loops limit true _ 2 link_st 1 0); [reflexivity|reflexivity|lia].
Qed.
Lemma loops_file limit names : Forall (fun n => n = $"a" \/ n = $"b") names -> length names <= limit ->
  Reach loops limit 0 0 true (length names) 3 (names ++ [$"f"]).
Proof.
  intros F L. eapply (reach_step loops limit 0 0 true _ _ _ _ _ _ 3); [now apply loops_reach|reflexivity|do 2 right; now left|].
  constructor. intros ? ? E. discriminate E.
Qed.
Fixpoint ways (n : nat) : list (list str) :=
  match n with O => [[]] | S n => map (cons ($"a")) (ways n) ++ map (cons ($"b")) (ways n) end.
Lemma ways_count n : length (ways n) = 2 ^ n.
Proof. induction n as [|n IH]; [reflexivity|]. cbn [ways Nat.pow]. rewrite app_length, !map_length, IH. lia. Qed.
Lemma ways_in n w : In w (ways n) -> length w = n /\ Forall (fun n => n = $"a" \/ n = $"b") w.
Proof.
  revert w. induction n as [|n IH]; cbn [ways]; intros w H.
  - destruct H as [<-|[]]. split; [reflexivity|constructor].
  - apply in_app_or in H as [H|H]; apply in_map_iff in H as (v & <- & H); apply IH in H as [H1 H2]; (split; [cbn; congruence|constructor; auto]).
Qed.
Lemma ways_nodup n : NoDup (ways n).
Proof.
  induction n as [|n IH]; cbn [ways]; [constructor; [intros []|constructor]|].
  apply NoDup_app.
  - apply FinFun.Injective_map_NoDup; [|exact IH]. intros x y E. now injection E.
  - apply FinFun.Injective_map_NoDup; [|exact IH]. intros x y E. now injection E.
  - intros w H1 H2. apply in_map_iff in H1 as (v & <- & _), H2 as (v' & E & _). discriminate E.
Qed.
Lemma loops_many limit : exists ways, length ways = 2 ^ limit /\ NoDup ways /\
  forall names, In names ways -> Reach loops limit 0 0 true limit 3 (names ++ [$"f"]).
Proof.
  exists (ways limit). split; [apply ways_count|]. split; [apply ways_nodup|]. intros names H. apply ways_in in H as [H1 H2].
  pose proof (loops_file limit names H2) as K. rewrite H1 in K. now apply K.
Qed.
(** ** A link that leads nowhere *)
Definition broken (i : nat) : object :=
  match i with
  | 0 => ODir dir_st true true [($"l", 1); ($"f", 2)]
  | 1 => OLink link_st (inl ENOENT)
  | _ => OFile file_st
  end.
Lemma broken_sane : sane broken.
Proof.
  constructor.
  - intros [|[|i]]; (split; [intros H; first [destruct H; fail|vm_compute; reflexivity]|intros H; first [exact I|vm_compute in H; discriminate H]]).
  - intros [|[|i]] st r x kids E; try discriminate E. injection E as <- <- <- <-. split.
    + cbn. repeat (apply NoDup_cons; [cbn; intuition discriminate|]). apply NoDup_nil.
    + repeat (apply Forall_cons; [split; [discriminate|cbn; intuition discriminate]|]). apply Forall_nil.
  - intros [|[|i]] st k j E; discriminate E.
  - intros [|[|i]] st k j st' l E; discriminate E.
  - exists (fun _ => 0), 0. split; [constructor|]. intros [|[|i]] st r x kids n j E H D; try discriminate E.
    injection E as <- <- <- <-. cbn in H. destruct H as [H|[H|[]]]; injection H as <- <-; destruct D.
Qed.
Lemma broken_lost limit : forall used j, ~ Reach broken limit 0 0 true used j [$"l"].
Proof.
  intros used j H. inversion H as [|u d names st kids n i u' j' H' E I B X Y Z].
  apply (app_inj_tail names [] n ($"l")) in Z as [-> ->].
  assert (d = 0). { clear -H'. inversion H' as [|? ? names ? ? ? ? ? ? ? ? ? ? X]; subst; auto. now destruct names. } subst d.
  injection E as <- <-. destruct I as [I|[I|[]]]; [|discriminate I]. injection I as <-.
  inversion B as [K|? ? ? K]; subst; [|discriminate K]. discriminate (K _ _ eq_refl).
Qed.
