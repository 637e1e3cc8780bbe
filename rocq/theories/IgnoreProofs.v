From Coq Require Import List NArith ZArith Bool Lia Permutation.
From Verif Require Import Py Re ReJoin PathModel OsPath GlobModel IgnoreModel IgnoreSpec.
Import ListNotations.

Lemma key_eqb_eq a b : key_eqb a b = true <-> a = b.
Proof.
  destruct a as [a1 a2 a3], b as [b1 b2 b3]. unfold key_eqb. cbn.
  rewrite !andb_true_iff, !eqb_true_iff. split; [intros [[-> ->] ->]; reflexivity|intros [= -> -> ->]; auto].
Qed.
Lemma line_globs_eq lines : line_globs lines = map (fun p => translate p true) (pattern_lines lines).
Proof.
  unfold line_globs, pattern_lines. induction lines as [|l t IH]; [reflexivity|].
  cbn [flat_map map filter]. rewrite IH. destruct (strip l) as [|c u] eqn:E; [reflexivity|].
  change ($"#") with [35%N]. cbn [starts_with is_pattern]. rewrite N.eqb_sym, andb_true_r.
  destruct (N.eqb c 35); reflexivity.
Qed.

(** Grouping keeps the sequence of patterns. *)
Definition group_ok (g : key * list glob) : Prop :=
  snd g <> [] /\ Forall (fun p => get_group_key p = fst g) (snd g).
Definition rflat (gs : list (key * list glob)) : list glob := flat_map (fun g => rev (snd g)) (rev gs).
Lemma rflat_cons k l gs : rflat ((k, l) :: gs) = rflat gs ++ rev l.
Proof. unfold rflat. cbn [rev]. rewrite flat_map_app. cbn. now rewrite app_nil_r. Qed.
Lemma group_loop_ok ps : forall gs, Forall group_ok gs ->
  rflat (group_loop ps gs) = rflat gs ++ ps /\ Forall group_ok (group_loop ps gs).
Proof.
  induction ps as [|p t IH]; intros gs H; cbn [group_loop].
  - now rewrite app_nil_r.
  - destruct gs as [|[k l] gs].
    + destruct (IH [(get_group_key p, [p])]) as [E F].
      * constructor; [split; [easy|repeat constructor]|constructor].
      * rewrite E. split; [reflexivity|exact F].
    + destruct (key_eqb (get_group_key p) k) eqn:K; cbn [negb].
      * apply key_eqb_eq in K. apply Forall_cons_iff in H as [[Hn Hl] H].
        destruct (IH ((k, p :: l) :: gs)) as [E F].
        -- constructor; [split; [easy|constructor; assumption]|exact H].
        -- split; [|exact F]. rewrite E, !rflat_cons. cbn [rev]. now rewrite <- !app_assoc.
      * destruct (IH ((get_group_key p, [p]) :: (k, l) :: gs)) as [E F].
        -- constructor; [split; [easy|repeat constructor]|exact H].
        -- split; [|exact F]. rewrite E, rflat_cons. now rewrite <- app_assoc.
Qed.
Lemma groups_of_ok ps : flat_map snd (groups_of ps) = ps /\ Forall group_ok (groups_of ps).
Proof.
  unfold groups_of. destruct (group_loop_ok ps [] (Forall_nil _)) as [E F]. split.
  - rewrite <- map_rev, flat_map_concat_map, map_map, <- flat_map_concat_map. cbn in E.
    rewrite <- E at 2. unfold rflat. apply flat_map_ext. now intros [].
  - apply Forall_rev. apply Forall_map. eapply Forall_impl; [|exact F]. intros [k l] [Hn Hl]. split; cbn in *.
    + intros E'. apply Hn. rewrite <- (rev_involutive l), E'. reflexivity.
    + apply Forall_rev, Hl.
Qed.

(** One pattern at a time. *)
Lemma slice_from (s d : str) : slice s (Some (Z.of_nat (length d))) None = relpath s d.
Proof.
  unfold slice, slice_bound, relpath. destruct (Z.ltb_spec (Z.of_nat (length d)) 0); [lia|].
  destruct (le_lt_dec (length d) (length s)) as [L|L].
  - rewrite Z.min_l by lia. rewrite Nat2Z.id. apply firstn_all2. rewrite skipn_length. lia.
  - rewrite Z.min_r by lia. rewrite Nat2Z.id, !skipn_all2 by lia. now rewrite firstn_nil.
Qed.
Section One.
  Variables (path name : str) (is_dir : bool).
  Notation relpath := (relpath path).
  (** What Glob.match says, or false. *)
  Definition applies (dirname : str) (g : glob) : bool :=
    match glob_match g (relpath dirname) name is_dir with COk b => b | _ => false end.
  Definition step (dirname file : str) (st : bool * option str) (g : glob) : bool * option str :=
    if applies dirname g then (g_include g, Some file) else st.
  Definition kstep (dirname file : str) (st : bool * option str) (kr : key * re) : bool * option str :=
    let '(k, r) := kr in
    if k_directory k && negb is_dir then st
    else if re_matches r (if k_anchored k then lstrip_p (N.eqb SLASH) (relpath dirname) else name)
         then (k_include k, Some file) else st.
  Lemma group_fold d f k ps rs : Forall (fun p => get_group_key p = k) ps ->
    Forall2 (compiles false) (map g_regex ps) rs -> forall st,
    fold_left (step d f) ps st =
    if k_directory k && negb is_dir then st
    else if existsb (fun r => re_matches r (if k_anchored k then lstrip_p (N.eqb SLASH) (relpath d) else name)) rs
         then (k_include k, Some f) else st.
  Proof.
    revert rs. induction ps as [|p ps IH]; intros rs Hk Hc st; inversion Hc as [|? r ? rs' Hr Hc']; subst.
    - cbn. now destruct (_ && _).
    - apply Forall_cons_iff in Hk as [Hp Hk]. cbn [fold_left]. rewrite (IH rs' Hk Hc').
      unfold step, applies, glob_match. destruct Hr as [-> _]. cbn [cbind existsb].
      rewrite <- Hp. cbn [get_group_key k_directory k_anchored k_include].
      destruct (g_directory p), is_dir; cbn [negb orb andb]; rewrite ?andb_false_r, ?andb_true_r; try reflexivity;
        destruct (re_matches r _); cbn [orb]; try reflexivity;
        match goal with |- context [if ?x then _ else _] => destruct x end; reflexivity.
  Qed.
  Lemma groups_fold d f gs : Forall group_ok gs -> Forall valid (flat_map snd gs) ->
    exists l, compile_groups gs = COk l /\
      forall st, fold_left (kstep d f) l st = fold_left (step d f) (flat_map snd gs) st.
  Proof.
    induction gs as [|[k ps] gs IH]; intros Hg Hv.
    - exists []. auto.
    - apply Forall_cons_iff in Hg as [[Hn Hk] Hg]. cbn [snd fst flat_map] in *.
      apply Forall_app in Hv as [Hv1 Hv2]. destruct (IH Hg Hv2) as (l & El & Hl).
      assert (Hrs : exists rs, Forall2 (compiles false) (map g_regex ps) rs).
      { clear - Hv1. induction Hv1 as [|p ps [r Hr] _ [rs IH]]; [exists []; constructor|].
        exists (r :: rs). now constructor. }
      destruct Hrs as (rs & Hrs).
      destruct (compile_join false _ _ Hrs) as (r & Er & Hr); [now destruct ps|].
      exists ((k, r) :: l). cbn [compile_groups]. rewrite Er. cbn [cbind]. rewrite El. split; [reflexivity|].
      intros st. cbn [fold_left]. rewrite fold_left_app, <- Hl. f_equal.
      rewrite (group_fold d f k ps rs Hk Hrs). unfold kstep. now rewrite Hr.
  Qed.
End One.
Lemma match_file_fold path name is_dir st ig :
  match_file path name is_dir st ig = fold_left (kstep path name is_dir (gi_dirname ig) (gi_path ig)) (gi_patterns ig) st.
Proof.
  unfold match_file. revert st. induction (gi_patterns ig) as [|[k r] l IH]; intros st; [reflexivity|].
  cbn [fold_left]. rewrite <- IH. f_equal. destruct st. unfold kstep. rewrite slice_from. destruct (k_directory k && negb is_dir); reflexivity.
Qed.

Lemma fold_decided {A S} (ap : A -> bool) (val : A -> S) (l : list A) (d : option A) (dv : S) :
  (match d with Some a => val a | None => dv end = dv) ->
  exists v, Decided (fun a => ap a = true) d l v /\
    fold_left (fun st a => if ap a then val a else st) l dv = match v with Some a => val a | None => dv end.
Proof.
  intros Hd. induction l as [|a l IH] using rev_ind.
  - exists d. split; [constructor; constructor|]. now rewrite Hd.
  - rewrite fold_left_app. cbn [fold_left]. destruct (ap a) eqn:E.
    + exists (Some a). split; [|reflexivity]. constructor; [exact E|constructor].
    + destruct IH as (v & Hv & ->). exists v. split; [|reflexivity].
      destruct Hv as [l H|l b l' Hb H].
      * constructor. apply Forall_app. split; [exact H|]. constructor; [congruence|constructor].
      * rewrite <- app_assoc. cbn [app]. constructor; [exact Hb|].
        apply Forall_app. split; [exact H|]. constructor; [congruence|constructor].
Qed.
Lemma fold_left_ext {A B} (f g : A -> B -> A) (l : list B) : (forall a b, f a b = g a b) ->
  forall a, fold_left f l a = fold_left g l a.
Proof. intros H. induction l as [|b l IH]; intros a; [reflexivity|]. cbn. now rewrite H, IH. Qed.
Lemma fold_left_map {A B C} (f : A -> B -> A) (h : C -> B) (l : list C) : forall a,
  fold_left f (map h l) a = fold_left (fun a c => f a (h c)) l a.
Proof. induction l as [|c l IH]; intros a; [reflexivity|]. cbn. apply IH. Qed.

Definition rule_b (path name : str) (is_dir : bool) (r : rule) : bool :=
  let '(d, _, p) := r in applies path name is_dir d (translate p true).
Lemma rule_b_iff path name is_dir r : rule_b path name is_dir r = true <-> rule_applies path name is_dir r.
Proof.
  destruct r as [[d f] p]. cbn. unfold applies. destruct (glob_match _ _ _ _) as [b| |]; [|easy..].
  split; [now intros ->|now intros [= ->]].
Qed.
Definition rule_val (r : rule) : bool * option str :=
  let '(_, f, p) := r in (g_include (translate p true), Some f).
Definition rules_fold path name is_dir (l : list rule) st :=
  fold_left (fun st r => if rule_b path name is_dir r then rule_val r else st) l st.

Lemma gitignore_fold path name is_dir d n lines : d <> [] ->
  Forall rule_valid (file_rules (d, n, lines)) ->
  exists ig, new_gitignore d n lines = COk ig /\
    forall st, match_file path name is_dir st ig = rules_fold path name is_dir (file_rules (d, n, lines)) st.
Proof.
  intros Hd Hv. unfold new_gitignore. destruct d as [|c d']; [easy|]. set (d := c :: d') in *.
  destruct (groups_of_ok (line_globs lines)) as [E F].
  destruct (groups_fold path name is_dir d (join d n) _ F) as (l & El & Hl).
  { rewrite E, line_globs_eq. apply Forall_map. unfold file_rules in Hv. rewrite Forall_map in Hv. exact Hv. }
  rewrite El. cbn [cbind]. eexists. split; [reflexivity|]. intros st.
  rewrite match_file_fold. cbn [gi_dirname gi_path gi_patterns]. rewrite Hl, E, line_globs_eq.
  unfold rules_fold, file_rules. rewrite !fold_left_map. reflexivity.
Qed.
Lemma gitignores_fold path name is_dir files : Forall (fun f => fst (fst f) <> []) files ->
  Forall rule_valid (flat_map file_rules files) ->
  exists igs, Forall2 (fun (f : file) ig => let '(d, n, lines) := f in new_gitignore d n lines = COk ig) files igs /\
    forall st, fold_left (match_file path name is_dir) igs st = rules_fold path name is_dir (flat_map file_rules files) st.
Proof.
  induction files as [|[[d n] lines] files IH]; intros Hd Hv.
  - exists []. split; [constructor|reflexivity].
  - cbn [flat_map] in *. apply Forall_app in Hv as [Hv1 Hv2]. apply Forall_cons_iff in Hd as [Hd1 Hd2].
    destruct (IH Hd2 Hv2) as (igs & F & Hf).
    destruct (gitignore_fold path name is_dir d n lines Hd1 Hv1) as (ig & E & Hg).
    exists (ig :: igs). split; [constructor; assumption|]. intros st. cbn [fold_left].
    unfold rules_fold. rewrite fold_left_app, Hf, Hg. reflexivity.
Qed.
Lemma rules_decide path name is_dir rules :
  exists v, Decided (rule_applies path name is_dir) None rules v /\
    (let '(exclude, p) := rules_fold path name is_dir rules (false, None) in
     (exclude, if exclude then p else None)) = answer v.
Proof.
  destruct (fold_decided (rule_b path name is_dir) rule_val rules None (false, None) eq_refl) as (v & Hv & E).
  exists v. split.
  - destruct Hv as [l H|l a l' Ha H].
    + constructor. eapply Forall_impl; [|exact H]. intros r Hr. now rewrite <- rule_b_iff.
    + constructor; [now apply rule_b_iff|]. eapply Forall_impl; [|exact H]. intros r Hr. now rewrite <- rule_b_iff.
  - unfold rules_fold. rewrite E. destruct v as [[[d f] p]|]; [|reflexivity]. cbn. now destruct (g_include _).
Qed.
Lemma git_match_decides files path name is_dir : Forall (fun f => fst (fst f) <> []) files ->
  Forall rule_valid (flat_map file_rules files) ->
  exists igs v, Forall2 (fun (f : file) ig => let '(d, n, lines) := f in new_gitignore d n lines = COk ig) files igs /\
    Decided (rule_applies path name is_dir) None (flat_map file_rules files) v /\
    git_match igs path name is_dir = answer v.
Proof.
  intros Hd Hv. destruct (gitignores_fold path name is_dir files Hd Hv) as (igs & F & Hf).
  destruct (rules_decide path name is_dir (flat_map file_rules files)) as (v & D & E).
  exists igs, v. split; [exact F|]. split; [exact D|]. unfold git_match. rewrite Hf. exact E.
Qed.
Lemma decided_unique {A} (P : A -> Prop) d l v w : Decided P d l v -> Decided P d l w -> v = w.
Proof.
  intros H1 H2. destruct H1 as [l H|l a l' Ha H].
  - remember l as k eqn:E. destruct H2 as [k H'|k b k' Hb H']; [reflexivity|].
    exfalso. subst l. apply Forall_app in H as [_ H]. apply Forall_inv in H. easy.
  - remember (l ++ a :: l') as k eqn:E. destruct H2 as [k H'|k b k' Hb H'].
    + exfalso. subst k. apply Forall_app in H' as [_ H']. apply Forall_inv in H'. easy.
    + f_equal. revert k E. induction l as [|x l IH]; intros [|y k] E.
      * now injection E.
      * cbn in E. injection E as <- E. exfalso. subst l'. apply Forall_app in H as [_ H]. now apply Forall_inv in H.
      * cbn in E. injection E as <- E. exfalso. subst k'. apply Forall_app in H' as [_ H']. now apply Forall_inv in H'.
      * cbn in E. injection E as _ E. eapply IH; eauto.
Qed.
