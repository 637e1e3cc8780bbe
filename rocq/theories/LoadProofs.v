(** Loading of plugins *)
From Coq Require Import List NArith Bool Lia Permutation.
From Verif Require Import Py TypeModel RegistryModel RegistrySpec RegistryProofs LoadModel LoadSpec.
Import ListNotations.

Lemma foldr_app {A B} (f : A -> B -> res A) l m a : foldr f (l ++ m) a = do a <- foldr f l a; foldr f m a.
Proof. revert a; induction l as [|x l IH]; intros a; cbn [app foldr bindr]; [reflexivity|]. destruct (f a x); cbn [bindr]; [apply IH|reflexivity]. Qed.
Lemma skipped_iff d : skipped d = false <-> plugin_file d.
Proof.
  unfold skipped, plugin_file. rewrite !orb_false_iff, !negb_false_iff, ends_with_iff.
  assert (S : starts_with ($"_") (d_name d) = false <-> forall rest, d_name d <> 95%N :: rest).
  { destruct (starts_with ($"_") (d_name d)) eqn:E.
    - split; [discriminate|]. intros H. apply starts_with_iff in E as [t E]. now destruct (H t).
    - split; [|reflexivity]. intros _ rest H. assert (X : starts_with ($"_") (d_name d) = true) by (apply starts_with_iff; now exists rest).
      rewrite X in E. discriminate E. }
  tauto.
Qed.

(** ** Events: classes that are found, files that cannot be executed *)
Definition event := option object.
Definition step (r : list plugin) (v : event) : res (list plugin) := match v with None => Err PluginErr | Some o => register r o end.
Definition events (d : dirent) : list event :=
  if skipped d then [] else match d_file d with None => [None] | Some l => map Some l end.
Lemma step_map l r : foldr step (map Some l) r = foldr register l r.
Proof. revert r; induction l as [|o l IH]; intros r; [reflexivity|]. cbn [map foldr step]. destruct (register r o); [apply IH|reflexivity]. Qed.
Lemma entry_events r d : load_entry r d = foldr step (events d) r.
Proof.
  unfold load_entry, events, load_file. destruct (skipped d); [reflexivity|]. destruct (d_file d); [symmetry; apply step_map|reflexivity].
Qed.
Lemma entries_events l r : foldr load_entry l r = foldr step (flat_map events l) r.
Proof.
  revert r; induction l as [|d l IH]; intros r; [reflexivity|]. cbn [flat_map foldr]. rewrite foldr_app, entry_events.
  destruct (foldr step (events d) r); [apply IH|reflexivity].
Qed.
Definition dir_events (scandir : str -> option (list dirent)) (d : str) : list event :=
  match scandir d with None => [] | Some l => flat_map events l end.
Lemma load_events scandir dirs : load_directories scandir dirs = foldr step (flat_map (dir_events scandir) dirs) [].
Proof.
  unfold load_directories. generalize (@nil plugin) as r. induction dirs as [|d dirs IH]; intros r; [reflexivity|].
  cbn [flat_map foldr]. rewrite foldr_app. unfold load_directory at 1, dir_events at 1.
  destruct (scandir d); [|apply IH]. rewrite entries_events. destruct (foldr step (flat_map events l) r); [apply IH|reflexivity].
Qed.

(** ** The plugins that are registered *)
Definition event_plugin (v : event) : list plugin := match v with Some (Class n a _) => [plugin_of n a] | _ => [] end.
Lemma step_ok r v r' : step r v = Ok r' -> r' = fold_left register_plugin (event_plugin v) r.
Proof.
  destruct v as [[n a s|]|]; cbn; try (intros H; injection H as ->; reflexivity); [|discriminate].
  unfold register_plugin. cbn. destruct (str_in (lower n) (map p_name r)); [intros H; injection H as ->; reflexivity|].
  destruct s; [intros H; injection H as ->; reflexivity|discriminate].
Qed.
Lemma steps_ok l r r' : foldr step l r = Ok r' -> r' = fold_left register_plugin (flat_map event_plugin l) r.
Proof.
  revert r; induction l as [|v l IH]; intros r; cbn [foldr flat_map]; [intros H; injection H as ->; reflexivity|].
  destruct (step r v) eqn:E; cbn [bindr]; [|discriminate]. intros H. apply IH in H. subst r'. apply step_ok in E. subst a.
  now rewrite fold_left_app.
Qed.
Definition found (scandir : str -> option (list dirent)) (dirs : list str) : list plugin :=
  flat_map event_plugin (flat_map (dir_events scandir) dirs).
Lemma load_found scandir dirs r : load_directories scandir dirs = Ok r -> r = load_plugins (found scandir dirs).
Proof. rewrite load_events. intros H. now apply steps_ok in H. Qed.
Lemma found_app scandir a b : found scandir (a ++ b) = found scandir a ++ found scandir b.
Proof. unfold found. now rewrite !flat_map_app. Qed.
Lemma events_in scandir d v : In v (dir_events scandir d) <->
  exists l e, scandir d = Some l /\ In e l /\ plugin_file e /\
    ((v = None /\ d_file e = None) \/ exists objects o, d_file e = Some objects /\ In o objects /\ v = Some o).
Proof.
  unfold dir_events. destruct (scandir d) as [l|] eqn:E.
  - rewrite in_flat_map. split.
    + intros (e & I & V). unfold events in V. destruct (skipped e) eqn:K; [destruct V|]. apply skipped_iff in K.
      exists l, e. split; [reflexivity|]. split; [exact I|]. split; [exact K|]. destruct (d_file e) as [objects|].
      * apply in_map_iff in V as (o & <- & V). right. now exists objects, o.
      * destruct V as [<-|[]]. now left.
    + intros (l' & e & H & I & K & V). injection H as <-. exists e. split; [exact I|]. unfold events.
      apply skipped_iff in K. rewrite K. destruct V as [[-> ->]|(objects & o & -> & V & ->)]; [now left|]. now apply in_map.
  - split; [intros []|]. intros (l & e & H & _). discriminate H.
Qed.
Lemma found_one scandir d p : In p (flat_map event_plugin (dir_events scandir d)) <->
  exists n a s, Offers scandir d n a s /\ p = plugin_of n a.
Proof.
  rewrite in_flat_map. split.
  - intros (v & I & P). destruct v as [[n a s|]|]; try (now destruct P). destruct P as [<-|[]].
    apply events_in in I as (l & e & L & I & K & [[V _]|(objects & o & F & O & V)]); [discriminate V|]. injection V as <-.
    exists n, a, s. split; [|reflexivity]. exists l, e, objects. auto.
  - intros (n & a & s & (l & e & objects & L & I & K & F & O) & ->). exists (Some (Class n a s)). split; [|now left].
    apply events_in. exists l, e. split; [exact L|]. split; [exact I|]. split; [exact K|]. right. exists objects, (Class n a s). auto.
Qed.
Lemma found_cons scandir d dirs : found scandir (d :: dirs) = flat_map event_plugin (dir_events scandir d) ++ found scandir dirs.
Proof. unfold found. cbn [flat_map]. now rewrite flat_map_app. Qed.
Lemma found_in scandir dirs p : In p (found scandir dirs) <-> exists d n a s, In d dirs /\ Offers scandir d n a s /\ p = plugin_of n a.
Proof.
  induction dirs as [|d dirs IH].
  - split; [intros []|]. intros (d & n & a & s & [] & _).
  - rewrite found_cons, in_app_iff, IH, found_one. split.
    + intros [(n & a & s & H)|(d' & n & a & s & I & H)]; [exists d|exists d']; exists n, a, s; split; try exact H; [now left|now right].
    + intros (d' & n & a & s & [<-|I] & H); [left|right]; [now exists n, a, s|]. now exists d', n, a, s.
Qed.
Lemma loaded_found scandir dirs p : Loaded (found scandir dirs) p ->
  exists before d after n a s, dirs = before ++ d :: after /\ Offers scandir d n a s /\ p = plugin_of n a /\
    forall d' n' a' s', In d' before -> Offers scandir d' n' a' s' -> lower n' <> lower n.
Proof.
  induction dirs as [|d dirs IH] in p |- *.
  - intros (b & c & H & _). now destruct b.
  - intros L. destruct (in_dec str_eq_dec (p_name p) (map p_name (flat_map event_plugin (dir_events scandir d)))) as [I|N].
    + destruct L as (b & c & H & NI). rewrite found_cons in H.
      assert (P : In p (flat_map event_plugin (dir_events scandir d))).
      { set (x := flat_map event_plugin (dir_events scandir d)) in *. clearbody x. revert b H NI. induction x as [|q x IHx]; intros b H NI; [destruct I|].
        destruct b as [|q' b]; cbn [app] in H.
        - injection H as -> _. now left.
        - injection H as -> H. right. apply (IHx) with b; [|exact H|].
          + destruct I as [I|I]; [|exact I]. exfalso. apply NI. cbn. now left.
          + intros K. apply NI. now right. }
      apply found_one in P as (n & a & s & O & ->). exists [], d, dirs, n, a, s. split; [reflexivity|]. split; [exact O|]. split; [reflexivity|]. intros d' ? ? ? [].
    + assert (L' : Loaded (found scandir dirs) p).
      { destruct L as (b & c & H & NI). rewrite found_cons in H.
        set (x := flat_map event_plugin (dir_events scandir d)) in *. clearbody x. revert b H NI. induction x as [|q x IHx]; intros b H NI.
        - exists b, c. auto.
        - destruct b as [|q' b]; cbn [app] in H.
          + injection H as -> _. destruct N. now left.
          + injection H as -> H. apply (IHx) with b; [|exact H|].
            * intros K. apply N. now right.
            * intros K. apply NI. now right. }
      apply IH in L' as (before & d1 & after & n & a & s & -> & O & -> & F).
      exists (d :: before), d1, after, n, a, s. split; [reflexivity|]. split; [exact O|]. split; [reflexivity|].
      intros d' n' a' s' [<-|I] O' E; [|now apply (F _ _ _ _ I O')].
      apply N. apply in_map_iff. exists (plugin_of n' a'). split; [exact E|]. apply found_one. now exists n', a', s'.
Qed.
(** The first directory wins, each name is there once, and no plugin is lost *)
Lemma load_first scandir dirs r : load_directories scandir dirs = Ok r ->
  NoDup (map p_name r) /\
  (forall p, In p r -> exists before d after n s, dirs = before ++ d :: after /\ Offers scandir d n (p_attrs p) s /\ p_name p = lower n /\
     forall d' n' a' s', In d' before -> Offers scandir d' n' a' s' -> lower n' <> lower n) /\
  (forall d n a s, In d dirs -> Offers scandir d n a s -> exists p, In p r /\ p_name p = lower n).
Proof.
  intros H. apply load_found in H. subst r. split; [apply load_nodup|]. split.
  - intros p I. apply load_in, loaded_found in I as (before & d & after & n & a & s & -> & O & -> & F).
    exists before, d, after, n, s. auto.
  - intros d n a s I O. assert (N : In (lower n) (map p_name (load_plugins (found scandir dirs)))).
    { apply load_names, in_map_iff. exists (plugin_of n a). split; [reflexivity|]. apply found_in. now exists d, n, a, s. }
    apply in_map_iff in N as (p & E & N). now exists p.
Qed.

(** ** Errors *)
Lemma step_error r v e : step r v = Err e -> e = PluginErr /\ (v = None \/ exists n a, v = Some (Class n a false)).
Proof.
  destruct v as [[n a s|]|]; cbn; try discriminate.
  - destruct (str_in _ _); [discriminate|]. destruct s; [discriminate|]. intros [= <-]. split; [reflexivity|]. right. now exists n, a.
  - intros [= <-]. auto.
Qed.
Lemma steps_error l : forall r e, foldr step l r = Err e -> e = PluginErr /\ (In None l \/ exists n a, In (Some (Class n a false)) l).
Proof.
  induction l as [|v l IH]; intros r e; [discriminate|]. cbn [foldr]. destruct (step r v) as [r1|e1] eqn:E; cbn [bindr].
  - intros H. apply IH in H as [-> [H|(n & a & H)]]; (split; [reflexivity|]); [left; now right|right; exists n, a; now right].
  - intros H. injection H as ->. apply step_error in E as [-> [->|(n & a & ->)]]; (split; [reflexivity|]); [left; now left|right; exists n, a; now left].
Qed.
Lemma steps_broken l : In None l -> forall r, foldr step l r = Err PluginErr.
Proof.
  induction l as [|v l IH]; intros I r; [destruct I|]. cbn [foldr]. destruct I as [->|I]; [reflexivity|].
  destruct (step r v) eqn:E; cbn [bindr]; [now apply IH|]. now apply step_error in E as [-> _].
Qed.
Lemma all_events scandir dirs v : In v (flat_map (dir_events scandir) dirs) <-> exists d, In d dirs /\ In v (dir_events scandir d).
Proof. apply in_flat_map. Qed.
Lemma load_error scandir dirs e : load_directories scandir dirs = Err e ->
  e = PluginErr /\ exists d, In d dirs /\ (Broken scandir d \/ exists n a, Offers scandir d n a false).
Proof.
  rewrite load_events. intros H. apply steps_error in H as [-> H]. split; [reflexivity|].
  destruct H as [H|(n & a & H)]; apply all_events in H as (d & I & H); exists d; (split; [exact I|]);
    apply events_in in H as (l & en & L & J & K & [[V F]|(objects & o & F & O & V)]); try discriminate V.
  - left. now exists l, en.
  - right. exists n, a. injection V as <-. now exists l, en, objects.
Qed.
Lemma load_broken scandir dirs d : In d dirs -> Broken scandir d -> load_directories scandir dirs = Err PluginErr.
Proof.
  intros I (l & en & L & J & K & F). rewrite load_events. apply steps_broken, all_events. exists d. split; [exact I|].
  apply events_in. exists l, en. auto 10.
Qed.

(** ** More directories *)
Lemma load_prefix scandir pre more r : load_directories scandir (pre ++ more) = Ok r ->
  exists r0, load_directories scandir pre = Ok r0 /\ incl r0 r.
Proof.
  intros H. assert (F := load_found _ _ _ H). rewrite load_events, flat_map_app, foldr_app in H.
  destruct (foldr step (flat_map (dir_events scandir) pre) []) as [r0|] eqn:E; cbn [bindr] in H; [|discriminate].
  rewrite <- load_events in E. exists r0. split; [exact E|]. apply load_found in E. subst r0 r. rewrite found_app.
  intros p I. apply load_in in I as (b & c & -> & N). apply load_in. exists b, (c ++ found scandir more). split; [now rewrite <- app_assoc|exact N].
Qed.
Lemma find_incl r r' p n : NoDup (map p_name r') -> incl r r' -> find_plugin r n = Some p -> find_plugin r' n = Some p.
Proof.
  intros D I H. unfold find_plugin in *. apply find_some in H as [H E]. apply I in H. apply str_eqb_eq in E. subst n.
  clear I. induction r' as [|q r' IH]; [destruct H|]. cbn [find]. inversion D as [|? ? N D']; subst. destruct (str_eqb (p_name q) (p_name p)) eqn:E.
  - apply str_eqb_eq in E. destruct H as [->|H]; [reflexivity|]. exfalso. apply N. rewrite E. now apply in_map.
  - destruct H as [->|H]; [now rewrite str_eqb_refl in E|]. now apply IH.
Qed.
(** Full names keep their meaning *)
Lemma full_names scandir pre more r r0 : load_directories scandir (pre ++ more) = Ok r -> load_directories scandir pre = Ok r0 ->
  forall a t, get_attribute_type r0 a = Ok t -> get_attribute_type r a = Ok t.
Proof.
  intros H H0 a t. destruct (load_prefix _ _ _ _ H) as (r1 & E & I). rewrite H0 in E. injection E as <-.
  assert (D : NoDup (map p_name r)) by (apply load_found in H; subst r; apply load_nodup).
  unfold get_attribute_type. destruct (find_plugin r0 (fst a)) as [p|] eqn:F; [|discriminate]. now rewrite (find_incl _ _ _ _ D I F).
Qed.
(** So do the names of the attributes of files *)
Lemma file_names scandir pre more r r0 n t : load_directories scandir (pre ++ more) = Ok r -> load_directories scandir pre = Ok r0 ->
  get_attribute_type r0 ($"file", n) = Ok t -> ~ In 46%N n -> parse_attribute r n = Ok ($"file", n).
Proof.
  intros H H0 T N. assert (T' := full_names _ _ _ _ _ H H0 _ _ T). clear T H0.
  unfold parse_attribute. rewrite no_dot by exact N.
  assert (X : str_in ($"file") (get_plugin_for_attribute r n) = true).
  { apply str_in_iff. unfold get_attribute_type in T'. cbn [fst snd] in T'. destruct (find_plugin r ($"file")) as [p|] eqn:F; [|discriminate].
    unfold find_plugin in F. apply find_some in F as [F E]. apply str_eqb_eq in E. rewrite <- E. unfold get_plugin_for_attribute. apply in_map.
    apply filter_In. split; [exact F|]. now destruct (find_attr n p). }
  now rewrite X.
Qed.

(** ** The order within a directory *)
Definition eqv (a b : res (list plugin)) : Prop :=
  match a, b with Ok r, Ok r' => Permutation r r' | Err e, Err e' => e = e' | _, _ => False end.
Lemma eqv_refl a : eqv a a.
Proof. destruct a; cbn; auto. Qed.
Lemma eqv_trans a b c : eqv a b -> eqv b c -> eqv a c.
Proof. destruct a, b, c; cbn; try tauto; [apply perm_trans|congruence]. Qed.
Lemma str_in_perm n l l' : Permutation l l' -> str_in n l = str_in n l'.
Proof.
  intros P. destruct (str_in n l) eqn:E; symmetry.
  - apply str_in_iff in E. apply str_in_iff. now apply (Permutation_in _ P).
  - destruct (str_in n l') eqn:E'; [|reflexivity]. apply str_in_iff in E'. apply Permutation_sym in P. apply (Permutation_in _ P), str_in_iff in E'. congruence.
Qed.
Lemma step_perm r r' v : Permutation r r' -> eqv (step r v) (step r' v).
Proof.
  intros P. destruct v as [[n a s|]|]; cbn; try exact P; [|reflexivity].
  rewrite (str_in_perm _ _ _ (Permutation_map p_name P)). destruct (str_in _ _); [exact P|]. destruct s; cbn; [|reflexivity]. now apply Permutation_app_tail.
Qed.
Lemma steps_perm l : forall r r', Permutation r r' -> eqv (foldr step l r) (foldr step l r').
Proof.
  induction l as [|v l IH]; intros r r' P; [exact P|]. cbn [foldr]. assert (S := step_perm _ _ v P).
  destruct (step r v), (step r' v); cbn [bindr]; cbn in S; [now apply IH|destruct S|destruct S|now subst].
Qed.
Definition event_name (v : event) : list str := match v with Some (Class n _ _) => [lower n] | _ => [] end.
Lemma step_swap r v w : NoDup (event_name v ++ event_name w) ->
  eqv (do r <- step r v; step r w) (do r <- step r w; step r v).
Proof.
  intros D.
  assert (X : forall n m l, n <> m -> str_in n (l ++ [m]) = str_in n l).
  { intros n m l N. destruct (str_in n l) eqn:E.
    - apply str_in_iff in E. apply str_in_iff, in_or_app. now left.
    - destruct (str_in n (l ++ [m])) eqn:E'; [|reflexivity]. apply str_in_iff, in_app_or in E' as [E'|[E'|[]]]; [apply str_in_iff in E'; congruence|now destruct N]. }
  destruct v as [[n a s|]|], w as [[m b t|]|]; cbn [step register bindr];
    try (destruct (str_in _ _); cbn [bindr]; [|destruct s || destruct t; cbn [bindr]]; reflexivity || apply eqv_refl);
    try (cbn; reflexivity); try apply eqv_refl;
    try (match goal with |- eqv (do r <- (if ?x then _ else _); Err _) _ => destruct x; cbn [bindr]; [reflexivity|destruct s; reflexivity] end);
    try (match goal with |- eqv (Err _) (do r <- (if ?x then _ else _); Err _) => destruct x; cbn [bindr]; [reflexivity|destruct t; reflexivity] end);
    try (destruct (if str_in _ _ then _ else _); apply eqv_refl).
  assert (N : lower n <> lower m) by (cbn in D; inversion D as [|? ? K _]; intros E; apply K; left; now symmetry).
  cbn [p_name plugin_of]. destruct (str_in (lower n) (map p_name r)) eqn:En, (str_in (lower m) (map p_name r)) eqn:Em; cbn [bindr]; rewrite ?En, ?Em.
  - apply eqv_refl.
  - destruct t; cbn [bindr]; [|reflexivity]. rewrite map_app. cbn [map p_name plugin_of]. rewrite X by exact N. rewrite En. apply eqv_refl.
  - destruct s; cbn [bindr]; [|reflexivity]. rewrite map_app. cbn [map p_name plugin_of]. rewrite X by (intros E; now destruct N). rewrite Em. apply eqv_refl.
  - destruct s, t; cbn [bindr]; rewrite ?map_app; cbn [map p_name plugin_of]; rewrite ?(X _ _ _ N), ?(X _ _ _ (not_eq_sym N)), ?En, ?Em; try reflexivity.
    cbn. rewrite <- !app_assoc. apply Permutation_app_head. apply perm_swap.
Qed.
Lemma nodup_parts {A} (a b : list A) : NoDup (a ++ b) -> NoDup a /\ NoDup b.
Proof.
  induction a as [|x a IH]; intros H; [split; [constructor|exact H]|]. inversion H as [|? ? N D]; subst. apply IH in D as [D1 D2].
  split; [|exact D2]. constructor; [|exact D1]. intros I. apply N, in_or_app. now left.
Qed.
Lemma perm_steps l l' : Permutation l l' -> NoDup (flat_map event_name l) -> forall r, eqv (foldr step l r) (foldr step l' r).
Proof.
  induction 1 as [|v l l' P IH|v w l|l l' l'' P1 IH1 P2 IH2]; intros D r.
  - apply eqv_refl.
  - cbn [foldr]. destruct (step r v); cbn [bindr]; [|reflexivity]. apply IH. cbn [flat_map] in D. now apply nodup_parts in D.
  - cbn [flat_map] in D. rewrite app_assoc in D. assert (D' := proj1 (nodup_parts _ _ D)).
    assert (S := step_swap r w v D').
    change (foldr step (w :: v :: l) r) with (do r <- step r w; do r <- step r v; foldr step l r).
    change (foldr step (v :: w :: l) r) with (do r <- step r v; do r <- step r w; foldr step l r).
    assert (A : forall x y, (do r <- step r x; do r <- step r y; foldr step l r) = (do r <- (do r <- step r x; step r y); foldr step l r)).
    { intros x y. destruct (step r x); reflexivity. }
    rewrite !A. destruct (do r <- step r w; step r v), (do r <- step r v; step r w); cbn [bindr]; cbn in S; [now apply steps_perm|destruct S|destruct S|now subst].
  - eapply eqv_trans; [now apply IH1|]. apply IH2. eapply Permutation_NoDup; [|exact D]. now apply Permutation_flat_map.
Qed.
Lemma names_events l names : Names l names -> flat_map event_name (flat_map events l) = names.
Proof.
  induction 1 as [|d l names K _ IH|d l names objects K F _ IH]; [reflexivity| |]; cbn [flat_map]; rewrite flat_map_app, IH.
  - unfold events. destruct (skipped d) eqn:E; [reflexivity|]. now apply skipped_iff in E.
  - f_equal. unfold events. apply skipped_iff in K. rewrite K. destruct F as [->|[-> ->]]; [|reflexivity].
    clear. induction objects as [|[n a s|] o IH]; cbn; [reflexivity| |exact IH]. now rewrite IH.
Qed.
(** The order of the files in a directory does not matter if their plugins have
    different names *)
Lemma load_order scandir scandir' dirs :
  (forall d, In d dirs -> match scandir d, scandir' d with
    | Some l, Some l' => Permutation l l' /\ exists names, Names l names /\ NoDup names
    | None, None => True
    | _, _ => False end) ->
  match load_directories scandir dirs, load_directories scandir' dirs with
  | Ok r, Ok r' => Permutation r r'
  | Err e, Err e' => e = e'
  | _, _ => False
  end.
Proof.
  intros H. change (eqv (load_directories scandir dirs) (load_directories scandir' dirs)). rewrite !load_events.
  assert (P : Permutation (@nil plugin) []) by constructor. revert P. generalize (@nil plugin) at 1 3 as r. generalize (@nil plugin) as r'.
  induction dirs as [|d dirs IH]; intros r' r P; [exact P|]. cbn [flat_map]. rewrite !foldr_app.
  assert (S : eqv (foldr step (dir_events scandir d) r) (foldr step (dir_events scandir' d) r')).
  { apply eqv_trans with (foldr step (dir_events scandir d) r'); [now apply steps_perm|].
    specialize (H d (or_introl eq_refl)). unfold dir_events. destruct (scandir d), (scandir' d); try now destruct H.
    - destruct H as (Q & names & N & D). apply perm_steps; [now apply Permutation_flat_map|]. now rewrite (names_events _ _ N).
    - apply eqv_refl. }
  destruct (foldr step (dir_events scandir d) r), (foldr step (dir_events scandir' d) r'); cbn in S; cbn [bindr]; [|destruct S|destruct S|exact S].
  apply IH; [|exact S]. intros d' I. apply H. now right.
Qed.

(** ** The directories *)
Lemma len_rest {A} (d t : list A) x k : length (d ++ x :: t) <= S k -> length t <= k.
Proof. rewrite app_length. cbn [length]. lia. Qed.
Lemma listed_split s l : Listed s l <-> l = filter (fun d => match d with [] => false | _ => true end) (split_on 58%N s).
Proof.
  assert (A : forall d t, ~ In 58%N d -> split_on 58%N (d ++ 58%N :: t) = d :: split_on 58%N t).
  { induction d as [|c d IH]; intros t N; [reflexivity|]. cbn [app split_on]. destruct (N.eqb c 58) eqn:E.
    - apply N.eqb_eq in E. destruct N. now left.
    - rewrite IH by (intros K; apply N; now right). reflexivity. }
  assert (B : forall d, ~ In 58%N d -> split_on 58%N d = [d]).
  { induction d as [|c d IH]; intros N; [reflexivity|]. cbn [split_on]. destruct (N.eqb c 58) eqn:E.
    - apply N.eqb_eq in E. destruct N. now left.
    - now rewrite IH by (intros K; apply N; now right). }
  split.
  - induction 1 as [|d D N|d s l D N _ IH|s l _ IH].
    + reflexivity.
    + rewrite B by exact N. destruct d; [now destruct D|reflexivity].
    + change (d ++ $":" ++ s) with (d ++ 58%N :: s). rewrite A by exact N. cbn [filter]. destruct d; [now destruct D|]. now rewrite <- IH.
    + change ($":" ++ s) with ([] ++ 58%N :: s). rewrite A by (intros []). cbn [filter]. exact IH.
  - intros ->. remember (length s) as k eqn:K. assert (L : (length s <= k)%nat) by lia. clear K. revert s L. induction k as [|k IH]; intros s L.
    + destruct s; [constructor|cbn in L; lia].
    + destruct (in_dec N.eq_dec 58%N s) as [I|N].
      * apply in_split in I as (d & t & E).
        assert (M : exists d t, s = d ++ 58%N :: t /\ ~ In 58%N d).
        { clear -E. subst s. induction d as [|c d IH]; [exists [], t; split; [reflexivity|intros []]|].
          destruct (N.eq_dec c 58) as [->|N]; [exists [], (d ++ 58%N :: t); split; [reflexivity|intros []]|].
          destruct IH as (d' & t' & E & I). exists (c :: d'), t'. split; [cbn; now rewrite E|]. intros [J|J]; [now destruct N|now destruct I]. }
        clear d t E. destruct M as (d & t & -> & N). rewrite A by exact N. apply (len_rest d t 58%N k) in L.
        destruct d as [|c d]; cbn [filter].
        -- apply (listed_empty t). apply IH. exact L.
        -- apply (listed_more (c :: d) t); [discriminate|exact N|]. apply IH. exact L.
      * rewrite B by exact N. destruct s as [|c s]; [constructor|]. cbn [filter]. apply listed_last; [discriminate|exact N].
Qed.
Lemma dirs_iter debug builtin contrib user checkout v l :
  iter_plugin_dirs debug builtin contrib user checkout v = l <->
  Directories builtin (match checkout with Some d => if debug then d else contrib | None => contrib end) user v l.
Proof.
  unfold iter_plugin_dirs. set (c := match checkout with Some d => _ | None => _ end). clearbody c. destruct v as [s|].
  - split.
    + intros <-. apply (dirs_set _ _ _ s). now apply listed_split.
    + intros H. inversion H as [|s' l' L]; subst. apply listed_split in L. now subst l'.
  - split; [intros <-; constructor|]. intros H. now inversion H.
Qed.
Lemma load_all_first scandir (debug : bool) builtin contrib user checkout v dirs r :
  Directories builtin (match checkout with Some d => if debug then d else contrib | None => contrib end) user v dirs ->
  load_all scandir debug builtin contrib user checkout v = Ok r ->
  NoDup (map p_name r) /\
  (forall p, In p r -> exists before d after n s, dirs = before ++ d :: after /\ Offers scandir d n (p_attrs p) s /\ p_name p = lower n /\
     forall d' n' a' s', In d' before -> Offers scandir d' n' a' s' -> lower n' <> lower n) /\
  (forall d n a s, In d dirs -> Offers scandir d n a s -> exists p, In p r /\ p_name p = lower n).
Proof. intros D. unfold load_all. apply dirs_iter in D. rewrite D. apply load_first. Qed.
(** No other directory comes before the one of ff itself. *)
Lemma load_all_builtin scandir (debug : bool) builtin contrib user checkout v r :
  load_all scandir debug builtin contrib user checkout v = Ok r ->
  forall n a s, Offers scandir builtin n a s -> exists n' s' p, In p r /\ p_name p = lower n /\ lower n' = lower n /\ Offers scandir builtin n' (p_attrs p) s'.
Proof.
  intros L n a s O. set (dirs := iter_plugin_dirs debug builtin contrib user checkout v).
  assert (D : Directories builtin (match checkout with Some d => if debug then d else contrib | None => contrib end) user v dirs) by now apply dirs_iter.
  destruct (load_all_first _ _ _ _ _ _ _ _ _ D L) as (_ & H & K).
  assert (I : In builtin dirs) by now left.
  destruct (K builtin n a s I O) as (p & P & E). destruct (H p P) as (before & d & after & n' & s' & X & O' & E' & F).
  assert (N : lower n' = lower n) by congruence.
  destruct before as [|b before].
  - injection X as <- _. exists n', s', p. auto.
  - injection X as <- _. exfalso. exact (F builtin n a s (or_introl eq_refl) O (eq_sym N)).
Qed.
