(** Proofs about queries in one process (C65). *)
From Coq Require Import List NArith ZArith Bool Lia.
From Verif Require Import Py Re PathModel TypeModel RegistryModel IgnoreModel CacheModel CacheSpec CacheProofs ApiModel ApiSpec.
Import ListNotations.

Lemma assoc_update_same {A} n (a : A) l : assoc n (update n a l) = Some a.
Proof.
  induction l as [|[m b] l IH]; cbn [update assoc]; [now rewrite str_eqb_refl|].
  destruct (str_eqb m n) eqn:E; cbn [assoc]; rewrite E; auto.
Qed.
Lemma assoc_update_other {A} n m (a : A) l : m <> n -> assoc m (update n a l) = assoc m l.
Proof.
  intros N. induction l as [|[k b] l IH]; cbn [update assoc].
  - destruct (str_eqb n m) eqn:E; [apply str_eqb_eq in E; congruence|reflexivity].
  - destruct (str_eqb k n) eqn:E; cbn [assoc]; [|now rewrite IH].
    apply str_eqb_eq in E. subst k. destruct (str_eqb n m) eqn:E2; [apply str_eqb_eq in E2; congruence|reflexivity].
Qed.
Lemma find_aplugin_name n l p : find_aplugin n l = Some p -> a_name p = n /\ In p l.
Proof. intros H. apply find_some in H as [H1 H2]. split; [now apply str_eqb_eq|exact H1]. Qed.

Lemma has_table_own t d : has_table t (init_table t d) = true.
Proof.
  unfold has_table, init_table. set (tables := filter _ (map fst d)).
  apply existsb_exists. exists t. split; [|apply str_eqb_refl].
  destruct (existsb (str_eqb t) tables) eqn:X.
  - apply existsb_exists in X as (u & H & E). apply str_eqb_eq in E. subst u. apply filter_In in H as [H _].
    apply in_map_iff in H as ([u rows] & E & H). cbn in E. subst u.
    apply in_map_iff. exists (t, rows). split; [reflexivity|]. apply filter_In. split; [exact H|]. cbn. now rewrite str_eqb_refl, andb_false_r.
  - apply in_map_iff. exists (t, []). split; [reflexivity|]. apply filter_In. split; [apply in_or_app; right; now left|].
    cbn. now rewrite str_eqb_refl, andb_false_r.
Qed.
Lemma has_table_kept t u d : has_table t d = true -> like (rstrip_digits u ++ $"%") t = false -> has_table t (init_table u d) = true.
Proof.
  intros H L. unfold has_table in *. apply existsb_exists in H as (x & H & E). apply str_eqb_eq in E. subst x.
  apply in_map_iff in H as ([x rows] & E & H). cbn in E. subst x.
  apply existsb_exists. exists t. split; [|apply str_eqb_refl]. apply in_map_iff. exists (t, rows). split; [reflexivity|].
  unfold init_table. apply filter_In. split.
  - destruct (existsb _ _); [exact H|apply in_or_app; now left].
  - cbn [fst]. destruct (existsb (str_eqb t) (filter (like (rstrip_digits u ++ $"%")) (map fst d))) eqn:X; [|reflexivity].
    apply existsb_exists in X as (x & X & E). apply str_eqb_eq in E. subst x. apply filter_In in X as [_ X]. congruence.
Qed.
Lemma apart_like l p p' : apart l -> In p l -> In p' l -> a_cached p = true -> a_cached p' = true -> a_name p <> a_name p' ->
  like (rstrip_digits (a_table p) ++ $"%") (a_table p') = false.
Proof.
  intros [S A] H H' C C' N. specialize (A p p' H H' C C' N). destruct (like _ _) eqn:L; [|reflexivity]. exfalso. apply A.
  unfold a_table in *. rewrite rstrip_table in L. apply (like_covers ($"plugin_" ++ a_name p ++ $"_")); [|apply simple_table; auto|exact L].
  rewrite !forallb_app, (S p H). reflexivity.
Qed.

Section Proofs.
  Variables W E V I : Type.
  Variable modules : W -> list module.
  Variable setup : W -> str -> bool.
  Variable new : str -> I.
  Variable can_handle : W -> str -> E -> bool.
  Variable process : W -> str -> I -> E -> option (list (str * V)) * I.
  Variable file_value : W -> E -> str -> option V.
  Variable debug : bool.
  Variable w : W.
  Variable cache : option str.
  Variable Inv : str -> I -> Prop.
  Notation R := (fst (load_modules [] (modules w))).
  Hypothesis fine : snd (load_modules [] (modules w)) = true.
  Hypothesis AP : apart R.
  Hypothesis UN : unnoticed (process w) new Inv.

  Definition table_ready (st : pstate I) (p : aplugin) : Prop :=
    a_cached p = true -> forall c, cache = Some c -> has_table (a_table p) (database_of st c) = true.
  (** what holds between queries *)
  Definition settled (st : pstate I) : Prop :=
    (forall n i, assoc n (plugins st) = Some i -> setup w n = true /\ Inv n i /\ exists p, find_aplugin n R = Some p /\ table_ready st p) /\
    (forall n, In n (cache_names st) -> assoc n (plugins st) = None -> setup w n = false).
  Definition ready (st : pstate I) : Prop :=
    settled st /\ (registered st = [] \/ registered st = R /\ complete st = true).
  Definition loaded (st : pstate I) : Prop := settled st /\ registered st = R /\ complete st = true.

  Lemma fresh_ready d : ready (fresh d).
  Proof. split; [split; cbn; [discriminate|intros n []]|left; reflexivity]. Qed.
  Lemma loaded_ready st : loaded st -> ready st.
  Proof. intros (S & L). split; auto. Qed.
  Lemma new_registry_ok st : ready st -> fst (new_registry modules w st) = Ok tt /\ loaded (snd (new_registry modules w st)).
  Proof.
    intros [S L]. unfold new_registry. destruct (registered st) eqn:X.
    - destruct (load_modules [] (modules w)) as [r f] eqn:LM. cbn in fine. subst f. cbn. split; [reflexivity|].
      split; [|split; [cbn; now rewrite LM|reflexivity]]. exact S.
    - split; [reflexivity|]. split; [exact S|]. destruct L as [L|L]; [discriminate|]. cbn [snd]. rewrite X. exact L.
  Qed.

  (** setting up a plugin that is not there yet *)
  Lemma init_plugin_ok st p n : loaded st -> find_aplugin n R = Some p -> assoc n (plugins st) = None ->
    let (r, st') := init_plugin setup new debug w cache p st in
    r = (if setup w n then Ok tt else Err PluginErr) /\ loaded st' /\
    (r = Ok tt -> assoc n (plugins st') <> None) /\ (forall m, assoc m (plugins st) <> None -> assoc m (plugins st') <> None).
  Proof.
    intros ((S1 & S2) & RE & CO) F NP. destruct (find_aplugin_name _ _ _ F) as [<- IN].
    unfold init_plugin.
    assert (CR : forall st1, registered st1 = R -> complete st1 = true -> plugins st1 = plugins st ->
       settled st1 \/ (setup w (a_name p) = true /\ table_ready st1 p /\
            (forall m i, assoc m (plugins st1) = Some i -> setup w m = true /\ Inv m i /\ exists p', find_aplugin m R = Some p' /\ table_ready st1 p') /\
            (forall m, In m (cache_names st1) -> assoc m (plugins st1) = None -> m = a_name p \/ setup w m = false)) ->
       (setup w (a_name p) = true -> table_ready st1 p) ->
       let (r, st') := if setup w (a_name p)
          then (Ok tt, PState (registered st1) (complete st1) (update (a_name p) (new (a_name p)) (plugins st1)) (cache_names st1) (dbs st1))
          else (Err PluginErr, st1) in
       r = (if setup w (a_name p) then Ok tt else Err PluginErr) /\ loaded st' /\
       (r = Ok tt -> assoc (a_name p) (plugins st') <> None) /\ (forall m, assoc m (plugins st) <> None -> assoc m (plugins st') <> None)).
    { intros st1 RE1 CO1 PL ST TR. destruct (setup w (a_name p)) eqn:SU.
      - split; [reflexivity|]. split; [|split].
        + split; [|split; [exact RE1|exact CO1]]. split; cbn [plugins cache_names].
          * intros m i. destruct (str_eqb (a_name p) m) eqn:Em.
            -- apply str_eqb_eq in Em. subst m. rewrite assoc_update_same. intros [= <-]. split; [exact SU|]. split; [apply (proj1 UN)|].
               exists p. split; [exact F|]. apply TR. reflexivity.
            -- rewrite assoc_update_other by (intros ->; rewrite str_eqb_refl in Em; discriminate). intros H.
               destruct ST as [[ST _]|(_ & _ & ST & _)]; exact (ST m i H).
          * intros m H N. destruct (str_eqb (a_name p) m) eqn:Em.
            -- apply str_eqb_eq in Em. subst m. rewrite assoc_update_same in N. discriminate.
            -- rewrite assoc_update_other in N by (intros ->; rewrite str_eqb_refl in Em; discriminate).
               destruct ST as [[_ ST]|(_ & _ & _ & ST)]; [exact (ST m H N)|].
               destruct (ST m H N) as [->|K]; [rewrite str_eqb_refl in Em; discriminate|exact K].
        + intros _. cbn [plugins]. rewrite assoc_update_same. discriminate.
        + intros m H. cbn [plugins]. destruct (str_eqb (a_name p) m) eqn:Em.
          * apply str_eqb_eq in Em. subst m. rewrite assoc_update_same. discriminate.
          * rewrite assoc_update_other by (intros ->; rewrite str_eqb_refl in Em; discriminate). now rewrite PL.
      - split; [reflexivity|]. split; [|split; [discriminate|intros m; now rewrite PL]].
        destruct ST as [ST|(K & _)]; [|discriminate K]. split; [exact ST|]. split; [exact RE1|exact CO1]. }
    destruct (a_cached p) eqn:CA; cycle 1.
    { apply CR; auto. left; split; auto. intros _ K. congruence. }
    unfold cache_register. destruct cache as [c|] eqn:CC; cycle 1.
    { apply CR; auto. left; split; auto. intros _ _ c K. congruence. }
    destruct (debug && str_in (a_name p) (cache_names st)) eqn:D.
    { apply andb_true_iff in D as [_ D]. assert (SU : setup w (a_name p) = false) by (apply S2; [now apply str_in_iff|exact NP]).
      rewrite SU. split; [reflexivity|]. split; [split; [split; auto|auto]|]. split; [discriminate|auto]. }
    set (st1 := PState (registered st) (complete st) (plugins st) (a_name p :: cache_names st) (update c (init_table (a_table p) (database_of st c)) (dbs st))).
    assert (DB : forall c', database_of st1 c' = if str_eqb c c' then init_table (a_table p) (database_of st c) else database_of st c').
    { intros c'. unfold st1, database_of at 1. cbn [dbs]. destruct (str_eqb c c') eqn:Ec.
      - apply str_eqb_eq in Ec. subst c'. now rewrite assoc_update_same.
      - now rewrite assoc_update_other by (intros ->; rewrite str_eqb_refl in Ec; discriminate). }
    assert (TR : table_ready st1 p).
    { intros _ c' K. rewrite CC in K. injection K as <-. rewrite DB, str_eqb_refl. apply has_table_own. }
    assert (OT : forall m i, assoc m (plugins st1) = Some i -> setup w m = true /\ Inv m i /\ exists p', find_aplugin m R = Some p' /\ table_ready st1 p').
    { intros m i H. destruct (S1 m i H) as (A1 & A2 & p' & A3 & A4). split; [exact A1|]. split; [exact A2|]. exists p'. split; [exact A3|].
      intros C' c' K. rewrite DB. assert (K' := K). rewrite CC in K'. injection K' as <-. rewrite str_eqb_refl.
      apply has_table_kept; [exact (A4 C' c K)|]. destruct (find_aplugin_name _ _ _ A3) as [N' IN'].
      apply (apart_like R); auto. intros Q. rewrite N' in Q. rewrite <- Q in H. unfold st1 in H. cbn [plugins] in H. congruence. }
    apply CR; auto.
    destruct (setup w (a_name p)) eqn:SU.
    - right. split; [reflexivity|]. split; [exact TR|]. split; [exact OT|]. intros m [<-|H] N; [now left|right; exact (S2 m H N)].
    - left. split; [exact OT|]. intros m [<-|H] N; [exact SU|exact (S2 m H N)].
  Qed.

  Notation resolve_ := (resolve R (setup w)).
  Lemma setup_attribute_ok st name : loaded st ->
    let (r, st') := setup_attribute setup new debug w cache name st in
    r = resolve_ name /\ loaded st' /\ (forall a, r = Ok a -> assoc (fst a) (plugins st') <> None) /\
    (forall m, assoc m (plugins st) <> None -> assoc m (plugins st') <> None).
  Proof.
    intros L. assert (L' := L). destruct L' as ((S1 & S2) & RE & CO).
    assert (AT : forall st', loaded st' -> attributes st' = map a_plugin R) by (intros st' (_ & Q1 & Q2); unfold attributes; now rewrite Q2, Q1).
    unfold setup_attribute, resolve. rewrite (AT st L). destruct (parse_attribute (map a_plugin R) name) as [a|x]; cbn [bindr]; cycle 1.
    { split; [reflexivity|]. split; [exact L|]. split; [discriminate|auto]. }
    rewrite RE. destruct (find_aplugin (fst a) R) as [p|] eqn:F; cycle 1.
    { split; [reflexivity|]. split; [exact L|]. split; [discriminate|auto]. }
    destruct (assoc (fst a) (plugins st)) as [i|] eqn:P.
    - rewrite (AT st L). destruct (S1 _ _ P) as (-> & _). destruct (get_attribute_type (map a_plugin R) a); cbn [bindr];
        (split; [reflexivity|]; split; [exact L|]; split; [|auto]); [|discriminate]. intros b [= <-]. congruence.
    - assert (H := init_plugin_ok st p (fst a) L F P). destruct (init_plugin setup new debug w cache p st) as [r st'].
      destruct H as (-> & L2 & IN & MO). destruct (setup w (fst a)).
      + rewrite (AT st' L2). destruct (get_attribute_type (map a_plugin R) a); cbn [bindr];
          (split; [reflexivity|]; split; [exact L2|]; split; [|exact MO]); [|discriminate]. intros b [= <-]. now apply IN.
      + split; [reflexivity|]. split; [exact L2|]. split; [discriminate|exact MO].
  Qed.
  Lemma setup_attributes_ok names : forall st, loaded st ->
    let (r, st') := setup_attributes setup new debug w cache names st in
    r = all resolve_ names /\ loaded st' /\ (forall l a, r = Ok l -> In a l -> assoc (fst a) (plugins st') <> None) /\
    (forall m, assoc m (plugins st) <> None -> assoc m (plugins st') <> None).
  Proof.
    induction names as [|n names IH]; intros st L; cbn [setup_attributes all].
    - split; [reflexivity|]. split; [exact L|]. split; [|auto]. intros l a [= <-] [].
    - assert (H := setup_attribute_ok st n L). destruct (setup_attribute setup new debug w cache n st) as [r st1].
      destruct H as (<- & L1 & I1 & M1). destruct r as [a|x]; cbn [bindr]; [|split; [reflexivity|]; split; [exact L1|]; split; [discriminate|exact M1]].
      specialize (IH st1 L1). destruct (setup_attributes setup new debug w cache names st1) as [r st2]. destruct IH as (<- & L2 & I2 & M2).
      destruct r as [l|x]; cbn [bindr]; (split; [reflexivity|]; split; [exact L2|]; split; [|auto]); [|discriminate].
      intros l' b [= <-] [<-|H]; [|exact (I2 l b eq_refl H)]. apply M2. now apply I1.
  Qed.

  (** ** Reading *)
  Notation value_ := (value E V I new (can_handle w) (process w) (file_value w)).
  Section Reading.
    Variable st : pstate I.
    Hypothesis L : loaded st.
    Definition covered (objects : list (str * I)) : Prop :=
      (forall n, assoc n (plugins st) <> None -> assoc n objects <> None) /\
      (forall n i, assoc n objects = Some i -> Inv n i /\ assoc n (plugins st) <> None).
    Lemma plugins_covered : covered (plugins st).
    Proof.
      split; [auto|]. intros n i H. split; [|congruence]. destruct L as ((S1 & _) & _). now destruct (S1 n i H) as (_ & ? & _).
    Qed.
    Lemma get_attribute_ok objects a e : covered objects -> assoc (fst a) (plugins st) <> None ->
      let (r, objects') := get_attribute can_handle process file_value w st cache objects a e in r = value_ e a /\ covered objects'.
    Proof.
      intros C P. unfold get_attribute, value. destruct (str_eqb (fst a) ($"file")); [now split|].
      unfold get_data. destruct L as ((S1 & _) & -> & _).
      destruct (assoc (fst a) (plugins st)) as [i0|] eqn:A0; [|congruence]. destruct (S1 _ _ A0) as (_ & _ & p & -> & TR).
      destruct (assoc (fst a) objects) as [i|] eqn:AI; [|now destruct (proj1 C (fst a)); [congruence|]].
      destruct (proj2 C _ _ AI) as [IV _].
      destruct (can_handle w (fst a) e); [|split; [reflexivity|exact C]].
      assert (Q : a_cached p && match cache with Some c => negb (has_table (a_table p) (database_of st c)) | None => false end = false).
      { destruct (a_cached p) eqn:CA; [|reflexivity]. destruct cache as [c|] eqn:CC; [|reflexivity]. cbn [andb]. now rewrite (TR CA c CC). }
      rewrite Q. destruct (proj2 UN (fst a) i e IV) as [<- IV'].
      destruct (process w (fst a) i e) as [data i']. cbn [fst snd] in *.
      split; [destruct data; reflexivity|]. split.
      - intros n H. destruct (str_eqb (fst a) n) eqn:En.
        + apply str_eqb_eq in En. subst n. rewrite assoc_update_same. discriminate.
        + rewrite assoc_update_other by (intros ->; rewrite str_eqb_refl in En; discriminate). now apply C.
      - intros n j. destruct (str_eqb (fst a) n) eqn:En.
        + apply str_eqb_eq in En. subst n. rewrite assoc_update_same. intros [= <-]. split; [exact IV'|congruence].
        + rewrite assoc_update_other by (intros ->; rewrite str_eqb_refl in En; discriminate). apply C.
    Qed.
    Lemma get_attributes_ok l e : (forall a, In a l -> assoc (fst a) (plugins st) <> None) -> forall objects, covered objects ->
      let (r, objects') := get_attributes can_handle process file_value w st cache objects l e in r = all (value_ e) l /\ covered objects'.
    Proof.
      induction l as [|a l IH]; intros P objects C; cbn [get_attributes all]; [now split|].
      assert (H := get_attribute_ok objects a e C (P a (or_introl eq_refl))). destruct (get_attribute _ _ _ _ _ _ _ _ _) as [r o1]. destruct H as (<- & C1).
      destruct r as [v|x]; cbn [bindr]; [|now split].
      specialize (IH (fun b H => P b (or_intror H)) o1 C1). destruct (get_attributes _ _ _ _ _ _ _ _ _) as [r o2]. destruct IH as (<- & C2).
      split; [destruct r; reflexivity|exact C2].
    Qed.
    Lemma evaluate_ok attrs e : (forall a, In a attrs -> assoc (fst a) (plugins st) <> None) -> forall t objects, covered objects ->
      let (r, objects') := evaluate can_handle process file_value w st cache objects attrs t e in
      r = holds E V I new (can_handle w) (process w) (file_value w) attrs t e /\ covered objects'.
    Proof.
      intros P t. induction t as [b|i k IH]; intros objects C; cbn [evaluate holds]; [now split|].
      destruct (nth_error attrs i) as [a|] eqn:N; [|now split].
      assert (H := get_attribute_ok objects a e C (P a (nth_error_In _ _ N))). destruct (get_attribute _ _ _ _ _ _ _ _ _) as [r o1]. destruct H as (<- & C1).
      destruct r as [v|x]; cbn [bindr]; [|now split]. exact (IH v o1 C1).
    Qed.
    Lemma worker_ok attrs t : (forall a, In a attrs -> assoc (fst a) (plugins st) <> None) -> forall l objects, covered objects ->
      worker can_handle process file_value w st cache objects attrs t l = select E V I new (can_handle w) (process w) (file_value w) attrs t l.
    Proof.
      intros P l. induction l as [|e l IH]; intros objects C; cbn [worker select]; [reflexivity|].
      assert (H := evaluate_ok attrs e P t objects C). destruct (evaluate _ _ _ _ _ _ _ _ _ _) as [r o1]. destruct H as (<- & C1).
      destruct r as [b|x]; cbn [bindr]; [|reflexivity]. now rewrite IH.
    Qed.
    Lemma workers_ok attrs t : (forall a, In a attrs -> assoc (fst a) (plugins st) <> None) -> forall l,
      workers can_handle process file_value w st cache attrs t l =
      do parts <- all (select E V I new (can_handle w) (process w) (file_value w) attrs t) l; Ok (concat parts).
    Proof.
      intros P l. induction l as [|es l IH]; cbn [workers all]; [reflexivity|].
      rewrite (worker_ok attrs t P es (plugins st) plugins_covered), IH. destruct (select _ _ _ _ _ _ _ _ _ _); cbn [bindr]; [|reflexivity].
      destruct (all _ l); reflexivity.
    Qed.
    Lemma read_entries_ok attrs : (forall a, In a attrs -> assoc (fst a) (plugins st) <> None) -> forall l objects, covered objects ->
      let (r, objects') := read_entries can_handle process file_value w st cache objects attrs l in
      r = all (fun e => all (value_ e) attrs) l /\ covered objects'.
    Proof.
      intros P l. induction l as [|e l IH]; intros objects C; cbn [read_entries all]; [now split|].
      assert (H := get_attributes_ok attrs e P objects C). destruct (get_attributes _ _ _ _ _ _ _ _ _) as [r o1]. destruct H as (<- & C1).
      destruct r as [vs|x]; cbn [bindr]; [|now split]. specialize (IH o1 C1). destruct (read_entries _ _ _ _ _ _ _ _ _) as [r o2]. destruct IH as (<- & C2).
      split; [destruct r; reflexivity|exact C2].
    Qed.
  End Reading.

  Lemma expand_ok names l : expand_output names l = expanded names l.
  Proof.
    unfold expanded. induction l as [|o t IH]; [reflexivity|]. cbn [expand_output before_file].
    destruct (str_eqb o _); cbn [app length skipn]; [reflexivity|]. now rewrite IH.
  Qed.
  Lemma find_query_ok st q : q_cache q = cache -> ready st ->
    let (o, st') := find_query modules setup new can_handle process file_value debug w st q in
    o = meaning R (setup w) new (can_handle w) (process w) (file_value w) q /\ ready st'.
  Proof.
    intros QC RD. unfold find_query. destruct (new_registry_ok st RD) as [N L1]. destruct (new_registry modules w st) as [r st1]. cbn [fst snd] in *. subst r.
    rewrite QC. unfold meaning.
    assert (FA : file_attributes st1 = flat_map (fun p => if str_eqb (p_name p) ($"file") then map fst (p_attrs p) else []) (map a_plugin R)).
    { destruct L1 as (_ & Q1 & Q2). unfold file_attributes, attributes. now rewrite Q2, Q1. }
    rewrite FA, expand_ok. set (outs := expanded _ _).
    assert (H := setup_attributes_ok outs st1 L1). destruct (setup_attributes _ _ _ _ _ outs st1) as [r st2]. destruct H as (<- & L2 & I2 & _).
    destruct r as [output|x]; cbn [bindr]; [|split; [reflexivity|now apply loaded_ready]].
    assert (H := setup_attributes_ok (q_sort q) st2 L2). destruct (setup_attributes _ _ _ _ _ (q_sort q) st2) as [r st3]. destruct H as (<- & L3 & I3 & M3).
    destruct r as [sort|x]; cbn [bindr]; [|split; [reflexivity|now apply loaded_ready]].
    assert (H := setup_attributes_ok (q_tests q) st3 L3). destruct (setup_attributes _ _ _ _ _ (q_tests q) st3) as [r st4]. destruct H as (<- & L4 & I4 & M4).
    destruct r as [tests|x]; cbn [bindr]; [|split; [reflexivity|now apply loaded_ready]].
    assert (P1 : forall a, In a output -> assoc (fst a) (plugins st4) <> None) by (intros a H; apply M4, M3, (I2 output a eq_refl H)).
    assert (P2 : forall a, In a sort -> assoc (fst a) (plugins st4) <> None) by (intros a H; apply M4, (I3 sort a eq_refl H)).
    assert (P3 : forall a, In a tests -> assoc (fst a) (plugins st4) <> None) by (intros a H; apply (I4 tests a eq_refl H)).
    assert (FIN : forall objects, covered st4 objects -> ready (PState (registered st4) (complete st4) objects (cache_names st4) (dbs st4))).
    { intros objects [C1 C2]. destruct L4 as ((S1 & S2) & RE & CO). split; [|right; split; auto]. split; cbn [plugins cache_names].
      - intros n i H. destruct (C2 n i H) as [IV PN]. destruct (assoc n (plugins st4)) as [j|] eqn:A; [|congruence].
        destruct (S1 n j A) as (A1 & _ & A3). split; [exact A1|]. split; [exact IV|exact A3].
      - intros n H N'. apply S2; [exact H|]. destruct (assoc n (plugins st4)) eqn:A; [|reflexivity]. exfalso. apply (C1 n); congruence. }
    unfold iterate. rewrite QC, (workers_ok st4 L4 tests (q_ask q) P3).
    destruct (all _ (q_workers q)) as [parts|x]; cbn [bindr]; [|split; [reflexivity|apply FIN, plugins_covered, L4]].
    set (found := concat parts).
    assert (SO : let (r, objects) := match sort with
                            | [] => (Ok found, plugins st4)
                            | _ => let (r, objects) := read_entries can_handle process file_value w st4 cache (plugins st4) sort found in
                                   (match r with Err x => Err x | Ok keys => Ok (q_order q (combine keys found)) end, objects)
                            end in
       r = match sort with [] => Ok found | _ => do keys <- all (fun e => all (value_ e) sort) found; Ok (q_order q (combine keys found)) end /\ covered st4 objects).
    { destruct sort as [|s0 sort]; [split; [reflexivity|now apply plugins_covered]|].
      assert (H := read_entries_ok st4 L4 (s0 :: sort) P2 found (plugins st4) (plugins_covered st4 L4)).
      destruct (read_entries _ _ _ _ _ _ _ _ _) as [r o]. destruct H as (<- & C). split; [destruct r; reflexivity|exact C]. }
    destruct (match sort with [] => (Ok found, plugins st4) | _ => _ end) as [r o1]. destruct SO as (<- & C1).
    destruct r as [found'|x]; cbn [bindr]; [|split; [reflexivity|now apply FIN]].
    assert (H := read_entries_ok st4 L4 output P1 found' o1 C1). destruct (read_entries _ _ _ _ _ _ _ _ _) as [r o2]. destruct H as (<- & C2).
    split; [destruct r; reflexivity|now apply FIN].
  Qed.
  Lemma after_ready l : forall st, (forall q, In q l -> q_cache q = cache) -> ready st ->
    ready (after modules setup new can_handle process file_value debug st (map (pair w) l)).
  Proof.
    induction l as [|q l IH]; intros st H RD; cbn [map after]; [exact RD|]. apply IH; [intros; apply H; now right|].
    assert (F := find_query_ok st q (H q (or_introl eq_refl)) RD). destruct (find_query _ _ _ _ _ _ _ _ _ _) as [o st']. apply F.
  Qed.
End Proofs.

(** In a world that does not change, a query among others that use the same
    cache file gives what it means. *)
Lemma query_meaning W E V I modules setup new can_handle process file_value debug (w : W) (Inv : str -> I -> Prop) d (qs : list (query E V)) q :
  snd (load_modules [] (modules w)) = true -> apart (fst (load_modules [] (modules w))) -> unnoticed (process w) new Inv ->
  (forall q', In q' qs -> q_cache q' = q_cache q) ->
  fst (find_query modules setup new can_handle process file_value debug w
        (after modules setup new can_handle process file_value debug (fresh d) (map (pair w) qs)) q) =
  meaning (fst (load_modules [] (modules w))) (setup w) new (can_handle w) (process w : str -> I -> E -> option (list (str * V)) * I) (file_value w) q.
Proof.
  intros F A U H.
  assert (R : ready W I modules setup w (q_cache q) Inv (after modules setup new can_handle process file_value debug (fresh d) (map (pair w) qs))).
  { apply (after_ready W E V I modules setup new can_handle process file_value debug w (q_cache q) Inv F A U qs (fresh d) H). apply fresh_ready. }
  assert (X := find_query_ok W E V I modules setup new can_handle process file_value debug w (q_cache q) Inv F A U _ q eq_refl R).
  destruct (find_query _ _ _ _ _ _ _ _ _ _) as [o st']. apply X.
Qed.

(** ** The caches of the ignore plugin *)
Definition ignore_inv (read : str -> option (list str)) (o : ignore_object) : Prop :=
  (forall path ig, assoc path (ignore_cache o) = Some ig ->
     exists lines, read path = Some lines /\ new_gitignore (fst (PathModel.split path)) (snd (PathModel.split path)) lines = COk ig) /\
  (forall paths l, assoc_paths paths (ignores_cache o) = Some l -> get_ignores read paths = COk l).
Lemma strs_eqb_eq a : forall b, strs_eqb a b = true -> a = b.
Proof.
  unfold strs_eqb. induction a as [|x a IH]; intros [|y b]; cbn; try discriminate; auto.
  intros H. apply andb_true_iff in H as [H1 H2]. apply andb_true_iff in H2 as [H2 H3]. apply str_eqb_eq in H2. subst y.
  f_equal. apply IH. now rewrite H1, H3.
Qed.
Lemma ignores_loop_ok read paths : forall cache,
  (forall path ig, assoc path cache = Some ig ->
     exists lines, read path = Some lines /\ new_gitignore (fst (PathModel.split path)) (snd (PathModel.split path)) lines = COk ig) ->
  fst (ignores_loop read paths cache) = get_ignores read paths /\
  (forall path ig, assoc path (snd (ignores_loop read paths cache)) = Some ig ->
     exists lines, read path = Some lines /\ new_gitignore (fst (PathModel.split path)) (snd (PathModel.split path)) lines = COk ig).
Proof.
  induction paths as [|p paths IH]; intros cache H; cbn [ignores_loop get_ignores]; [now split|].
  destruct (assoc p cache) as [ig|] eqn:A.
  - destruct (H p ig A) as (lines & -> & N). destruct (IH cache H) as [F S]. destruct (ignores_loop read paths cache) as [r c]. cbn [fst snd] in *.
    split; [|exact S]. rewrite (surjective_pairing (PathModel.split p)), N. cbn [cbind]. now rewrite F.
  - destruct (read p) as [lines|] eqn:RD; [|now apply IH].
    rewrite (surjective_pairing (PathModel.split p)). cbn [fst snd]. destruct (new_gitignore _ _ lines) as [ig| |] eqn:N; cbn [cbind fst snd]; [|now split|now split].
    assert (H' : forall path ig', assoc path ((p, ig) :: cache) = Some ig' ->
      exists lines, read path = Some lines /\ new_gitignore (fst (PathModel.split path)) (snd (PathModel.split path)) lines = COk ig').
    { intros path ig'. cbn [assoc]. destruct (str_eqb p path) eqn:Ep; [|apply H]. apply str_eqb_eq in Ep. subst path. intros [= <-]. now exists lines. }
    destruct (IH _ H') as [F S]. destruct (ignores_loop read paths ((p, ig) :: cache)) as [r c]. cbn [fst snd] in *. split; [now rewrite F|exact S].
Qed.
Lemma get_ignores_cached_ok read paths o : ignore_inv read o ->
  fst (get_ignores_cached read paths o) = get_ignores read paths /\ ignore_inv read (snd (get_ignores_cached read paths o)).
Proof.
  intros [H1 H2]. unfold get_ignores_cached. destruct (assoc_paths paths (ignores_cache o)) as [l|] eqn:A.
  - cbn. split; [symmetry; now apply H2|now split].
  - destruct (ignores_loop_ok read paths (ignore_cache o) H1) as [F S]. destruct (ignores_loop read paths (ignore_cache o)) as [r c]. cbn [fst snd] in *.
    split; [exact F|]. split; [exact S|]. cbn [ignores_cache]. destruct r as [l| |]; [|exact H2|exact H2].
    intros paths' l'. cbn [assoc_paths]. destruct (strs_eqb paths paths') eqn:Ep; [|apply H2]. apply strs_eqb_eq in Ep. subst paths'. intros [= <-]. now rewrite <- F.
Qed.
