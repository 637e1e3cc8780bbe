(** Property C65: queries of one process. *)
From Coq Require Import List NArith ZArith Bool.
From Verif Require Import Py TypeModel RegistryModel IgnoreModel CacheModel CacheSpec ApiModel ApiSpec ApiProofs ApiExamples.
Import ListNotations.

(** In an unchanged world, after any queries with the same cache file, also
    failed ones, a query gives what it means: its values are those of new plugin
    objects, whatever the process and the cache files hold.  Plugins may
    remember things unnoticed.  Full statement: after all queries, in any
    world; refuted below. *)
Theorem C65_meaning_partial : forall W E V I modules setup new can_handle (process : W -> str -> I -> E -> option (list (str * V)) * I) file_value debug
    (w : W) Inv d qs q,
  snd (load_modules [] (modules w)) = true -> apart (fst (load_modules [] (modules w))) -> unnoticed (process w) new Inv ->
  (forall q', In q' qs -> q_cache q' = q_cache q) ->
  fst (find_query modules setup new can_handle process file_value debug w
        (after modules setup new can_handle process file_value debug (fresh d) (map (pair w) qs)) q) =
  meaning (fst (load_modules [] (modules w))) (setup w) new (can_handle w) (process w) (file_value w) q.
Proof. exact query_meaning. Qed.
Theorem C65_independent_partial : forall W E V I modules setup new can_handle (process : W -> str -> I -> E -> option (list (str * V)) * I) file_value debug
    (w : W) Inv d d' qs q,
  snd (load_modules [] (modules w)) = true -> apart (fst (load_modules [] (modules w))) -> unnoticed (process w) new Inv ->
  (forall q', In q' qs -> q_cache q' = q_cache q) ->
  fst (find_query modules setup new can_handle process file_value debug w
        (after modules setup new can_handle process file_value debug (fresh d) (map (pair w) qs)) q) =
  fst (find_query modules setup new can_handle process file_value debug w (fresh d') q).
Proof.
  intros W E V I modules setup new can_handle process file_value debug w Inv d d' qs q F A U H.
  rewrite (query_meaning W E V I modules setup new can_handle process file_value debug w Inv d qs q F A U H).
  symmetry. exact (query_meaning W E V I modules setup new can_handle process file_value debug w Inv d' [] q F A U (fun _ X => match X with end)).
Qed.
(** The caches of the ignore plugin are unnoticed as long as the files do not
    change. *)
Theorem C65_ignore_unnoticed : forall read paths o, ignore_inv read o ->
  fst (get_ignores_cached read paths o) = get_ignores read paths /\ ignore_inv read (snd (get_ignores_cached read paths o)).
Proof. exact get_ignores_cached_ok. Qed.

Example C65_example :
  let qs := [xquery (Some ($"c")) [$"sum"]; xquery (Some ($"c")) [$"nonsense"]; xquery (Some ($"c")) [$"ignored"]] in
  let q := xquery (Some ($"c")) [$"file"; $"ignored"; $"sum"] in
  snd (load_modules [] (xmodules xworld)) = true /\ apart (fst (load_modules [] (xmodules xworld))) /\
  unnoticed (xprocess xworld) xnew (fun _ o => ignore_inv (xread xworld) o) /\ (forall q', In q' qs -> q_cache q' = q_cache q) /\
  fst (xfind xworld (xafter (fresh []) (map (pair xworld) qs)) q) =
    Ok [[(($"file", $"path"), Some ($"a.o")); (($"file", $"size"), None); (($"ignore", $"ignored"), Some ($"yes")); (($"sum", $"sum"), Some ($"sum of a.o"))];
        [(($"file", $"path"), Some ($"b")); (($"file", $"size"), None); (($"ignore", $"ignored"), Some ($"no")); (($"sum", $"sum"), Some ($"sum of b"))]].
Proof.
  split; [reflexivity|]. split; [apply xapart|]. split; [apply xunnoticed|]. split; [|vm_compute; reflexivity].
  intros q' [<-|[<-|[<-|[]]]]; reflexivity.
Qed.

(** A query without cache, or with another cache file, makes later ones fail. *)
Theorem C65_cache_refuted : exists q q', fst (xfind xworld (xafter (fresh []) [(xworld, q)]) q') = Err PluginErr /\
  exists l, fst (xfind xworld (fresh []) q') = Ok l /\ l <> [].
Proof.
  exists (xquery None [$"sum"]), (xquery (Some ($"c")) [$"sum"]). split; [vm_compute; reflexivity|].
  eexists. split; [vm_compute; reflexivity|discriminate].
Qed.
Theorem C65_other_cache_refuted : exists q q', fst (xfind xworld (xafter (fresh []) [(xworld, q)]) q') = Err PluginErr /\
  exists l, fst (xfind xworld (fresh []) q') = Ok l /\ l <> [].
Proof.
  exists (xquery (Some ($"b")) [$"sum"]), (xquery (Some ($"c")) [$"sum"]). split; [vm_compute; reflexivity|].
  eexists. split; [vm_compute; reflexivity|discriminate].
Qed.
(** A broken plugin file is an error for the first query only; the second one
    gives results without attributes. *)
Theorem C65_broken_refuted : let w := World true true [] in
  exists q, fst (xfind w (fresh []) q) = Err PluginErr /\ fst (xfind w (xafter (fresh []) [(w, q)]) q) = Ok [[]; []].
Proof. exists (xquery None [$"file"]). split; vm_compute; reflexivity. Qed.
(** An ignore file that changed between two queries is not read again. *)
Theorem C65_ignore_refuted : let w := World false true [$"*.o"] in let w' := World false true [] in
  exists q, fst (xfind w' (xafter (fresh []) [(w, q)]) q) = Ok [[(($"ignore", $"ignored"), Some ($"yes"))]; [(($"ignore", $"ignored"), Some ($"no"))]] /\
            fst (xfind w' (fresh []) q) = Ok [[(($"ignore", $"ignored"), Some ($"no"))]; [(($"ignore", $"ignored"), Some ($"no"))]].
Proof. exists (xquery None [$"ignored"]). split; vm_compute; reflexivity. Qed.
(** A plugin with cache whose setup failed once fails for ever. *)
Theorem C65_setup_refuted : let w := World false false [] in let w' := World false true [] in
  exists q, fst (xfind w' (xafter (fresh []) [(w, q)]) q) = Err PluginErr /\ exists l, fst (xfind w' (fresh []) q) = Ok l.
Proof. exists (xquery (Some ($"c")) [$"sum"]). split; [vm_compute; reflexivity|]. eexists. vm_compute. reflexivity. Qed.
Print Assumptions C65_meaning_partial.
Print Assumptions C65_independent_partial.
Print Assumptions C65_ignore_unnoticed.
Print Assumptions C65_cache_refuted.
Print Assumptions C65_other_cache_refuted.
Print Assumptions C65_broken_refuted.
Print Assumptions C65_ignore_refuted.
Print Assumptions C65_setup_refuted.
