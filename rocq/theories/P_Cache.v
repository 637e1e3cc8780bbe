(** Properties C57-C62: the metadata cache. *)
From Coq Require Import List NArith ZArith Bool.
From Verif Require Import Py CountModel CacheModel CacheSpec CacheProofs CacheExamples.
Import ListNotations.

(** C57.  Whatever any number of processes did before, a value that is found
    is the one the plugin itself gives, provided that data is a function of
    path and tag ([functional]) and that entries are up to date
    ([steady = true]).  Full statement: a value is found whenever the plugin
    gives one; missing: errors, see C57_errors and C57_refuted. *)
Theorem C57_found_partial : forall V T F R (compute : str -> str -> F -> res (cached V)) (tag_of : str -> F -> T) (finish : str -> str -> cached V -> R)
    pickle_tag dumps loads,
  (forall t t', pickle_tag t = pickle_tag t' -> t = t') -> (forall c data, dumps c = Some data -> loads data = c) ->
  forall s0 l s e s' table path r, initial s0 ->
  run compute tag_of finish pickle_tag dumps loads true s0 l s -> step compute tag_of finish pickle_tag dumps loads true s e s' ->
  functional compute tag_of s -> e = Found table path r -> Direct compute finish s table path r.
Proof.
  intros V T F R compute tag_of finish pickle_tag dumps loads PI LD s0 l s e s' table path r.
  exact (found_direct V T F R compute tag_of finish pickle_tag dumps loads true PI LD s0 l s e s' table path r eq_refl).
Qed.
(** A call fails only if the plugin fails, its data cannot be pickled, or a
    table has disappeared; tables disappear only when a plugin is set up. *)
Theorem C57_errors : forall V T F R (compute : str -> str -> F -> res (cached V)) (tag_of : str -> F -> T) (finish : str -> str -> cached V -> R)
    pickle_tag dumps loads steady s e s' table path x,
  step compute tag_of finish pickle_tag dumps loads steady s e s' -> e = Raised table path x ->
  compute table path (files s path) = Err x \/ (exists c, compute table path (files s path) = Ok c /\ dumps c = None) \/
  (x = OperationalErr /\ exists t, ~ In t (map fst (db s)) /\
     (t = table \/ exists i p todo q, procs s i = Some p /\ doing p = Committing todo q /\ In t (map fst todo))).
Proof. exact raised_reason. Qed.
Theorem C57_tables : forall V T F R (compute : str -> str -> F -> res (cached V)) (tag_of : str -> F -> T) (finish : str -> str -> cached V -> R)
    pickle_tag dumps loads steady s e s' t,
  step compute tag_of finish pickle_tag dumps loads steady s e s' -> In t (map fst (db s)) -> ~ In t (map fst (db s')) ->
  exists name version, db s' = init_table (sql_table_name name version) (db s).
Proof. exact table_lost. Qed.
(** A run with another version of the plugin makes a running search fail. *)
Theorem C57_refuted : exists l s s', initial xs0 /\ xrun true xs0 l s /\ functional xcompute xtag s /\
  xstep true s (Raised xtable xpath OperationalErr) s' /\ exists r, Direct xcompute xfinish s xtable xpath r.
Proof.
  destruct dropped_history as (l & s & s' & R & St & P). exists l, s, s'. split; [exact xs0_initial|]. split; [exact R|].
  split; [|split; [exact St|]].
  - intros table path f path' f'. rewrite P. intros [[= <- <-]|[]] [[= <- <-]|[]] _ _. reflexivity.
  - eexists. eexists. split; reflexivity.
Qed.
(** Even if data is a function of path and tag: a file that changes between
    lstat and the computation and is restored later has the wrong data for ever. *)
Theorem C57_unsteady_refuted : exists l s s' r, initial xs0 /\ xrun false xs0 l s /\ functional xcompute xtag s /\
  xstep false s (Found xtable xpath r) s' /\ ~ Direct xcompute xfinish s xtable xpath r.
Proof.
  destruct race_history as (l & s & s' & R & St & Fi & P). exists l, s, s', (Value ($"B")). split; [exact xs0_initial|]. split; [exact R|].
  split; [|split; [exact St|]].
  - intros table path f path' f'. rewrite P. intros H H' _ T.
    destruct H as [[= <- <-]|[[= <- <-]|[[= <- <-]|[]]]], H' as [[= <- <-]|[[= <- <-]|[[= <- <-]|[]]]]; try reflexivity; vm_compute in T; discriminate T.
  - intros (c & E & H). unfold xfinish in H. subst c. rewrite Fi in E. discriminate E.
Qed.
Example C57_example : (forall t t', str_of_Z t = str_of_Z t' -> t = t') /\ (forall c data, xdumps c = Some data -> xloads data = c) /\ initial xs0 /\
  exists l s s', xrun true xs0 l s /\ functional xcompute xtag s /\ xstep true s (Found xtable xpath (Value ($"A"))) s' /\ db s <> [].
Proof.
  split; [intros t t' E; assert (H := py_int_str_of_Z t); rewrite E, py_int_str_of_Z in H; now injection H|].
  split; [exact xloads_dumps|]. split; [exact xs0_initial|]. destruct crash_history as (l & s & s' & R & St & D & P). exists l, s, s'.
  split; [exact R|]. split; [|split; [exact St|rewrite D; discriminate]].
  intros table path f path' f'. rewrite P. intros [[= <- <-]|[]] [[= <- <-]|[]] _ _. reflexivity.
Qed.
Print Assumptions C57_found_partial.
Print Assumptions C57_errors.
Print Assumptions C57_tables.
Print Assumptions C57_refuted.
Print Assumptions C57_unsteady_refuted.

(** C58.  For plugins with the default tag: if no file ever has two contents
    with the same modification time in whole seconds (and different files have
    different keys, C60), the data found is that of the present content.  Full
    statement: without that condition. *)
Theorem C58_current_partial : forall V R (data : str -> str -> str -> res (cached V)) (finish : str -> str -> cached V -> R) pickle_tag dumps loads,
  (forall t t', pickle_tag t = pickle_tag t' -> t = t') -> (forall c s, dumps c = Some s -> loads s = c) ->
  let compute table path (f : file) := data table path (fst f) in
  forall s0 l s s' table path r, initial s0 ->
  run compute xtag finish pickle_tag dumps loads true s0 l s -> step compute xtag finish pickle_tag dumps loads true s (Found table path r) s' ->
  (forall p f p' f', In (p, f) (past s) -> In (p', f') (past s) -> encode p = encode p' -> p = p') ->
  (forall p f f', In (p, f) (past s) -> In (p, f') (past s) -> seconds f = seconds f' -> fst f = fst f') ->
  exists c, data table path (fst (files s path)) = Ok c /\ r = finish table path c.
Proof.
  intros V R data finish pickle_tag dumps loads PI LD compute s0 l s s' table path r I Ru St KI CO.
  refine (C57_found_partial V Z file R compute xtag finish pickle_tag dumps loads PI LD s0 l s _ s' table path r I Ru St _ eq_refl).
  intros tb p f p' f' H H' K T. pose proof (KI p f p' f' H H' K). subst p'. unfold compute. now rewrite (CO p f f' H H' T).
Qed.
(** Two contents within one second: the old data is found. *)
Theorem C58_refuted : exists l s s' r, initial xs0 /\ xrun true xs0 l s /\ xstep true s (Found xtable xpath r) s' /\
  r = Value ($"A") /\ fst (files s xpath) = $"B".
Proof.
  destruct stale_history as (l & s & s' & R & St & Fi). exists l, s, s', (Value ($"A")). split; [exact xs0_initial|]. split; [exact R|].
  split; [exact St|]. split; [reflexivity|]. now rewrite Fi.
Qed.
Example C58_example : exists l s s', initial xs0 /\ xrun true xs0 l s /\ xstep true s (Found xtable xpath (Value ($"A"))) s' /\
  (forall p f p' f', In (p, f) (past s) -> In (p', f') (past s) -> encode p = encode p' -> p = p') /\
  (forall p f f', In (p, f) (past s) -> In (p, f') (past s) -> seconds f = seconds f' -> fst f = fst f').
Proof.
  destruct crash_history as (l & s & s' & R & St & D & P). exists l, s, s'. split; [exact xs0_initial|]. split; [exact R|]. split; [exact St|]. rewrite P.
  split; [intros p f p' f' [[= <- <-]|[]] [[= <- <-]|[]] _; reflexivity|intros p f f' [[= <- <-]|[]] [[= <-]|[]] _; reflexivity].
Qed.
Print Assumptions C58_current_partial.
Print Assumptions C58_refuted.

(** C59.  After any history, in which any process may end at any point (also
    while it commits), every row of the database is the outcome of a completed
    computation for a path with this key, and there is one row per path.  That
    later runs are correct is C57, whose histories are the same. *)
Theorem C59_rows : forall V T F R (compute : str -> str -> F -> res (cached V)) (tag_of : str -> F -> T) (finish : str -> str -> cached V -> R)
    pickle_tag dumps loads steady s0 l s table rows, initial s0 ->
  run compute tag_of finish pickle_tag dumps loads steady s0 l s -> In (table, rows) (db s) ->
  NoDup (map r_path rows) /\ forall r, In r rows -> Computed compute tag_of pickle_tag dumps s table r.
Proof.
  intros V T F R compute tag_of finish pickle_tag dumps loads steady s0 l s table rows I Ru H. split.
  - exact (database_keyed V T F R compute tag_of finish pickle_tag dumps loads steady s0 l s table rows I Ru H).
  - intros r. exact (database_computed V T F R compute tag_of finish pickle_tag dumps loads steady s0 l s table rows r I Ru H).
Qed.
Example C59_example : exists l s, initial xs0 /\ xrun true xs0 l s /\ In (xtable, [Row ($"/f") ($"1") (1%N :: $"A")]) (db s).
Proof.
  destruct crash_history as (l & s & s' & R & _ & D & _). exists l, s. split; [exact xs0_initial|]. split; [exact R|]. rewrite D. now left.
Qed.
Print Assumptions C59_rows.

(** C60.  Different paths have different keys if both can be decoded, or if
    neither contains a backslash.  Full statement: for all paths. *)
Theorem C60_keys_partial : forall p q, Forall (fun c => c < 1114112)%N p -> Forall (fun c => c < 1114112)%N q ->
  ((forall c, In c p \/ In c q -> is_surrogate c = false) \/ (~ In 92%N p /\ ~ In 92%N q)) -> encode p = encode q -> p = q.
Proof. exact encode_inj. Qed.
(** /<byte ff> and the six characters of its escape sequence *)
Theorem C60_refuted : exists p q, p <> q /\ fsencode p <> fsencode q /\ encode p = encode q.
Proof. exists (47%N :: [56575%N]), ($"/\udcff"). split; [discriminate|]. split; [discriminate|reflexivity]. Qed.
Example C60_example : encode [228; 8364; 128512]%N = [195; 164; 226; 130; 172; 240; 159; 152; 128]%N /\
  Forall (fun c => c < 1114112)%N [228; 8364; 128512]%N /\ (forall c, In c [228; 8364; 128512]%N -> is_surrogate c = false).
Proof.
  split; [reflexivity|]. split; [repeat constructor|]. intros c [<-|[<-|[<-|[]]]]; reflexivity.
Qed.
Print Assumptions C60_keys_partial.
Print Assumptions C60_refuted.

(** C61.  --clean-cache never changes the database: it succeeds if and only if
    there is nothing to remove.  Full statement: it succeeds, and exactly the
    rows whose path exists remain. *)
Theorem C61_partial : forall exists_ db, (forall table rows r, In (table, rows) db -> In r rows -> exists_ (r_path r) = true) ->
  clean_cache exists_ db = (Ok tt, db).
Proof.
  intros exists_ d H. destruct (clean_result exists_ d) as [(_ & E)|((t & rows & r & H1 & H2 & H3) & _)]; [exact E|].
  rewrite (H t rows r H1 H2) in H3. discriminate.
Qed.
Theorem C61_fails : forall exists_ db table rows r, In (table, rows) db -> In r rows -> exists_ (r_path r) = false ->
  clean_cache exists_ db = (Err OperationalErr, db).
Proof.
  intros exists_ d t rows r H1 H2 H3. destruct (clean_result exists_ d) as [(A & _)|(_ & E)]; [|exact E].
  rewrite (A t rows r H1 H2) in H3. discriminate.
Qed.
Theorem C61_refuted : exists exists_ db table rows r, In (table, rows) db /\ In r rows /\ exists_ (r_path r) = false /\
  snd (clean_cache exists_ db) = db.
Proof.
  exists (fun _ => false), [(xtable, [Row ($"/gone") [] []])], xtable, [Row ($"/gone") [] []], (Row ($"/gone") [] []).
  split; [now left|]. split; [now left|]. split; reflexivity.
Qed.
(** The row of an existing file whose name cannot be decoded counts as stale,
    because its key is not the name. *)
Theorem C61_undecodable_refuted : exists p exists_ db, exists_ (fsencode p) = true /\
  db = [(xtable, [Row (encode p) [] []])] /\ clean_cache exists_ db = (Err OperationalErr, db).
Proof.
  exists (47%N :: [56575%N]), (str_eqb [47; 255]%N), [(xtable, [Row (encode (47%N :: [56575%N])) [] []])]. repeat split; reflexivity.
Qed.
Example C61_example : let db := [(xtable, [Row ($"/f") [] []; Row ($"/g") [] []])] in
  clean_cache (fun _ => true) db = (Ok tt, db) /\ clean_cache (str_eqb ($"/f")) db = (Err OperationalErr, db).
Proof. split; reflexivity. Qed.
Print Assumptions C61_partial.
Print Assumptions C61_fails.
Print Assumptions C61_refuted.
Print Assumptions C61_undecodable_refuted.

(** C62.  The own table exists afterwards, with the rows it had. *)
Theorem C62_own : forall name version db, forallb simple name = true -> (forall t rows, In (t, rows) db -> forallb simple t = true) ->
  forall rows, In (sql_table_name name version, rows) (init_table (sql_table_name name version) db) <->
    In (sql_table_name name version, rows) db \/ (rows = [] /\ ~ In (sql_table_name name version) (map fst db)).
Proof. exact init_own. Qed.
(** Exactly those other tables are dropped whose name the pattern covers. *)
Theorem C62_dropped : forall name version db t rows, forallb simple name = true -> (forall t rows, In (t, rows) db -> forallb simple t = true) ->
  t <> sql_table_name name version ->
  (In (t, rows) (init_table (sql_table_name name version) db) <-> In (t, rows) db /\ ~ covers ($"plugin_" ++ name ++ $"_") t).
Proof. exact init_others. Qed.
(** For names without underscores: the tables of all plugins whose name begins
    with this one.  Full statement: only older versions of the same plugin,
    [n = name]; it holds if the name is not the beginning of another one. *)
Theorem C62_others_partial : forall name version db n w rows, forallb simple name = true -> ~ In 95%N name ->
  (forall t rows, In (t, rows) db -> forallb simple t = true) -> sql_table_name n w <> sql_table_name name version ->
  (In (sql_table_name n w, rows) (init_table (sql_table_name name version) db) <->
   In (sql_table_name n w, rows) db /\ ~ exists x, n = name ++ x).
Proof.
  intros name version d n w rows M U D N. rewrite (init_others name version d _ rows M D N), covers_table, (covers_prefix name n _ U). reflexivity.
Qed.
Theorem C62_refuted : exists name version n w rows db, name <> n /\ In (sql_table_name n w, rows) db /\ rows <> [] /\
  ~ In (sql_table_name n w) (map fst (init_table (sql_table_name name version) db)).
Proof.
  exists ($"tar"), 1%N, ($"tarball"), 2%N, [Row ($"/f") [] []], [(sql_table_name ($"tarball") 2, [Row ($"/f") [] []])].
  split; [discriminate|]. split; [now left|]. split; [discriminate|]. vm_compute. intros [H|[]]. discriminate H.
Qed.
Example C62_example :
  init_table (sql_table_name ($"mime") 2) [(sql_table_name ($"mime") 1, [Row ($"/f") [] []]); (sql_table_name ($"medium") 0, [Row ($"/f") [] []])] =
    [(sql_table_name ($"medium") 0, [Row ($"/f") [] []]); (sql_table_name ($"mime") 2, [])] /\
  forallb simple ($"mime") = true /\ ~ In 95%N ($"mime").
Proof. split; [reflexivity|]. split; [reflexivity|]. cbn. intros [H|[H|[H|[H|[]]]]]; discriminate H. Qed.
(** The cached plugins that come with ff do not disturb each other. *)
Example C62_shipped : let names := [$"mime"; $"medium"; $"elf"; $"tar"; $"md5"; $"sha1"; $"sha224"; $"sha256"; $"sha384"; $"sha512"; $"blake2b"; $"blake2s";
    $"sha3_224"; $"sha3_256"; $"sha3_384"; $"sha3_512"; $"shake_128"; $"shake_256"] in
  forallb (fun m => forallb (fun n => str_eqb m n || negb (like ($"plugin_" ++ m ++ $"_%") (sql_table_name n 123))) names) names = true.
Proof. reflexivity. Qed.
Print Assumptions C62_own.
Print Assumptions C62_dropped.
Print Assumptions C62_others_partial.
Print Assumptions C62_refuted.
