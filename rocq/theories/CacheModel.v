(** Model of the metadata cache: /repo/libff/cache.py,
    /repo/libff/registry.py:234-263, /repo/libff/plugin.py:58-99. *)
From Coq Require Import List NArith ZArith Bool.
From Verif Require Import Py CountModel JsonModel.
Import ListNotations.

(** * Keys *)

(** path.encode("utf-8", "backslashreplace") (cache.py:141, 156); surrogates,
    with which Python represents bytes of file names that cannot be decoded, are
    not encodable. *)
Definition is_surrogate (c : char) : bool := (55296 <=? c)%N && (c <=? 57343)%N.
Definition utf8_char (c : char) : str :=
  if (c <? 128)%N then [c]
  else if (c <? 2048)%N then [192 + c / 64; 128 + c mod 64]%N
  else if is_surrogate c then $"\u" ++ hex4 c
  else if (c <? 65536)%N then [224 + c / 4096; 128 + c / 64 mod 64; 128 + c mod 64]%N
  else [240 + c / 262144; 128 + c / 4096 mod 64; 128 + c / 64 mod 64; 128 + c mod 64]%N.
Definition encode (p : str) : str := flat_map utf8_char p.
(** os.fsencode: the name in the file system; undecodable bytes are represented
    as U+DC80 to U+DCFF (surrogateescape) *)
Definition fsencode_char (c : char) : str :=
  if (56448 <=? c)%N && (c <=? 56575)%N then [c - 56320]%N else utf8_char c.
Definition fsencode (p : str) : str := flat_map fsencode_char p.

(** * The database *)

Record row := Row { r_path : str; r_tag : str; r_data : str }.
(** tables by name; the path is the primary key of each *)
Definition database := list (str * list row).
(** insert or replace (cache.py:177-180) *)
Fixpoint replace_row (r : row) (rows : list row) : list row :=
  match rows with
  | [] => [r]
  | q :: rows => if str_eqb (r_path r) (r_path q) then r :: rows else q :: replace_row r rows
  end.
Fixpoint insert (table : str) (r : row) (db : database) : database :=
  match db with
  | [] => []
  | (t, rows) :: db => if str_eqb table t then (t, replace_row r rows) :: db else (t, rows) :: insert table r db
  end.
(** the statements of an open transaction, applied to what is committed *)
Definition apply_txn (db : database) (txn : list (str * row)) : database :=
  fold_left (fun db tr => insert (fst tr) (snd tr) db) txn db.

(** ** Tables *)

(** the SQL operator like: percent sign and underscore are wildcards, letters
    of ASCII are not case sensitive *)
Definition ascii_lower (c : char) : char := if (65 <=? c)%N && (c <=? 90)%N then (c + 32)%N else c.
Fixpoint like (p s : str) : bool :=
  match p with
  | [] => match s with [] => true | _ => false end
  | c :: p =>
      if N.eqb c 37 then
        (fix any (s : str) : bool := like p s || match s with [] => false | _ :: s => any s end) s
      else match s with
           | [] => false
           | d :: s => (N.eqb c 95 || N.eqb (ascii_lower c) (ascii_lower d)) && like p s
           end
  end.
(** plugin.py:68 *)
Definition sql_table_name (name : str) (cache_tag : N) : str := $"plugin_" ++ name ++ $"_" ++ str_of_N cache_tag.
(** str.rstrip(string.digits) *)
Definition rstrip_digits (s : str) : str := rev (lstrip_p is_d (rev s)).
(** init_table (cache.py:107-128).  Statements that define tables are
    committed at once; two processes that create the table at the same time are
    not modelled (one of them fails). *)
Definition init_table (table : str) (db : database) : database :=
  let tables := filter (like (rstrip_digits table ++ $"%")) (map fst db) in
  let db := if existsb (str_eqb table) tables then db else db ++ [(table, [])] in
  filter (fun t => negb (existsb (str_eqb (fst t)) tables && negb (str_eqb (fst t) table))) db.

(** ** Cleaning *)

(** A connection: what is committed, what it sees, and whether a transaction
    is open. *)
Record connection := Connection { committed : database; current : database; in_transaction : bool }.
(** delete from … where path = …; a transaction is opened implicitly *)
Definition delete (table path : str) (c : connection) : connection :=
  Connection (committed c)
    (map (fun t => if str_eqb (fst t) table then (fst t, filter (fun r => negb (str_eqb (r_path r) path)) (snd t)) else t) (current c)) true.
(** clean (cache.py:194-203); [exists_] is os.path.exists of bytes.  vacuum is
    refused inside of a transaction, then commit (line 203) is not reached. *)
Definition clean (exists_ : str -> bool) (c : connection) : res connection * database :=
  let stale := flat_map (fun t => map (fun r => (fst t, r_path r)) (filter (fun r => negb (exists_ (r_path r))) (snd t))) (current c) in
  let c' := fold_left (fun c tp => delete (fst tp) (snd tp) c) stale c in
  if in_transaction c' then (Err OperationalErr, committed c')
  else (Ok (Connection (current c') (current c') false), current c').
(** the command --clean-cache (main.py:90, 121): a new connection; afterwards
    what is not committed is lost *)
Definition clean_cache (exists_ : str -> bool) (db : database) : res unit * database :=
  match clean exists_ (Connection db db false) with
  | (Ok _, db) => (Ok tt, db)
  | (Err x, db) => (Err x, db)
  end.

(** * Processes *)
Section Processes.
  (** What plugin.cache returns; what get_entry_cache_tag returns; the state of
      a file (contents and status); what becomes of the data (plugin.process,
      registry.py:262-263, 224-225). *)
  Variables V T F R : Type.
  (** registry.py:252-255 *)
  Inductive cached := NODATA | Value (v : V).
  (** plugin.cache, registry.py:251-255: plugins are given by their tables, that
      is, by name and version *)
  Variable compute : str -> str -> F -> res cached.
  (** plugin.get_entry_cache_tag *)
  Variable tag_of : str -> F -> T.
  Variable finish : str -> str -> cached -> R.
  (** pickle *)
  Variable pickle_tag : T -> str.
  Variable dumps : cached -> option str.
  Variable loads : str -> cached.

  (** Cache.get (cache.py:138-151); None for NOTSET *)
  Definition cache_get (db : database) (table path : str) (tag : T) : res (option cached) :=
    match dict_get str_eqb table db with
    | None => Err OperationalErr
    | Some rows =>
        match find (fun r => str_eqb (r_path r) (encode path) && str_eqb (r_tag r) (pickle_tag tag)) rows with
        | Some r => Ok (Some (loads (r_data r)))
        | None => Ok None
        end
    end.

  (** What a process is doing; [cm_for] is the plugin and the path for which
      [commit] was called, None for [close]. *)
  Inductive phase :=
  | Idle
  | Computing (table path : str) (tag : T)
  | Committing (cm_todo : list (str * list row)) (cm_for : option (str * str)).
  (** The attributes of Cache, the open transaction, and the phase. *)
  Record process := Process { cached_rows : list (str * list row); num_cached_rows : N; last_commit : Z;
                              txn : list (str * row); doing : phase }.
  (** cache.py:71-76 *)
  Definition new_process (now : Z) : process := Process [] 0 now [] Idle.
  (** cache.py:160-161: self.cached_rows.setdefault(plugin, []).append(row) *)
  Definition add_row (table : str) (r : row) (rows : list (str * list row)) : list (str * list row) :=
    dict_set str_eqb table (match dict_get str_eqb table rows with Some l => l ++ [r] | None => [r] end) rows.
  (** cache.py:163-164 *)
  Definition commit_due (now : Z) (p : process) : bool :=
    (last_commit p + 30 <=? now)%Z || N.eqb (num_cached_rows p) 500.

  (** All processes of all runs, the database, the files, and, for the
      specification only, all states of files up to now. *)
  Record state := State { db : database; procs : nat -> option process; files : str -> F; past : list (str * F) }.
  Definition set_proc (i : nat) (p : option process) (f : nat -> option process) : nat -> option process :=
    fun j => if Nat.eqb j i then p else f j.
  Definition with_proc (i : nat) (p : option process) (s : state) : state := State (db s) (set_proc i p (procs s)) (files s) (past s).
  Definition become (p : process) (d : phase) : process := Process (cached_rows p) (num_cached_rows p) (last_commit p) (txn p) d.
  (** what the process sees *)
  Definition view (s : state) (p : process) : database := apply_txn (db s) (txn p).

  (** A call of get_data for the plugin with this table and the path has its
      result, or fails (perhaps after it had its result, when committing). *)
  Inductive event := Silent | Found (table path : str) (r : R) | Raised (table path : str) (x : exc).

  (** [steady]: whoever looks at a file sees the state its entry was made of.
      An exception ends a process (registry.py:226-232, walk.py:123-130); here it
      may continue. *)
  Variable steady : bool.
  Inductive step (s : state) : event -> state -> Prop :=
  (* a file changes, is created, or removed *)
  | s_modify path f : step s Silent (State (db s) (procs s) (fun q => if str_eqb q path then f else files s q) ((path, f) :: past s))
  (* main.py:90 *)
  | s_start i now : procs s i = None -> step s Silent (with_proc i (Some (new_process now)) s)
  (* a worker process gets a copy *)
  | s_fork i j p : procs s i = Some p -> doing p = Idle -> txn p = [] -> procs s j = None -> step s Silent (with_proc j (Some p) s)
  (* registry.py:160 *)
  | s_init i p name version : procs s i = Some p -> doing p = Idle ->
      step s Silent (State (init_table (sql_table_name name version) (db s)) (procs s) (files s) (past s))
  (* registry.py:241-242: found *)
  | s_hit i p table path f c : procs s i = Some p -> doing p = Idle -> In (path, f) (past s) -> (steady = true -> tag_of table f = tag_of table (files s path)) ->
      cache_get (view s p) table path (tag_of table f) = Ok (Some c) -> step s (Found table path (finish table path c)) s
  (* not found *)
  | s_miss i p table path f : procs s i = Some p -> doing p = Idle -> In (path, f) (past s) -> (steady = true -> tag_of table f = tag_of table (files s path)) ->
      cache_get (view s p) table path (tag_of table f) = Ok None ->
      step s Silent (with_proc i (Some (become p (Computing table path (tag_of table f)))) s)
  (* no such table *)
  | s_no_table i p table path f x : procs s i = Some p -> doing p = Idle -> In (path, f) (past s) ->
      cache_get (view s p) table path (tag_of table f) = Err x -> step s (Raised table path x) s
  (* registry.py:251-257, cache.py:153-168: no commit is due *)
  | s_set i p table path tag c data now : procs s i = Some p -> doing p = Computing table path tag ->
      (steady = true -> tag = tag_of table (files s path)) ->
      compute table path (files s path) = Ok c -> dumps c = Some data ->
      let p' := Process (add_row table (Row (encode path) (pickle_tag tag) data) (cached_rows p)) (num_cached_rows p + 1) (last_commit p) (txn p) Idle in
      commit_due now p' = false -> step s (Found table path (finish table path c)) (with_proc i (Some p') s)
  (* a commit is due *)
  | s_set_commit i p table path tag c data now : procs s i = Some p -> doing p = Computing table path tag ->
      (steady = true -> tag = tag_of table (files s path)) ->
      compute table path (files s path) = Ok c -> dumps c = Some data ->
      let p' := Process (add_row table (Row (encode path) (pickle_tag tag) data) (cached_rows p)) (num_cached_rows p + 1) (last_commit p) (txn p) Idle in
      commit_due now p' = true ->
      step s (Found table path (finish table path c)) (with_proc i (Some (become p' (Committing (cached_rows p') (Some (table, path))))) s)
  (* plugin.cache or pickle.dumps fails *)
  | s_fail i p table path tag x : procs s i = Some p -> doing p = Computing table path tag ->
      compute table path (files s path) = Err x -> step s (Raised table path x) (with_proc i (Some (become p Idle)) s)
  | s_unpicklable i p table path tag c : procs s i = Some p -> doing p = Computing table path tag ->
      compute table path (files s path) = Ok c -> dumps c = None -> step s (Raised table path TypeErr) (with_proc i (Some (become p Idle)) s)
  (* cache.py:87-91 *)
  | s_close i p : procs s i = Some p -> doing p = Idle -> (0 < num_cached_rows p)%N ->
      step s Silent (with_proc i (Some (become p (Committing (cached_rows p) None))) s)
  (* cache.py:176-181: the rows of a table, and what an earlier attempt left *)
  | s_publish i p table rows todo r : procs s i = Some p -> doing p = Committing ((table, rows) :: todo) r ->
      dict_get str_eqb table (db s) <> None ->
      step s Silent (State (apply_txn (db s) (txn p ++ map (pair table) rows))
                           (set_proc i (Some (Process (cached_rows p) (num_cached_rows p) (last_commit p) [] (Committing todo r))) (procs s))
                           (files s) (past s))
  (* cache.py:182-185: locked after some rows, or when committing *)
  | s_locked i p table rows todo r n : procs s i = Some p -> doing p = Committing ((table, rows) :: todo) r ->
      dict_get str_eqb table (db s) <> None ->
      step s Silent (with_proc i (Some (Process (cached_rows p) (num_cached_rows p) (last_commit p)
                                                (txn p ++ map (pair table) (firstn n rows)) (doing p))) s)
  (* cache.py:186-187 *)
  | s_lost i p table rows todo r : procs s i = Some p -> doing p = Committing ((table, rows) :: todo) r ->
      dict_get str_eqb table (db s) = None ->
      step s (match r with Some (t, path) => Raised t path OperationalErr | None => Silent end) (with_proc i (Some (become p Idle)) s)
  (* cache.py:190-192 *)
  | s_done i p r now : procs s i = Some p -> doing p = Committing [] r ->
      step s Silent (with_proc i (Some (Process [] 0 now (txn p) Idle)) s)
  (* the end of a process, at any point *)
  | s_end i p : procs s i = Some p -> step s Silent (with_proc i None s).
  Inductive run (s : state) : list event -> state -> Prop :=
  | run_nil : run s [] s
  | run_step l s1 e s2 : run s l s1 -> step s1 e s2 -> run s (l ++ [e]) s2.
End Processes.
Arguments NODATA {V}.
Arguments Value {V}.
Arguments cache_get {V T}.
Arguments Idle {T}.
Arguments Computing {T}.
Arguments Committing {T}.
Arguments Process {T}.
Arguments cached_rows {T}.
Arguments num_cached_rows {T}.
Arguments last_commit {T}.
Arguments txn {T}.
Arguments doing {T}.
Arguments become {T}.
Arguments State {T F}.
Arguments db {T F}.
Arguments procs {T F}.
Arguments files {T F}.
Arguments past {T F}.
Arguments set_proc {T}.
Arguments with_proc {T F}.
Arguments view {T F}.
Arguments Silent {R}.
Arguments Found {R}.
Arguments Raised {R}.
Arguments step {V T F R}.
Arguments run {V T F R}.
