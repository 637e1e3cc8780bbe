(** Model of what a process keeps from one API query to the next:
    /repo/libff/registry.py:41-58, 109-170, 203-263, /repo/libff/cache.py:67,
    98-128, /repo/libff/main.py:76-142, /repo/libff/find.py:54-130,
    /repo/libff/processing.py:395-452, /repo/libff/builtin/ignore.py:38-79. *)
From Coq Require Import List NArith ZArith Bool.
From Verif Require Import Py Re PathModel OsPath TypeModel RegistryModel IgnoreModel CacheModel.
Import ListNotations.

(** A plugin class; [a_version] is its cache_tag. *)
Record aplugin := APlugin { a_plugin : plugin; a_cached : bool; a_version : N }.
Definition a_name (p : aplugin) : str := p_name (a_plugin p).
Definition a_table (p : aplugin) : str := sql_table_name (a_name p) (a_version p).
Definition find_aplugin (n : str) (l : list aplugin) : option aplugin := find (fun p => str_eqb (a_name p) n) l.
(** A plugin file: the classes that are registered from it, and whether
    loading it ends normally (registry.py:80-107: executing it may raise, an
    attribute may have a wrong type). *)
Definition module := (list aplugin * bool)%type.

(** ** Loading (registry.py:109-119, 127-150) *)

Definition register (registered : list aplugin) (p : aplugin) : list aplugin :=
  if str_in (a_name p) (map a_name registered) then registered else registered ++ [p].
(** [false]: BadPluginError; what was registered before stays. *)
Fixpoint load_modules (registered : list aplugin) (found : list module) : list aplugin * bool :=
  match found with
  | [] => (registered, true)
  | (classes, fine) :: rest =>
      let registered := fold_left register classes registered in
      if fine then load_modules registered rest else (registered, false)
  end.

Fixpoint assoc {A} (n : str) (l : list (str * A)) : option A :=
  match l with [] => None | (m, a) :: t => if str_eqb m n then Some a else assoc n t end.
Fixpoint update {A} (n : str) (a : A) (l : list (str * A)) : list (str * A) :=
  match l with [] => [(n, a)] | (m, b) :: t => if str_eqb m n then (m, a) :: t else (m, b) :: update n a t end.

Section Api.
  (** the world outside (files, installed modules), entries, values, plugin
      objects *)
  Variables W E V I : Type.
  (** the plugin files that are found; whether setup() of a plugin succeeds; a
      new plugin object; can_handle; the data a plugin gives ([None]: an
      exception other than NoData) and the object afterwards; attributes of the
      file plugin *)
  Variable modules : W -> list module.
  Variable setup : W -> str -> bool.
  Variable new : str -> I.
  Variable can_handle : W -> str -> E -> bool.
  Variable process : W -> str -> I -> E -> option (list (str * V)) * I.
  Variable file_value : W -> E -> str -> option V.
  (** whether asserts are executed *)
  Variable debug : bool.

  (** The class attributes Registry.registered_plugins, Registry.plugins and
      Cache.registered; [complete] tells whether Registry.attributes has been
      filled (registry.py:146-150 are the last statements of load_plugins).
      [dbs] are the cache files; their rows play no role here: which value is
      found in a table is the subject of C57. *)
  Record pstate := PState { registered : list aplugin; complete : bool; plugins : list (str * I); cache_names : list str; dbs : list (str * database) }.
  Definition fresh (d : list (str * database)) : pstate := PState [] false [] [] d.

  (** Registry.attributes, as the list of plugins that contribute to it *)
  Definition attributes (st : pstate) : list plugin := if complete st then map a_plugin (registered st) else [].

  (** Registry.__init__ (registry.py:53-58) *)
  Definition new_registry (w : W) (st : pstate) : res unit * pstate :=
    match registered st with
    | [] => let (r, fine) := load_modules [] (modules w) in
            (if fine then Ok tt else Err PluginErr, PState r fine (plugins st) (cache_names st) (dbs st))
    | _ => (Ok tt, st)
    end.

  (** sqlite3.connect creates a file that is missing *)
  Definition database_of (st : pstate) (c : str) : database := match assoc c (dbs st) with Some d => d | None => [] end.

  (** register_plugin (cache.py:40-42, 98-105); [cache] is None for NullCache *)
  Definition cache_register (cache : option str) (p : aplugin) (st : pstate) : res unit * pstate :=
    match cache with
    | None => (Ok tt, st)
    | Some c =>
        if debug && str_in (a_name p) (cache_names st) then (Err AssertionErr, st)
        else (Ok tt, PState (registered st) (complete st) (plugins st) (a_name p :: cache_names st)
                       (update c (init_table (a_table p) (database_of st c)) (dbs st)))
    end.

  (** init_plugin (registry.py:152-170); optimize_for_slow_plugins only
      influences the distribution of work *)
  Definition init_plugin (w : W) (cache : option str) (p : aplugin) (st : pstate) : res unit * pstate :=
    let (r, st) := if a_cached p then cache_register cache p st else (Ok tt, st) in
    match r with
    | Err _ => (Err PluginErr, st)
    | Ok _ =>
        if setup w (a_name p)
        then (Ok tt, PState (registered st) (complete st) (update (a_name p) (new (a_name p)) (plugins st)) (cache_names st) (dbs st))
        else (Err PluginErr, st)
    end.

  (** setup_attribute (registry.py:203-216), then get_attribute_type
      (registry.py:291-298), as in make_field (field.py:63-73) and for tests *)
  Definition setup_attribute (w : W) (cache : option str) (name : str) (st : pstate) : res (str * str) * pstate :=
    match parse_attribute (attributes st) name with
    | Err x => (Err x, st)
    | Ok a =>
        match find_aplugin (fst a) (registered st) with
        | None => (Err BadAttributeError, st)
        | Some p =>
            let (r, st) := match assoc (fst a) (plugins st) with Some _ => (Ok tt, st) | None => init_plugin w cache p st end in
            match r with
            | Err x => (Err x, st)
            | Ok _ => match get_attribute_type (attributes st) a with Err x => (Err x, st) | Ok _ => (Ok a, st) end
            end
        end
    end.
  Fixpoint setup_attributes (w : W) (cache : option str) (names : list str) (st : pstate) : res (list (str * str)) * pstate :=
    match names with
    | [] => (Ok [], st)
    | n :: t =>
        let (r, st) := setup_attribute w cache n st in
        match r with
        | Err x => (Err x, st)
        | Ok a => let (r, st) := setup_attributes w cache t st in
                  (match r with Err x => Err x | Ok l => Ok (a :: l) end, st)
        end
    end.

  (** The special value "file" in the list of output attributes
      (main.py:98-104); the attributes are sorted by name there, here they are in
      the order of the plugin. *)
  Fixpoint expand_output (file_attributes : list str) (output : list str) : list str :=
    match output with
    | [] => []
    | o :: t => if str_eqb o ($"file") then file_attributes ++ t else o :: expand_output file_attributes t
    end.
  Definition file_attributes (st : pstate) : list str :=
    flat_map (fun p => if str_eqb (p_name p) ($"file") then map fst (p_attrs p) else []) (attributes st).

  (** get_data and get_data_from_plugin (registry.py:218-273).  If the table is
      missing, looking up and storing raise OperationalError, which becomes
      BadPluginError. *)
  Definition has_table (table : str) (d : database) : bool := existsb (str_eqb table) (map fst d).
  Definition get_data (w : W) (st : pstate) (cache : option str) (objects : list (str * I)) (n : str) (e : E)
    : res (list (str * V)) * list (str * I) :=
    match find_aplugin n (registered st), assoc n objects with
    | Some p, Some i =>
        if can_handle w n e then
          if a_cached p && match cache with Some c => negb (has_table (a_table p) (database_of st c)) | None => false end
          then (Err PluginErr, objects)
          else let (data, i) := process w n i e in
               (match data with Some data => Ok data | None => Err PluginErr end, update n i objects)
        else (Ok [], objects)
    | _, _ => (Err KeyErr, objects)
    end.
  (** get_attribute (registry.py:275-284); [None]: the KeyError that all
      callers take for a missing value *)
  Definition get_attribute (w : W) (st : pstate) (cache : option str) (objects : list (str * I)) (a : str * str) (e : E)
    : res (option V) * list (str * I) :=
    if str_eqb (fst a) ($"file") then (Ok (file_value w e (snd a)), objects)
    else let (r, objects) := get_data w st cache objects (fst a) e in
         (match r with Ok data => Ok (assoc (snd a) data) | Err x => Err x end, objects).
  Fixpoint get_attributes (w : W) (st : pstate) (cache : option str) (objects : list (str * I)) (l : list (str * str)) (e : E)
    : res (list (option V)) * list (str * I) :=
    match l with
    | [] => (Ok [], objects)
    | a :: t =>
        let (r, objects) := get_attribute w st cache objects a e in
        match r with
        | Err x => (Err x, objects)
        | Ok v => let (r, objects) := get_attributes w st cache objects t e in
                  (match r with Err x => Err x | Ok vs => Ok (v :: vs) end, objects)
        end
    end.

  (** The tests and exclusions, evaluated from left to right as far as needed:
      [Ask i] reads the i-th attribute that occurs in them. *)
  Inductive ask := Decide (b : bool) | Ask (i : nat) (k : option V -> ask).
  Fixpoint evaluate (w : W) (st : pstate) (cache : option str) (objects : list (str * I)) (attrs : list (str * str)) (t : ask) (e : E)
    : res bool * list (str * I) :=
    match t with
    | Decide b => (Ok b, objects)
    | Ask i k =>
        match nth_error attrs i with
        | None => (Err IndexErr, objects)
        | Some a => let (r, objects) := get_attribute w st cache objects a e in
                    match r with Err x => (Err x, objects) | Ok v => evaluate w st cache objects attrs (k v) e end
        end
    end.

  (** A query: arguments of Find, and the entries that each worker process
      gets.  [q_order] is the sorting of entries by their values. *)
  Record query := Query { q_cache : option str; q_output : list str; q_sort : list str; q_tests : list str; q_ask : ask;
                          q_order : list (list (option V) * E) -> list E; q_workers : list (list E) }.

  (** A worker process starts with a copy of the plugin objects. *)
  Fixpoint worker (w : W) (st : pstate) (cache : option str) (objects : list (str * I)) (attrs : list (str * str)) (t : ask) (l : list E) : res (list E) :=
    match l with
    | [] => Ok []
    | e :: rest =>
        let (r, objects) := evaluate w st cache objects attrs t e in
        do b <- r; do found <- worker w st cache objects attrs t rest; Ok (if b : bool then e :: found else found)
    end.
  Fixpoint workers (w : W) (st : pstate) (cache : option str) (attrs : list (str * str)) (t : ask) (l : list (list E)) : res (list E) :=
    match l with
    | [] => Ok []
    | es :: rest => do found <- worker w st cache (plugins st) attrs t es; do more <- workers w st cache attrs t rest; Ok (found ++ more)
    end.

  (** Values for a list of entries, in the main process *)
  Fixpoint read_entries (w : W) (st : pstate) (cache : option str) (objects : list (str * I)) (attrs : list (str * str)) (l : list E)
    : res (list (list (option V))) * list (str * I) :=
    match l with
    | [] => (Ok [], objects)
    | e :: rest =>
        let (r, objects) := get_attributes w st cache objects attrs e in
        match r with
        | Err x => (Err x, objects)
        | Ok vs => let (r, objects) := read_entries w st cache objects attrs rest in
                   (match r with Err x => Err x | Ok vss => Ok (vs :: vss) end, objects)
        end
    end.

  (** What a query gives: for each result the values of the attributes. *)
  Definition outcome := res (list (list ((str * str) * option V))).
  (** Iterating over the query (find.py:106-130, processing.py:395-452).  An
      error in a worker process ends the query. *)
  Definition iterate (w : W) (st : pstate) (q : query) (output sort tests : list (str * str)) : outcome * list (str * I) :=
    match workers w st (q_cache q) tests (q_ask q) (q_workers q) with
    | Err x => (Err x, plugins st)
    | Ok found =>
        let (r, objects) := match sort with
                            | [] => (Ok found, plugins st)
                            | _ => let (r, objects) := read_entries w st (q_cache q) (plugins st) sort found in
                                   (match r with Err x => Err x | Ok keys => Ok (q_order q (combine keys found)) end, objects)
                            end in
        match r with
        | Err x => (Err x, objects)
        | Ok found => let (r, objects) := read_entries w st (q_cache q) objects output found in
                      (match r with Err x => Err x | Ok vss => Ok (map (combine output) vss) end, objects)
        end
    end.
  (** Find(...) and iteration over it *)
  Definition find_query (w : W) (st : pstate) (q : query) : outcome * pstate :=
    let (r, st) := new_registry w st in
    match r with
    | Err x => (Err x, st)
    | Ok _ =>
        let (r, st) := setup_attributes w (q_cache q) (expand_output (file_attributes st) (q_output q)) st in
        match r with
        | Err x => (Err x, st)
        | Ok output =>
            let (r, st) := setup_attributes w (q_cache q) (q_sort q) st in
            match r with
            | Err x => (Err x, st)
            | Ok sort =>
                let (r, st) := setup_attributes w (q_cache q) (q_tests q) st in
                match r with
                | Err x => (Err x, st)
                | Ok tests =>
                    let (o, objects) := iterate w st q output sort tests in
                    (o, PState (registered st) (complete st) objects (cache_names st) (dbs st))
                end
            end
        end
    end.
  (** The state after some queries, each in its world *)
  Fixpoint after (st : pstate) (l : list (W * query)) : pstate :=
    match l with [] => st | (w, q) :: t => after (snd (find_query w st q)) t end.
End Api.

(** ** The plugin "ignore" with its two caches (builtin/ignore.py:38-79) *)

Definition strs_eqb (a b : list str) : bool := (Nat.eqb (length a) (length b)) && forallb (fun '(x, y) => str_eqb x y) (combine a b).
Record ignore_object := IgnoreObject { ignore_cache : list (str * gitignore); ignores_cache : list (list str * list gitignore) }.
(** Lines 53-72: the loop over the paths; an exception ([CErr]) leaves what
    was cached before *)
Fixpoint ignores_loop (read : str -> option (list str)) (paths : list str) (cache : list (str * gitignore)) : cres (list gitignore) * list (str * gitignore) :=
  match paths with
  | [] => (COk [], cache)
  | path :: rest =>
      match assoc path cache with
      | Some ig => let (r, cache) := ignores_loop read rest cache in (cbind r (fun l => COk (ig :: l)), cache)
      | None =>
          match read path with
          | None => ignores_loop read rest cache
          | Some lines =>
              match new_gitignore (fst (PathModel.split path)) (snd (PathModel.split path)) lines with
              | COk ig => let (r, cache) := ignores_loop read rest ((path, ig) :: cache) in (cbind r (fun l => COk (ig :: l)), cache)
              | CErr => (CErr, cache)
              | CUnmodelled => (CUnmodelled, cache)
              end
          end
      end
  end.
Fixpoint assoc_paths (paths : list str) (l : list (list str * list gitignore)) : option (list gitignore) :=
  match l with [] => None | (p, a) :: t => if strs_eqb p paths then Some a else assoc_paths paths t end.
Definition get_ignores_cached (read : str -> option (list str)) (paths : list str) (o : ignore_object) : cres (list gitignore) * ignore_object :=
  match assoc_paths paths (ignores_cache o) with
  | Some l => (COk l, o)
  | None =>
      let (r, cache) := ignores_loop read paths (ignore_cache o) in
      (r, IgnoreObject cache (match r with COk l => (paths, l) :: ignores_cache o | _ => ignores_cache o end))
  end.

Arguments PState {I}. Arguments registered {I}. Arguments complete {I}. Arguments plugins {I}. Arguments cache_names {I}. Arguments dbs {I}.
Arguments fresh {I}. Arguments attributes {I}. Arguments database_of {I}. Arguments file_attributes {I}.
Arguments Decide {V}. Arguments Ask {V}. Arguments Query {E V}. Arguments q_cache {E V}. Arguments q_output {E V}. Arguments q_sort {E V}.
Arguments q_tests {E V}. Arguments q_ask {E V}. Arguments q_order {E V}. Arguments q_workers {E V}.
Arguments new_registry {W I}. Arguments cache_register {I}. Arguments init_plugin {W I}. Arguments setup_attribute {W I}. Arguments setup_attributes {W I}.
Arguments get_data {W E V I}. Arguments get_attribute {W E V I}. Arguments get_attributes {W E V I}. Arguments evaluate {W E V I}.
Arguments worker {W E V I}. Arguments workers {W E V I}. Arguments read_entries {W E V I}. Arguments iterate {W E V I}.
Arguments find_query {W E V I}. Arguments after {W E V I}.
