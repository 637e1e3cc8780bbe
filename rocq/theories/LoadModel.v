(** Model of where plugins come from: /repo/libff/registry.py:60-107, 121-145,
    /repo/libff/plugin.py:54-57. *)
From Coq Require Import List NArith Bool.
From Verif Require Import Py TypeModel RegistryModel.
Import ListNotations.

(** An object in the namespace of a module (registry.py:93-99): a plugin class,
    with its __name__, its attributes and whether initialize() and the check of the
    types (registry.py:115-125) succeed; anything else.  Types are not recorded:
    which ones are known is part of the check. *)
Inductive object := Class (name : str) (attributes : list (str * ty)) (sound : bool) | Other.
(** A plugin file: the objects after it has been executed, None if that raises
    an exception *)
Definition file := option (list object).
(** An entry of a plugin directory: name, is_file(), contents *)
Record dirent := Dirent { d_name : str; d_is_file : bool; d_file : file }.

(** cls.name = cls.__name__.lower() (plugin.py:57) *)
Definition plugin_of (name : str) (attributes : list (str * ty)) : plugin := Plugin (lower name) attributes.

(** Registry.register_plugin (registry.py:107-119) *)
Definition register (registered : list plugin) (o : object) : res (list plugin) :=
  match o with
  | Other => Ok registered
  | Class name attributes sound =>
      let p := plugin_of name attributes in
      if str_in (p_name p) (map p_name registered) then Ok registered
      else if sound then Ok (registered ++ [p]) else Err PluginErr
  end.
Fixpoint foldr {A B} (f : A -> B -> res A) (l : list B) (a : A) : res A :=
  match l with [] => Ok a | x :: l => do a <- f a x; foldr f l a end.
(** load_plugin, inspect_namespace (registry.py:80-99) within the handler of
    130-138 *)
Definition load_file (registered : list plugin) (f : file) : res (list plugin) :=
  match f with None => Err PluginErr | Some objects => foldr register objects registered end.
(** registry.py:131-133 *)
Definition skipped (d : dirent) : bool :=
  negb (d_is_file d) || negb (ends_with ($".py") (d_name d)) || starts_with ($"_") (d_name d).
Definition load_entry (registered : list plugin) (d : dirent) : res (list plugin) :=
  if skipped d then Ok registered else load_file registered (d_file d).

Section Load.
  (** os.scandir: None stands for OSError.  An OSError in the middle of a listing
      is not modelled. *)
  Variable scandir : str -> option (list dirent).
  Definition load_directory (registered : list plugin) (directory : str) : res (list plugin) :=
    match scandir directory with None => Ok registered | Some l => foldr load_entry l registered end.
  (** Registry.load_plugins (registry.py:121-145) for given directories *)
  Definition load_directories (directories : list str) : res (list plugin) := foldr load_directory directories [].

  (** The directories; [checkout] is what is found from the source tree
      (registry.py:65-67), None if .git or plugins is missing there *)
  Variable debug : bool.
  Variable builtin contrib user : str.
  Variable checkout : option str.
  (** Registry.iter_plugin_dirs (registry.py:60-78) *)
  Definition iter_plugin_dirs (ff_plugin_dirs : option str) : list str :=
    [builtin] ++
    [match checkout with Some d => if debug then d else contrib | None => contrib end] ++
    match ff_plugin_dirs with
    | Some s => filter (fun d => match d with [] => false | _ => true end) (split_on 58%N s)
    | None => []
    end ++
    [user].
  Definition load_all (ff_plugin_dirs : option str) : res (list plugin) := load_directories (iter_plugin_dirs ff_plugin_dirs).
End Load.
