(** Model of the lookup of attributes, /repo/libff/registry.py. *)
From Coq Require Import List NArith ZArith Bool.
From Verif Require Import Py TypeModel.
Import ListNotations.

(** A plugin class: its name and the names and types of its attributes.  Two
    attributes of the same name in one plugin make load_plugins fail (sorting
    compares their types) and are not modelled. *)
Record plugin := Plugin { p_name : str; p_attrs : list (str * ty) }.

(** libff/registry.py:109-119, for plugins in the order in which they are
    found: the first plugin of a name wins. *)
Definition register_plugin (registered : list plugin) (p : plugin) : list plugin :=
  if str_in (p_name p) (map p_name registered) then registered else registered ++ [p].
Definition load_plugins (found : list plugin) : list plugin := fold_left register_plugin found [].

Section Registry.
  Variable registered : list plugin.

  Definition find_plugin (n : str) : option plugin :=
    find (fun p => str_eqb (p_name p) n) registered.
  Definition find_attr (n : str) (p : plugin) : option ty :=
    option_map snd (find (fun a => str_eqb (fst a) n) (p_attrs p)).

  (** libff/registry.py:147-150 and 291-298: the dictionary attributes *)
  Definition get_attribute_type (a : str * str) : res ty :=
    match find_plugin (fst a) with
    | None => Err BadAttributeError
    | Some p => match find_attr (snd a) p with Some t => Ok t | None => Err BadAttributeError end
    end.

  (** libff/registry.py:312-315; the result is a set *)
  Definition get_plugin_for_attribute (n : str) : list str :=
    map p_name (filter (fun p => match find_attr n p with Some _ => true | None => false end) registered).

  (** name.split(".", 1) *)
  Fixpoint split_dot (s : str) : option (str * str) :=
    match s with
    | [] => None
    | c :: t =>
        if N.eqb c 46 then Some ([], t)
        else match split_dot t with Some (a, b) => Some (c :: a, b) | None => None end
    end.

  (** libff/registry.py:172-201 *)
  Definition parse_attribute (name : str) : res (str * str) :=
    match split_dot name with
    | Some a => Ok a
    | None =>
        let plugin_names := get_plugin_for_attribute name in
        if str_in ($"file") plugin_names then Ok ($"file", name)
        else match plugin_names with
             | [p] => Ok (p, name)
             | _ => Err BadAttributeError
             end
    end.

  (** What happens when a plugin is set up for the first time
      (libff/registry.py:152-170): BadPluginError or nothing. *)
  Variable init_plugin : str -> res unit.
  (** libff/registry.py:203-216.  That a plugin is set up only once is not
      visible here. *)
  Definition setup_attribute (name : str) : res (str * str) :=
    do a <- parse_attribute name;
    if str_in (fst a) (map p_name registered) then
      do _ <- init_plugin (fst a); Ok a
    else Err BadAttributeError.
End Registry.

(** libff/builtin/file.py:40-86 *)
Definition file_plugin : plugin := Plugin ($"file") [
  ($"path", TPath); ($"root", TPath); ($"relpath", TPath); ($"dir", TPath); ($"name", TString);
  ($"ext", TString); ($"pathx", TPath); ($"namex", TPath); ($"mode", TMode); ($"type", TFileType);
  ($"device", TNumber); ($"inode", TNumber); ($"samedev", TBoolean); ($"depth", TNumber);
  ($"exec", TBoolean); ($"size", TSize); ($"mtime", TTime); ($"ctime", TTime); ($"atime", TTime);
  ($"time", TTime); ($"perm", TMode); ($"links", TNumber); ($"uid", TNumber); ($"gid", TNumber);
  ($"user", TString); ($"group", TString); ($"hide", TBoolean); ($"hidden", TBoolean);
  ($"empty", TBoolean); ($"link", TPath); ($"target", TPath); ($"broken", TBoolean);
  ($"mount", TBoolean); ($"mpath", TString); ($"devname", TString); ($"fstype", TString);
  ($"pseudofs", TBoolean)].
