(** Where plugins come from, independent of how they are loaded. *)
From Coq Require Import List NArith Bool.
From Verif Require Import Py TypeModel RegistryModel LoadModel.
Import ListNotations.

(** A plugin file: a regular file called something.py that does not begin with an
    underscore *)
Definition plugin_file (d : dirent) : Prop :=
  d_is_file d = true /\ (exists stem, d_name d = stem ++ $".py") /\ (forall rest, d_name d <> 95%N :: rest).

Section Spec.
  Variable scandir : str -> option (list dirent).
  (** The directory contains a file that defines the class *)
  Definition Offers (directory : str) (name : str) (attributes : list (str * ty)) (sound : bool) : Prop :=
    exists l d objects, scandir directory = Some l /\ In d l /\ plugin_file d /\ d_file d = Some objects /\
      In (Class name attributes sound) objects.
  (** The directory contains a plugin file that cannot be executed *)
  Definition Broken (directory : str) : Prop :=
    exists l d, scandir directory = Some l /\ In d l /\ plugin_file d /\ d_file d = None.
  (** The names of the classes in the plugin files of a listing *)
  Inductive Names : list dirent -> list str -> Prop :=
  | names_nil : Names [] []
  | names_skip d l names : ~ plugin_file d -> Names l names -> Names (d :: l) names
  | names_file d l names objects : plugin_file d ->
      d_file d = Some objects \/ (d_file d = None /\ objects = []) -> Names l names ->
      Names (d :: l) (flat_map (fun o => match o with Class n _ _ => [lower n] | Other => [] end) objects ++ names).
End Spec.

(** The non-empty parts of a text between colons: FF_PLUGIN_DIRS *)
Inductive Listed : str -> list str -> Prop :=
| listed_nil : Listed [] []
| listed_last d : d <> [] -> ~ In 58%N d -> Listed d [d]
| listed_more d s l : d <> [] -> ~ In 58%N d -> Listed s l -> Listed (d ++ $":" ++ s) (d :: l)
| listed_empty s l : Listed s l -> Listed ($":" ++ s) l.
(** The directories that are searched: those of ff, those of the variable, that of
    the user *)
Inductive Directories (builtin contrib user : str) : option str -> list str -> Prop :=
| dirs_unset : Directories builtin contrib user None [builtin; contrib; user]
| dirs_set s l : Listed s l -> Directories builtin contrib user (Some s) ([builtin; contrib] ++ l ++ [user]).
