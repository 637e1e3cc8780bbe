(** Model of what a search prints when the results are collected first, and of
    how the fields are set up for it. *)
From Coq Require Import List NArith ZArith Bool.
From Verif Require Import Py PathModel EntryModel TypeModel RegistryModel FieldModel SortModel ConsoleModel ArgumentsModel SearchModel.
Import ListNotations.

(** libff/main.py:99-105: the first "file" among the output fields stands for
    all attributes of files. *)
Fixpoint expand_file (names output : list str) : list str :=
  match output with
  | [] => []
  | s :: output =>
      if str_eqb s ($"file") then map (fun n => n ++ $":n") names ++ output else s :: expand_file names output
  end.

Section Output.
  Variable registered : list plugin.
  Variable init_plugin : str -> res unit.
  (** libff/registry.py:304-309 *)
  Definition get_file_attributes : list str :=
    match find_plugin registered ($"file") with Some p => map fst (p_attrs p) | None => [] end.
  (** libff/main.py:99-110 *)
  Definition setup_fields (a : pargs) : res (list field * option (list field)) :=
    do output <- output_fields registered init_plugin (expand_file get_file_attributes (a_output a));
    match a_sort a with
    | None => Ok (output, None)
    | Some l => do sort <- output_fields registered init_plugin l; Ok (output, Some sort)
    end.

  Variable other : entry -> str -> option value.
  Variable plugin_value : entry -> str * str -> option value.
  (** libff/registry.py:275-284, with KeyError as an error *)
  Definition entry_value (e : entry) (a : str * str) : res value :=
    match attribute_value other plugin_value e a with Some v => Ok v | None => Err KeyErr end.
  Variable human : ty -> Z -> str.
  Variable st : style.
  Variable follow_symlinks all : bool.
  Variable separator : str.
  (** The attributes link and broken of a symbolic link, see LinkModel *)
  Variable link : entry -> str.
  Variable broken : entry -> bool.
  Definition complete (e : entry) : centry := CEntry e (link e) (broken e).
  (** The line for an entry, if there is one *)
  Definition entry_line (fields : list field) (e : entry) : res (option str) :=
    ConsoleModel.process (fun c => entry_value (c_entry c)) human st follow_symlinks all separator fields (complete e).
  Fixpoint present {A} (l : list (option A)) : list A :=
    match l with [] => [] | Some x :: l => x :: present l | None :: l => present l end.
  (** libff/processing.py:181-187: the lines for entries, in this order *)
  Definition entry_lines (fields : list field) (entries : list entry) : res (list str) :=
    do lines <- mapr (entry_line fields) entries; Ok (present lines).
  (** libff/processing.py:252-257, 342-352, 228-235: what is printed in the end
      when entries have been collected *)
  Definition print_collected (fields : list field) (sort : option (list field)) (reverse : bool) (limit : option (Z * option Z))
      (entries : list entry) : res (list str) :=
    do sorted <- finalize entry_value sort reverse entries;
    entry_lines fields (entries_range limit sorted).
  (** The same with --json=json: libff/console.py:73-105 *)
  Definition print_json (fields : list field) (sort : option (list field)) (reverse : bool) (limit : option (Z * option Z))
      (entries : list entry) : res str :=
    do sorted <- finalize entry_value sort reverse entries;
    json_console (fun c => entry_value (c_entry c)) human fields (map complete (entries_range limit sorted)).
End Output.
