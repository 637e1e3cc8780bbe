(** Model of what a search with -x or -X runs and of what a search by the API
    yields, put together from the models of the parts. *)
From Coq Require Import List NArith ZArith Bool.
From Verif Require Import Py EntryModel TypeModel RegistryModel FieldModel TemplateModel SortModel ConsoleModel ArgumentsModel SearchModel OutputModel.
From Verif Require BatchModel.
Import ListNotations.

Section Action.
  Variable registered : list plugin.
  Variable init_plugin : str -> res unit.
  Variable other : entry -> str -> option value.
  Variable plugin_value : entry -> str * str -> option value.
  Variable human : ty -> Z -> str.
  (** --all *)
  Variable all : bool.
  Notation get := (entry_value other plugin_value).

  (** The command for an entry, libff/processing.py:204-208 and 80-86: there is
      none if a value is missing.  Other exceptions than KeyError do not occur
      (see C96). *)
  Definition command (fs : list (list part)) (e : entry) : option (list str) :=
    match render_exec get human all fs e with Ok args => Some args | Err _ => None end.
  Definition has_command (fs : list (list part)) (e : entry) : bool :=
    match command fs e with Some _ => true | None => false end.
  (** libff/processing.py:252-257, 355-366: the entries whose commands are given
      to the pool of threads *)
  Definition exec_entries (sort : option (list field)) (reverse : bool) (limit : option (Z * option Z)) (entries : list entry) : res (list entry) :=
    do sorted <- finalize get sort reverse entries; Ok (entries_range limit sorted).
  (** libff/processing.py:252-257, 355-389: the calls for -X *)
  Definition batch_calls (fs : list (list part)) (sort : option (list field)) (reverse : bool) (limit : option (Z * option Z))
      (run : nat -> list str -> BatchModel.outcome) (entries : list entry) : res (@BatchModel.done entry) :=
    do sorted <- finalize get sort reverse entries;
    Ok (BatchModel.finalize (render_batch get human all fs) run (entries_range limit sorted)).

  (** libff/find.py:101-107: modifiers other than n are refused by the API. *)
  Definition find_fields (a : pargs) : res (list field * option (list field)) :=
    do x <- setup_fields registered init_plugin a;
    if forallb (fun f => match f_modifier f with None => true | Some m => str_eqb m ($"n") end) (fst x) then Ok x else Err ValueError.
  Variable link : entry -> str.
  Variable broken : entry -> bool.
  (** libff/find.py:109-126, libff/processing.py:395-452: the entries that have
      arrived are sorted if there are sort fields; what is yielded are
      dictionaries. *)
  Definition find_results (fields : list field) (sort : option (list field)) (reverse : bool) (entries : list entry) : res (list (list (str * option value))) :=
    do l <- match sort with Some (_ :: _) => finalize get sort reverse entries | _ => Ok entries end;
    mapr (fun e => to_dict (fun c => get (c_entry c)) human fields (complete link broken e)) l.
End Action.
