(** Model of --count: /repo/libff/processing.py:237-250, 267-336. *)
From Coq Require Import List NArith ZArith Bool.
From Verif Require Import Py TypeModel FieldModel SortModel.
Import ListNotations.

(** * Dictionaries *)

(** A dict keeps the order of insertion and, if a key is assigned again, the
    first of the equal keys. *)
Section Dict.
  Context {K V : Type}.
  Variable eqb : K -> K -> bool.
  Fixpoint dict_get (k : K) (d : list (K * V)) : option V :=
    match d with
    | [] => None
    | (k', v) :: d => if eqb k k' then Some v else dict_get k d
    end.
  Fixpoint dict_set (k : K) (v : V) (d : list (K * V)) : list (K * V) :=
    match d with
    | [] => [(k, v)]
    | (k', v') :: d => if eqb k k' then (k', v) :: d else (k', v') :: dict_set k v d
    end.
End Dict.
(** collections.Counter: counter[k] += n *)
Definition counter_add {K} (eqb : K -> K -> bool) (k : K) (n : Z) (c : list (K * Z)) : list (K * Z) :=
  dict_set eqb k (match dict_get eqb k c with Some m => m + n | None => n end)%Z c.

(** value1 == value2 (bool is a subclass of int) *)
Definition number_of (v : value) : option Z :=
  match v with VInt z => Some z | VBool b => Some (if b then 1 else 0)%Z | _ => None end.
Definition value_eqb (a b : value) : bool :=
  match a, b with
  | VStr s, VStr t => str_eqb s t
  | VList l, VList k => if list_eq_dec (list_eq_dec N.eq_dec) l k then true else false
  | _, _ => match number_of a, number_of b with Some x, Some y => Z.eqb x y | _, _ => false end
  end.

(** * Collecting *)

(** The keys of self.count: "_total" and fields. *)
Inductive ckey := KTotal | KField (f : field).
Definition ckey_eqb (a b : ckey) : bool :=
  match a, b with KTotal, KTotal => true | KField f, KField g => field_eqb f g | _, _ => false end.
Inductive cell := Sum (z : Z) | Per (l : list (value * Z)).
Definition counts := list (ckey * cell).

Section Collect.
  Context {A : Type}.
  (** registry.get_attribute (registry.py:275-284) *)
  Variable get : A -> str * str -> res value.

  (** self.count[k] += n; a Counter and a number cannot be added *)
  Definition add_sum (k : ckey) (n : Z) (c : counts) : res counts :=
    match dict_get ckey_eqb k c with
    | Some (Sum m) => Ok (dict_set ckey_eqb k (Sum (m + n)) c)
    | Some (Per _) => Err TypeErr
    | None => Ok (dict_set ckey_eqb k (Sum n) c)
    end.
  (** processing.py:275-286 for one field.  Lists are not hashable; what is not
      a number cannot be summed up. *)
  Definition collect_field (entry : A) (c : counts) (f : field) : res counts :=
    match get entry (f_attribute f) with
    | Err KeyErr => Ok c
    | Err e => Err e
    | Ok value =>
        match count_of (f_type f) with
        | TOTAL => match number_of value with Some n => add_sum (KField f) n c | None => Err TypeErr end
        | COUNT =>
            match value with
            | VList _ => Err TypeErr
            | _ =>
                match dict_get ckey_eqb (KField f) c with
                | None => Ok (dict_set ckey_eqb (KField f) (Per (counter_add value_eqb value 1 [])) c)
                | Some (Per l) => Ok (dict_set ckey_eqb (KField f) (Per (counter_add value_eqb value 1 l)) c)
                | Some (Sum _) => Err TypeErr
                end
            end
        | UNCOUNTABLE => Ok c
        end
    end.
  Fixpoint foldr_res {S T} (step : S -> T -> res S) (s : S) (l : list T) : res S :=
    match l with [] => Ok s | x :: l => do s <- step s x; foldr_res step s l end.
  (** processing.py:270-286 *)
  Definition collect_entry (fields : list field) (c : counts) (entry : A) : res counts :=
    do c <- add_sum KTotal 1 c;
    foldr_res (collect_field entry) c fields.
  Definition collect_count (fields : list field) (c : counts) (entries : list A) : res counts :=
    foldr_res (collect_entry fields) c entries.
  (** CollectiveMixin.loop (processing.py:237-250) on the chunks that arrive:
      self.count and self.entries *)
  Definition collect_chunk (fields : list field) (s : counts * list A) (chunk : list A) : res (counts * list A) :=
    do c <- collect_count fields (fst s) chunk;
    Ok (c, snd s ++ chunk).
  Definition count_loop (fields : list field) (chunks : list (list A)) : res (counts * list A) :=
    foldr_res (collect_chunk fields) ([], []) chunks.
End Collect.

(** * Printing *)

Section Print.
  Variable human : ty -> Z -> str.

  Inductive pcell := PNumber (z : Z) | PText (s : str) | PPer (l : list (str * Z)).
  (** processing.py:303-308 *)
  Definition prepare_per (f : field) (l : list (value * Z)) : res (list (str * Z)) :=
    foldr_res (fun d kv => do key <- output human (f_type f) (f_modifier f) (fst kv); Ok (dict_set str_eqb key (snd kv) d)) [] l.
  (** processing.py:292-317; str(field.attribute) is the alias *)
  Definition prepare_cell (d : list (str * pcell)) (kv : ckey * cell) : res (list (str * pcell)) :=
    match kv with
    | (KTotal, Sum z) => Ok (dict_set str_eqb ($"_total") (PNumber z) d)
    | (KTotal, Per _) => Err Unmodelled
    | (KField f, Per l) => do p <- prepare_per f l; Ok (dict_set str_eqb (f_alias f) (PPer p) d)
    | (KField f, Sum z) =>
        match f_modifier f with
        | None => Ok (dict_set str_eqb (f_alias f) (PNumber z) d)
        | Some _ => do s <- output human (f_type f) (f_modifier f) (VInt z); Ok (dict_set str_eqb (f_alias f) (PText s) d)
        end
    end.
  Definition prepare_count (c : counts) : res (list (str * pcell)) := foldr_res prepare_cell [] c.

  (** processing.py:330-336 *)
  Definition print_cell (kv : str * pcell) : res (list str) :=
    match kv with
    | (key, PNumber z) => Ok [key ++ $"=" ++ str_of_Z z]
    | (key, PText s) => Ok [key ++ $"=" ++ s]
    | (key, PPer l) =>
        do l <- list_sort (fun t => token (fst t)) false l;
        Ok (map (fun t => key ++ $"[" ++ fst t ++ $"]=" ++ str_of_Z (snd t)) l)
    end.
  (** processing.py:319-336: the dictionary that json.dump writes, or the
      lines.  sorted(count.items()) compares the keys only, since they are
      different. *)
  Inductive printed_count := AsJson (d : list (str * pcell)) | AsLines (l : list str).
  Definition print_count (json : bool) (c : counts) : res printed_count :=
    do d <- prepare_count c;
    if json then Ok (AsJson d)
    else
      do d <- list_sort (fun t => Ok (PStr (fst t))) false d;
      do l <- mapr print_cell d;
      Ok (AsLines (concat l)).
  (** --count: loop, then close (processing.py:259-265) *)
  Definition count_output {A} (get : A -> str * str -> res value) (fields : list field) (json : bool) (chunks : list (list A)) : res printed_count :=
    do s <- count_loop get fields chunks;
    print_count json (fst s).
End Print.
