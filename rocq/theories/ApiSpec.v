(** What an API query means: no state, no cache, every value computed with a
    new plugin object. *)
From Coq Require Import List NArith ZArith Bool.
From Verif Require Import Py TypeModel RegistryModel CacheModel CacheSpec ApiModel.
Import ListNotations.

Section Meaning.
  Variables E V I : Type.
  (** The plugins there are, whether their setup() succeeds, and so on *)
  Variable available : list aplugin.
  Variable setup : str -> bool.
  Variable new : str -> I.
  Variable can_handle : str -> E -> bool.
  Variable process : str -> I -> E -> option (list (str * V)) * I.
  Variable file_value : E -> str -> option V.

  Definition resolve (name : str) : res (str * str) :=
    do a <- parse_attribute (map a_plugin available) name;
    match find_aplugin (fst a) available with
    | None => Err BadAttributeError
    | Some _ => if setup (fst a) then do _ <- get_attribute_type (map a_plugin available) a; Ok a else Err PluginErr
    end.
  Fixpoint all {A B} (f : A -> res B) (l : list A) : res (list B) :=
    match l with [] => Ok [] | a :: t => do b <- f a; do bs <- all f t; Ok (b :: bs) end.

  Definition value (e : E) (a : str * str) : res (option V) :=
    if str_eqb (fst a) ($"file") then Ok (file_value e (snd a))
    else if can_handle (fst a) e
         then match fst (process (fst a) (new (fst a)) e) with Some data => Ok (assoc (snd a) data) | None => Err PluginErr end
         else Ok None.
  Fixpoint holds (attrs : list (str * str)) (t : ask V) (e : E) : res bool :=
    match t with
    | Decide b => Ok b
    | Ask i k => match nth_error attrs i with None => Err IndexErr | Some a => do v <- value e a; holds attrs (k v) e end
    end.
  Fixpoint select (attrs : list (str * str)) (t : ask V) (l : list E) : res (list E) :=
    match l with [] => Ok [] | e :: rest => do b <- holds attrs t e; do found <- select attrs t rest; Ok (if b : bool then e :: found else found) end.

  (** the first name that is just file stands for the names of all file attributes *)
  Fixpoint before_file (l : list str) : list str :=
    match l with [] => [] | o :: t => if str_eqb o ($"file") then [] else o :: before_file t end.
  Definition expanded (names l : list str) : list str :=
    before_file l ++ match skipn (length (before_file l)) l with [] => [] | _ :: t => names ++ t end.

  Definition meaning (q : query E V) : res (list (list ((str * str) * option V))) :=
    let names := flat_map (fun p => if str_eqb (p_name p) ($"file") then map fst (p_attrs p) else []) (map a_plugin available) in
    do output <- all resolve (expanded names (q_output q));
    do sort <- all resolve (q_sort q);
    do tests <- all resolve (q_tests q);
    do parts <- all (select tests (q_ask q)) (q_workers q);
    let found := concat parts in
    do found <- match sort with
                | [] => Ok found
                | _ => do keys <- all (fun e => all (value e) sort) found; Ok (q_order q (combine keys found))
                end;
    do values <- all (fun e => all (value e) output) found;
    Ok (map (combine output) values).
End Meaning.
Arguments meaning {E V I}.

(** Plugin objects may remember things as long as this cannot be noticed:
    [Inv] describes the objects that come about. *)
Definition unnoticed {E V I} (process : str -> I -> E -> option (list (str * V)) * I) (new : str -> I) (Inv : str -> I -> Prop) : Prop :=
  (forall n, Inv n (new n)) /\
  forall n i e, Inv n i -> fst (process n i e) = fst (process n (new n) e) /\ Inv n (snd (process n i e)).

(** No plugin's tables look like those of an older version of another one (C62). *)
Definition apart (l : list aplugin) : Prop :=
  (forall p, In p l -> forallb simple (a_name p) = true) /\
  forall p p', In p l -> In p' l -> a_cached p = true -> a_cached p' = true -> a_name p <> a_name p' ->
    ~ covers ($"plugin_" ++ a_name p ++ $"_") (a_table p').
