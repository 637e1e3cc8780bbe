(** What a list of command line arguments means, for any table of options. *)
From Coq Require Import List NArith ZArith Bool.
From Verif Require Import Py ArgsModel.
Import ListNotations.
Local Open Scope N_scope.

(** What is read from the command line. *)
Inductive item :=
| Flag (o : opt)                 (** an option without a value *)
| Value (o : opt) (v : str)      (** an option with its value *)
| Bare (o : opt)                 (** an option whose value is optional, without it *)
| Rest (o : opt) (l : list str)  (** an option that takes all that follows *)
| Args (l : list str).           (** arguments that are no options *)

Definition dash (s : str) : Prop := exists t, s = 45 :: t.
(** Nothing, or an option follows. *)
Definition dash_first (l : list str) : Prop := match l with [] => True | a :: _ => dash a end.
Definition short (c : char) : str := [45; c].

Section Spec.
  Variable options : list opt.
  (** w is one of the names of o. *)
  Definition names (o : opt) (w : str) : Prop :=
    In o options /\ o_action o <> Arguments /\ In w (o_strings o).
  Definition valued (o : opt) : Prop :=
    o_action o = Store \/ o_action o = Append \/ o_action o = StoreOptional.

  (** A word that is an abbreviation of several words. *)
  Inductive Spelled : str -> list str -> Prop :=
  | spelled_long o l v : names o l -> valued o -> (exists n, l = 45 :: 45 :: n) -> Spelled (l ++ 61 :: v) [l; v]
  | spelled_bundle cs : (2 <= length cs)%nat ->
      (forall c, In c cs -> exists o, names o (short c) /\ ~ valued o) ->
      Spelled (45 :: cs) (map short cs)
  | spelled_attached cs o c v :
      (forall c, In c cs -> exists o, names o (short c) /\ ~ valued o) ->
      names o (short c) -> valued o -> cs ++ v <> [] ->
      Spelled (45 :: cs ++ c :: v) (map short cs ++ [short c; v]).

  Inductive Reads : list str -> list item -> Prop :=
  | reads_nil : Reads [] []
  | reads_spelled w ws rest items : Spelled w ws -> Reads (ws ++ rest) items -> Reads (w :: rest) items
  | reads_flag o w rest items : names o w -> o_action o = StoreTrue \/ o_action o = StoreConst ->
      Reads rest items -> Reads (w :: rest) (Flag o :: items)
  | reads_value o w v rest items : names o w -> o_action o = Store \/ o_action o = Append ->
      Reads rest items -> Reads (w :: v :: rest) (Value o v :: items)
  | reads_optional o w v rest items : names o w -> o_action o = StoreOptional -> ~ dash v ->
      Reads rest items -> Reads (w :: v :: rest) (Value o v :: items)
  | reads_bare o w rest items : names o w -> o_action o = StoreOptional -> dash_first rest ->
      Reads rest items -> Reads (w :: rest) (Bare o :: items)
  | reads_rest o w l : names o w -> o_action o = StoreRemainder -> l <> [] ->
      Reads (w :: l) [Rest o l]
  | reads_args l rest items : l <> [] -> (forall a, In a l -> ~ dash a) -> dash_first rest ->
      Reads rest items -> Reads (l ++ rest) (Args l :: items).

  (** What an item does: a destination gets a value, or its list grows.
      [convert] turns the text of a value into the value. *)
  Variable convert : conv -> str -> res aval.
  Inductive change := Becomes (x : aval) | Grows (l : list str).
  Inductive Change : item -> str -> change -> Prop :=
  | change_true o : o_action o = StoreTrue -> Change (Flag o) (o_dest o) (Becomes (ABool true))
  | change_const o : o_action o = StoreConst -> Change (Flag o) (o_dest o) (Becomes (o_const o))
  | change_append o v : o_action o = Append -> Change (Value o v) (o_dest o) (Grows [v])
  | change_value o v x : o_action o = Store \/ o_action o = StoreOptional -> convert (o_type o) v = Ok x ->
      Change (Value o v) (o_dest o) (Becomes x)
  | change_bare o s x : o_const o = AStr s -> convert (o_type o) s = Ok x -> Change (Bare o) (o_dest o) (Becomes x)
  | change_rest o l : Change (Rest o l) (o_dest o) (Grows l)
  | change_args o l : In o options -> o_action o = Arguments -> Change (Args l) (o_dest o) (Grows l).
  Definition grown (x : aval) (l : list str) : aval :=
    match x with AStrs k => AStrs (k ++ l) | _ => AStrs l end.
  (** From the values ns the items lead to ns'. *)
  Inductive Leads : (str -> aval) -> list item -> (str -> aval) -> Prop :=
  | leads_nil ns ns' : (forall d, ns' d = ns d) -> Leads ns [] ns'
  | leads_cons ns i items d c ns1 ns' : Change i d c ->
      (forall d', d' <> d -> ns1 d' = ns d') ->
      ns1 d = match c with Becomes x => x | Grows l => grown (ns d) l end ->
      Leads ns1 items ns' -> Leads ns (i :: items) ns'.
  (** All arguments that are no options are in one place. *)
  Definition one_place (items : list item) : Prop :=
    forall l1 a l2 b l3, items = l1 ++ Args a :: l2 ++ Args b :: l3 -> False.
  Definition starts (ns : str -> aval) : Prop := forall d,
    (exists o l1 l2, options = l1 ++ o :: l2 /\ o_dest o = d /\ ns d = o_default o /\ forall o', In o' l1 -> o_dest o' <> d) \/
    (ns d = ANone /\ forall o, In o options -> o_dest o <> d).
  Definition Means (argv : list str) (ns : str -> aval) : Prop :=
    exists items start, Reads argv items /\ one_place items /\ starts start /\ Leads start items ns.

  (** No option that takes all that follows. *)
  Definition no_rest (items : list item) : Prop := forall o l, ~ In (Rest o l) items.
  (** The items end neither with an option that may have a value nor with
      arguments. *)
  Definition closed (items : list item) : Prop :=
    forall l i, items = l ++ [i] -> match i with Bare _ | Args _ => False | _ => True end.
  (** No item changes d. *)
  Definition untouched (d : str) (items : list item) : Prop := forall i c, In i items -> ~ Change i d c.
  (** All that the items add to the list of d, in order. *)
  Inductive Collects (d : str) : list item -> list str -> Prop :=
  | collects_nil : Collects d [] []
  | collects_other i items l : (forall c, ~ Change i d c) -> Collects d items l -> Collects d (i :: items) l
  | collects_grows i items k l : Change i d (Grows k) -> Collects d items l -> Collects d (i :: items) (k ++ l).

  (** o takes v as its value. *)
  Definition takes (o : opt) (v : str) : Prop :=
    o_action o = Store \/ o_action o = Append \/ (o_action o = StoreOptional /\ ~ dash v).
  (** Reading comes to a value that cannot be converted. *)
  Inductive BadValue (e : exc) : list str -> Prop :=
  | bad_here o w v rest : names o w -> takes o v -> convert (o_type o) v = Err e -> BadValue e (w :: v :: rest)
  | bad_spelled w ws rest : Spelled w ws -> BadValue e (ws ++ rest) -> BadValue e (w :: rest)
  | bad_flag o w rest : names o w -> o_action o = StoreTrue \/ o_action o = StoreConst ->
      BadValue e rest -> BadValue e (w :: rest)
  | bad_value o w v rest : names o w -> takes o v -> BadValue e rest -> BadValue e (w :: v :: rest)
  | bad_bare o w rest : names o w -> o_action o = StoreOptional -> dash_first rest ->
      BadValue e rest -> BadValue e (w :: rest)
  | bad_args l rest : l <> [] -> (forall a, In a l -> ~ dash a) -> dash_first rest ->
      BadValue e rest -> BadValue e (l ++ rest).
End Spec.

(** The tables for which all this makes sense. *)
Definition short_or_long (w : str) : bool :=
  match w with
  | [a; b] => N.eqb a 45 && negb (N.eqb b 45)
  | a :: b :: _ :: _ => N.eqb a 45 && N.eqb b 45 && negb (has_char 61 w)
  | _ => false
  end.
Fixpoint no_dup (l : list str) : bool :=
  match l with [] => true | x :: t => negb (str_in x t) && no_dup t end.
Definition grows (o : opt) : bool :=
  match o_action o with Append | StoreRemainder | Arguments => true | _ => false end.
Definition is_empty (x : aval) : bool := match x with ANone | AStrs [] => true | _ => false end.
Definition table_ok (convert : conv -> str -> res aval) (options : list opt) : bool :=
  forallb (fun o => is_arguments o || forallb short_or_long (o_strings o)) options
  && no_dup (concat (map o_strings (filter (fun o => negb (is_arguments o)) options)))
  && Nat.eqb (length (filter is_arguments options)) 1
  && forallb (fun o => negb (grows o) ||
       (is_empty (o_default o) && match o_type o with TStr => true | _ => false end
        && Nat.eqb (length (filter (fun o' => str_eqb (o_dest o') (o_dest o)) options)) 1)) options
  && forallb (fun o => match o_action o with
       | StoreOptional => match o_const o with AStr s => is_ok (convert (o_type o) s) | _ => false end
       | _ => true end) options.
