(** Model of command templates, -x and -X: /repo/libff/field.py:183-303. *)
From Coq Require Import List NArith ZArith Bool.
From Verif Require Import Py Re TypeModel RegistryModel FieldModel.
Import ListNotations.

(** libff/field.py:187 *)
Definition placeholder_pattern : str := $"({{|}}|{[^}]*})".
Definition placeholder_re : re :=
  Eval vm_compute in match compile false placeholder_pattern with COk r => r | _ => Eps end.
Lemma placeholder_re_ok : compile false placeholder_pattern = COk placeholder_re.
Proof. reflexivity. Qed.

(** The elements of the lists that are made of an argument: strings and
    fields. *)
Inductive part := Text (s : str) | Slot (f : field).
Definition is_slot (p : part) : bool := match p with Slot _ => true | Text _ => false end.

Section Store.
  Variable registered : list plugin.
  Variable init_plugin : str -> res unit.
  Notation make := (fun name => do f <- make_field registered init_plugin name; Ok (Slot f)).

  Definition ends_with_c (c : char) (s : str) : bool := match rev s with x :: _ => N.eqb x c | [] => false end.
  Definition starts_with_c (c : char) (s : str) : bool := match s with x :: _ => N.eqb x c | [] => false end.
  (** ExecFields.replace (field.py:189-212) *)
  Definition replace (p : str) : res part :=
    if str_eqb p ($"{{") then Ok (Text ($"{"))
    else if str_eqb p ($"}}") then Ok (Text ($"}"))
    else if str_eqb p ($"{}") then make ($"file.path")
    else if str_eqb p ($"{/}") then make ($"file.name")
    else if str_eqb p ($"{//}") then make ($"file.dir")
    else if str_eqb p ($"{.}") then make ($"file.pathx")
    else if str_eqb p ($"{/.}") then make ($"file.namex")
    else if str_eqb p ($"{..}") then make ($"file.ext")
    else if starts_with_c 123%N p && ends_with_c 125%N p then make (slice p (Some 1%Z) (Some (-1)%Z))
    else Ok (Text p).
  Definition nonempty (s : str) : bool := match s with [] => false | _ => true end.
  (** one turn of the loop of field.py:224-227 *)
  Definition store_argument (s : str) : res (list part) := mapr replace (filter nonempty (re_split placeholder_re s)).
  (** ExecFields.store (field.py:214-230) *)
  Definition store (argument : list str) : res (list (list part)) :=
    do fields <- mapr store_argument argument;
    if existsb is_slot (concat (tl fields)) then Ok fields
    else do p <- make ($"file.path"); Ok (fields ++ [[p]]).
  (** ExecBatchFields.store (field.py:293-297) *)
  Definition store_batch (argument : list str) : res (list (list part)) :=
    do fields <- store argument;
    match fields with
    | [] => Err IndexErr
    | first :: _ => if existsb is_slot first then Err UsageError else Ok fields
    end.
End Store.

Section Render.
  Context {A : Type}.
  Variable get : A -> str * str -> res value.
  Variable human : ty -> Z -> str.
  (** --all *)
  Variable all : bool.

  (** ExecFields.render_field (field.py:232-247) *)
  Definition render_part (entry : A) (p : part) : res str :=
    match p with
    | Text s => Ok s
    | Slot f =>
        match get entry (f_attribute f) with
        | Err KeyErr => if all || has_modifier f ($"n") then Ok [] else Err KeyErr
        | Err e => Err e
        | Ok v => output human (f_type f) (f_modifier f) v
        end
    end.
  Definition render_argument (subfields : list part) (entry : A) : res str :=
    do l <- mapr (render_part entry) subfields; Ok (concat l).
  (** the loop over the entries (field.py:263-275) *)
  Fixpoint render_entries (batch : bool) (subfields : list part) (entries : list A) : res (list str) :=
    match entries with
    | [] => Ok []
    | entry :: entries =>
        match render_argument subfields entry with
        | Ok s => do l <- render_entries batch subfields entries; Ok (s :: l)
        | Err KeyErr => if batch then render_entries batch subfields entries else Err KeyErr
        | Err e => Err e
        end
    end.
  (** ''.join(subfields) of strings; TypeError if there is a field *)
  Definition join_parts (subfields : list part) : res str :=
    do l <- mapr (fun p => match p with Text s => Ok s | Slot _ => Err TypeErr end) subfields; Ok (concat l).
  (** ExecFields.render_fields (field.py:249-280) *)
  Definition render_subfields (batch : bool) (entries : list A) (subfields : list part) : res (list str) :=
    if existsb is_slot subfields then render_entries batch subfields entries
    else do s <- join_parts subfields; Ok [s].
  Definition render_fields (fields : list (list part)) (entries : list A) (batch : bool) : res (list str) :=
    do l <- mapr (render_subfields batch entries) fields; Ok (concat l).
  (** ExecFields.render (field.py:282-285) *)
  Definition render_exec (fields : list (list part)) (entry : A) : res (list str) := render_fields fields [entry] false.
  (** ExecBatchFields.render (field.py:299-303) *)
  Definition render_batch (fields : list (list part)) (entries : list A) : res (list str) :=
    match fields with
    | [] => Err IndexErr
    | first :: rest =>
        do command <- join_parts first;
        do l <- render_fields rest entries true;
        Ok (command :: l)
    end.
End Render.
