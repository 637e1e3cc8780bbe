(** Model of the construction of a single test,
    /repo/libff/parser.py:168-187 and 235-322. *)
From Coq Require Import List NArith ZArith Bool.
From Verif Require Import Py Re GlobModel TypeModel RegistryModel ExprModel.
Import ListNotations.

(** The choices of --case (libff/arguments.py:58-59) *)
Inductive case_mode := CaseSmart | CaseIgnore | CaseSensitive.

(** libff/parser.py:255-268, for classes given by their mro() lists *)
Section CommonSuperType.
  Variable C : Type.
  Variable eqb : C -> C -> bool.
  Variable root : C.   (* the class Type *)
  Fixpoint common_super (mro_a mro_b : list C) : option C :=
    match mro_a with
    | [] => None
    | c :: t =>
        if eqb c root then None
        else if existsb (eqb c) mro_b then Some c
        else common_super t mro_b
    end.
End CommonSuperType.
Arguments common_super {C} eqb root mro_a mro_b.
Inductive class := CType | CObject | CSub (t : ty).
Definition class_eqb (a b : class) : bool :=
  match a, b with
  | CType, CType | CObject, CObject => true
  | CSub a, CSub b => ty_eqb a b
  | _, _ => false
  end.
Definition full_mro (t : ty) : list class := map CSub (mro t) ++ [CType; CObject].
Definition get_common_super_type (a b : ty) : option class :=
  common_super class_eqb CType (full_mro a) (full_mro b).

Section Test.
  Variable R : Type.
  (** re.compile of a user's expression: ReError or a compiled expression *)
  Variable rcompile : str -> res R.
  Variable parse_time : str -> res Z.
  Variable debug : bool.
  Variable case : case_mode.
  Variable registered : list plugin.
  Variable init_plugin : str -> res unit.
  (** The value of an attribute of the reference file: Entry.as_reference
      (libff/entry.py:95-117) and registry.get_attribute. *)
  Variable reference_value : str * str -> str -> res value.

  (** libff/parser.py:61 *)
  Record test := Test {
    t_attribute : str * str; t_operator : str; t_type : ty; t_value : tvalue R; t_ignore_case : bool }.

  (** libff/parser.py:235-253 *)
  Definition get_reference_value (t : ty) (attribute : str * str) (reference value : str) : res TypeModel.value :=
    do ref_attribute <- (match reference with
                         | [] => Ok attribute
                         | _ => setup_attribute registered init_plugin reference
                         end);
    do ref_type <- get_attribute_type registered ref_attribute;
    match get_common_super_type t ref_type with
    | None => Err ExpressionError
    | Some _ => reference_value ref_attribute value
    end.

  (** value.lower(); lists and numbers have no such method *)
  Definition py_lower (v : value) : res str :=
    match v with VStr s => Ok (lower s) | _ => Err AttributeErr end.

  (** libff/parser.py:299-320 *)
  Definition prepare (t : ty) (operator : str) (v : value) : res (tvalue R * bool) :=
    do ignore_case <- (match case with
                       | CaseSmart => do l <- py_lower v;
                                      Ok (match v with VStr s => str_eqb s l | _ => false end)
                       | CaseIgnore => Ok true
                       | CaseSensitive => Ok false
                       end);
    do v <- (if ignore_case then do l <- py_lower v; Ok (VStr l) else Ok v);
    if str_eqb operator ($"~") then
      match v with
      | VStr s =>
          match rcompile s with
          | Ok r => Ok (TRegex r, ignore_case)
          | Err ReError => Err ExpressionError
          | Err e => Err e
          end
      | _ => Err TypeErr
      end
    else if str_eqb operator ($"%") then
      match v with
      | VStr s => Ok (TGlob (translate s (match t with TPath => true | _ => false end)), ignore_case)
      | _ => Err AttributeErr
      end
    else Ok (TV v, ignore_case).

  (** libff/parser.py:270-322 *)
  Definition create_test (attribute : str * str) (operator : str) (reference : option str) (value : str) : res test :=
    do t <- get_attribute_type registered attribute;
    if negb (str_in operator (operators t)) then Err ExpressionError else
    do v <- (match (match reference with
                    | Some r => get_reference_value t attribute r value
                    | None => input parse_time debug t value
                    end) with
             | Ok v => Ok v
             | Err _ => Err UsageError
             end);
    let allowed := match choices t with
                   | None => true
                   | Some l => match v with VStr s => str_in s l | _ => false end
                   end in
    if negb allowed then Err ExpressionError else
    if string_type t then
      do p <- prepare t operator v; Ok (Test attribute operator t (fst p) (snd p))
    else Ok (Test attribute operator t (TV v) false).

  (** libff/parser.py:168-187 *)
  Definition parse_test (expression : str) : res test :=
    match split_test expression with
    | Some (attribute, operator, reference, value) =>
        do attribute <- setup_attribute registered init_plugin attribute;
        create_test attribute operator reference value
    | None => Err ExpressionError
    end.
End Test.
Arguments test R : clear implicits.
Arguments Test {R}.
Arguments t_attribute {R}. Arguments t_operator {R}. Arguments t_type {R}. Arguments t_value {R}.
Arguments t_ignore_case {R}.

(** libff/filter.py:80-88 and 129-134: a test applied to an entry whose
    attribute has the given value; the registry returns the type of the test
    again *)
Definition run {R} (rsearch : R -> str -> bool) (t : test R) (name : str) (is_dir : bool) (v : value) : res bool :=
  type_test rsearch (t_type t) name is_dir (t_ignore_case t) (t_operator t) (t_value t) v.
