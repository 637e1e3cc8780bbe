(** Model of sorting: /repo/libff/field.py:124-180, the class methods sort_key
    of /repo/libff/type.py and CollectiveMixin.finalize and entries_range
    (/repo/libff/processing.py:228-257). *)
From Coq Require Import List NArith ZArith Bool.
From Verif Require Import Py Re TypeModel FieldModel PathModel OsPath SortLib.
Import ListNotations.

(** * Comparison of Python objects *)

(** The objects that sort keys are made of.  bool is a subclass of int; a
    tuple is only ever compared to a tuple and is represented like a list. *)
Inductive pv := PStr (s : str) | PInt (z : Z) | PList (l : list pv).

(** a == b *)
Fixpoint pv_eqb (a b : pv) : bool :=
  match a, b with
  | PStr s, PStr t => str_eqb s t
  | PInt x, PInt y => Z.eqb x y
  | PList l, PList k =>
      (fix eq (l k : list pv) : bool :=
         match l, k with
         | [], [] => true
         | x :: l', y :: k' => pv_eqb x y && eq l' k'
         | _, _ => false
         end) l k
  | _, _ => false
  end.
(** a < b for strings: lexicographic by code points *)
Fixpoint str_ltb (a b : str) : bool :=
  match a, b with
  | _, [] => false
  | [], _ :: _ => true
  | x :: a', y :: b' => if (x =? y)%N then str_ltb a' b' else (x <? y)%N
  end.
(** a < b: objects of different types raise TypeError; lists are compared at
    the first position where they differ. *)
Fixpoint pv_lt (a b : pv) : res bool :=
  match a, b with
  | PStr s, PStr t => Ok (str_ltb s t)
  | PInt x, PInt y => Ok (Z.ltb x y)
  | PList l, PList k =>
      (fix lt (l k : list pv) : res bool :=
         match l, k with
         | _, [] => Ok false
         | [], _ :: _ => Ok true
         | x :: l', y :: k' => if pv_eqb x y then lt l' k' else pv_lt x y
         end) l k
  | _, _ => Err TypeErr
  end.

(** * list.sort *)

Section Sort.
  Context {A : Type}.
  (** list.sort orders the keys with < only and is stable.  If some pair of
      keys cannot be compared the model raises TypeError; CPython raises it
      when it happens to compare such a pair (which it always does if the two
      would be neighbours in the result, in particular if there are only two),
      and otherwise leaves the list in some order. *)
  Definition comparable (a b : pv) : bool := is_ok (pv_lt a b) && is_ok (pv_lt b a).
  Fixpoint all_comparable (l : list pv) : bool :=
    match l with
    | [] => true
    | a :: t => forallb (comparable a) t && all_comparable t
    end.
  Definition not_after (a b : pv * A) : bool :=
    match pv_lt (fst b) (fst a) with Ok r => negb r | Err _ => false end.
  Definition list_sort (key : A -> res pv) (reverse : bool) (l : list A) : res (list A) :=
    do keys <- mapr key l;
    if all_comparable keys then
      let pairs := combine keys l in
      Ok (map snd (if reverse then rev (isort not_after (rev pairs)) else isort not_after pairs))
    else Err TypeErr.
End Sort.

(** * Sort keys *)

(** Type.sort_key (type.py:125-128), String.sort_key (157-159), Path.sort_key
    (183-186).  A value that is not of the type raises some exception if the
    method uses it, here TypeError in all cases. *)
Definition sort_key (t : ty) (v : value) : res pv :=
  match t, v with
  | TString, VStr s => Ok (PStr (lower s))
  | TPath, VStr s =>
      Ok (PStr (join_with ($"/") (map (lstrip_p (N.eqb DOT)) (split_on SLASH (lower s)))))
  | TFileType, VStr s => Ok (PStr s)
  | TListOfStrings, VList l => Ok (PList (map PStr l))
  | (TNumber | TMode | TSize | TTime | TDuration), VInt z => Ok (PInt z)
  | TBoolean, VBool b => Ok (PInt (if b then 1 else 0)%Z)
  | _, _ => Err TypeErr
  end.
(** The class attribute sort_none (type.py:136, 196, 224, 249, 285, 439). *)
Definition sort_none (t : ty) : pv :=
  match t with
  | TString | TPath | TFileType => PStr []
  | TListOfStrings => PList []
  | _ => PInt 0
  end.

(** libff/field.py:128 *)
Definition digits_pattern : str := $"(\d+)".
Definition digits_re : re :=
  Eval vm_compute in match compile false digits_pattern with COk r => r | _ => Eps end.
Lemma digits_re_ok : compile false digits_pattern = COk digits_re.
Proof. reflexivity. Qed.

(** str.isdigit *)
Definition isdigit (s : str) : bool := match s with [] => false | _ => forallb is_isdigit s end.
(** libff/field.py:133-141.  os.path.splitext (CPython Lib/genericpath.py) is
    the same code as libff/path.py:27-40, PathModel.splitext. *)
Fixpoint strip_extensions (fuel : nat) (component : str) (extensions : list str) : str * list str :=
  match fuel with
  | O => (component, extensions)
  | S fuel =>
      match component with
      | [] => (component, extensions)
      | _ =>
          let (comp, ext) := splitext component in
          let ext := lstrip_p (N.eqb DOT) ext in
          match ext with
          | [] => (component, extensions)
          | c :: _ => if isdigit [c] then (component, extensions)
                      else strip_extensions fuel comp (ext :: extensions)
          end
      end
  end.
(** libff/field.py:150: int(p) if p.isdigit() else p *)
Definition token (p : str) : res pv :=
  if isdigit p then match py_int p with Some z => Ok (PInt z) | None => Err ValueError end
  else Ok (PStr p).
(** libff/field.py:130-154 *)
Definition prepare_component (component : str) : res (list pv) :=
  let (component, extensions) := strip_extensions (length component) component [] in
  let parts := re_split digits_re component in
  let parts := match parts with p :: _ => if isdigit p then [] :: parts else parts | [] => parts end in
  do tokens <- mapr token parts;
  Ok (PList tokens :: match extensions with [] => [] | _ => [PList (map PStr extensions)] end).
(** libff/field.py:156-164; os.path.normpath raises TypeError unless its
    argument is a string. *)
Definition prepare_sort_key (value : pv) : res pv :=
  match value with
  | PStr s =>
      do keys <- mapr prepare_component (split_on SLASH (normpath s));
      Ok (PList (concat keys))
  | _ => Err TypeErr
  end.

Section Render.
  Context {A : Type}.
  (** registry.get_attribute (registry.py:275-284); KeyErr if the entry has no
      such attribute *)
  Variable get : A -> str * str -> res value.

  (** one turn of the loop of libff/field.py:170-179 *)
  Definition render_key (entry : A) (f : field) : res pv :=
    match get entry (f_attribute f) with
    | Err KeyErr => Ok (sort_none (f_type f))
    | Err e => Err e
    | Ok v =>
        do k <- sort_key (f_type f) v;
        if has_modifier f ($"v") then prepare_sort_key k else Ok k
    end.
  (** libff/field.py:166-180 *)
  Definition render (fields : list field) (entry : A) : res pv :=
    do l <- mapr (render_key entry) fields; Ok (PList l).

  (** libff/processing.py:252-254 and 449; [sort] is None without --sort *)
  Definition finalize (sort : option (list field)) (reverse : bool) (entries : list A) : res (list A) :=
    match sort with
    | Some fields => list_sort (render fields) reverse entries
    | None => Ok entries
    end.
End Render.
