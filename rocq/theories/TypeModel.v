(** Model of the attribute types, /repo/libff/type.py. *)
From Coq Require Import List NArith ZArith Bool.
From Verif Require Import Py Re ConvertModel GlobModel.
Import ListNotations.
Local Open Scope Z_scope.

(** The subclasses of Type (libff/type.py:131-456).  Types defined by plugins
    are not modelled. *)
Inductive ty :=
| TString | TPath | TFileType | TListOfStrings | TNumber | TMode | TSize | TTime | TDuration | TBoolean.
Definition ty_eqb (a b : ty) : bool :=
  match a, b with
  | TString, TString | TPath, TPath | TFileType, TFileType | TListOfStrings, TListOfStrings
  | TNumber, TNumber | TMode, TMode | TSize, TSize | TTime, TTime | TDuration, TDuration
  | TBoolean, TBoolean => true
  | _, _ => false
  end.

(** cls.mro() up to but without Type. *)
Definition mro (t : ty) : list ty :=
  match t with
  | TPath => [TPath; TString]
  | TSize => [TSize; TNumber]
  | TTime => [TTime; TNumber]
  | TDuration => [TDuration; TNumber]
  | t => [t]
  end.

(** Attribute values. *)
Inductive value := VStr (s : str) | VInt (z : Z) | VBool (b : bool) | VList (l : list str).

(** The class attribute [operators] (type.py:136, 195, 223, 248, 284, 438;
    inherited by Path, Size, Time and Duration). *)
Definition operators (t : ty) : list str :=
  match t with
  | TString | TPath | TListOfStrings => [$"="; $":"; $"~"; $"%"]
  | TFileType | TBoolean => [$"="]
  | TNumber | TSize | TTime | TDuration => [$"+="; $"-="; $"+"; $"-"; $"="]
  | TMode => [$"="; $":"; $"~"]
  end.
(** The class attribute [string_type] (type.py:139, 226). *)
Definition string_type (t : ty) : bool :=
  match t with TString | TPath | TListOfStrings => true | _ => false end.
(** The class attribute [choices] (type.py:198-199). *)
Definition choices (t : ty) : option (list str) :=
  match t with
  | TFileType => Some [$"d"; $"directory"; $"f"; $"file"; $"l"; $"symlink"; $"s"; $"socket"; $"p"; $"pipe";
                       $"fifo"; $"char"; $"block"; $"door"; $"port"; $"whiteout"; $"other"]
  | _ => None
  end.

(** * Modes *)

(** The constants of the module stat. *)
Definition S_ISUID := 2048. Definition S_ISGID := 1024. Definition S_ISVTX := 512.
Definition S_IRWXU := 448. Definition S_IRWXG := 56. Definition S_IRWXO := 7.
Definition S_IRUSR := 256. Definition S_IRGRP := 32. Definition S_IROTH := 4.
Definition S_IWUSR := 128. Definition S_IWGRP := 16. Definition S_IWOTH := 2.
Definition S_IXUSR := 64. Definition S_IXGRP := 8. Definition S_IXOTH := 1.
Definition lors (l : list Z) : Z := fold_left Z.lor l 0.
(** libff/type.py:290-291 *)
Definition MODE_ALL := lors [S_ISUID; S_ISGID; S_ISVTX; S_IRWXU; S_IRWXG; S_IRWXO].

(** libff/type.py:288 *)
Definition mode_pattern : str := $"([ugoa]*)([-+=])([rwxXst]+)|([-+=])?([0-7]+)$".
Definition mode_re : re :=
  Eval vm_compute in match compile false mode_pattern with COk r => r | _ => Eps end.
Lemma mode_re_ok : compile false mode_pattern = COk mode_re.
Proof. reflexivity. Qed.

(** libff/type.py:313-321: the bits of one letter of "who" *)
Definition who_bits (c : char) : Z :=
  if N.eqb c 117 then Z.lor S_ISUID S_IRWXU
  else if N.eqb c 103 then Z.lor S_ISGID S_IRWXG
  else if N.eqb c 111 then Z.lor S_ISVTX S_IRWXO
  else if N.eqb c 97 then MODE_ALL
  else 0.
(** libff/type.py:330-340: the bits of one permission letter *)
Definition perm_bits (c : char) : Z :=
  if N.eqb c 114 then lors [S_IRUSR; S_IRGRP; S_IROTH]
  else if N.eqb c 119 then lors [S_IWUSR; S_IWGRP; S_IWOTH]
  else if N.eqb c 120 then lors [S_IXUSR; S_IXGRP; S_IXOTH]
  else if N.eqb c 115 then Z.lor S_ISUID S_ISGID
  else if N.eqb c 116 then S_ISVTX
  else 0.
(** int(val, 8) of a string matched by [0-7]+ *)
Definition octal (s : str) : Z := fold_left (fun a c => a * 8 + Z.of_N (dig c)) s 0.

(** libff/type.py:300-352, one turn of the loop: the new [affected] and
    [result]; None is the ValueError.  The branches for the values "u", "g"
    and "o" (323-328) cannot be reached, the expression matches none of these
    letters there. *)
Definition mode_part (part : str) (affected result : Z) : option (Z * Z) :=
  match re_match mode_re part with
  | None => None
  | Some (_, cs) =>
      let update (operator : str) (val : Z) :=
        if str_in operator [$"+"; $"="] then Z.lor result val
        else if str_eqb operator ($"-") then Z.land result (Z.lnot val)
        else result in
      match group 1 cs, group 2 cs, group 3 cs with
      | Some affected_str, Some operator, Some value_str =>
          let affected_str := match affected_str with [] => $"a" | _ => affected_str end in
          let affected := fold_left (fun a c => Z.lor a (who_bits c)) affected_str affected in
          let val := fold_left (fun a c => Z.lor a (perm_bits c)) value_str 0 in
          Some (affected, update operator val)
      | _, _, _ =>
          match group 5 cs with
          | Some val =>
              let operator := match group 4 cs with Some o => o | None => $"=" end in
              Some (MODE_ALL, update operator (octal val))
          | None => None
          end
      end
  end.
Fixpoint mode_loop (parts : list str) (affected result : Z) : option (Z * Z) :=
  match parts with
  | [] => Some (affected, result)
  | part :: parts =>
      match mode_part part affected result with
      | Some (affected, result) => mode_loop parts affected result
      | None => None
      end
  end.
(** libff/type.py:294-354 *)
Definition parse_mode (value : str) : res Z :=
  match mode_loop (split_on 44%N value) 0 0 with
  | Some (affected, result) => Ok (Z.land affected result)
  | None => Err ValueError
  end.

(** * Input *)

(** libff/type.py:443-444 *)
Definition TRUE : list str := [$"true"; $"t"; $"1"; $"yes"; $"y"; $"on"].
Definition FALSE : list str := [$"false"; $"f"; $"0"; $"no"; $"n"; $"off"].

Section Input.
  (** convert.parse_time (libff/convert.py:150-181) reads the clock and the
      local time zone; it is a parameter. *)
  Variable parse_time : str -> res Z.
  (** Whether assertions are executed; /repo/bin/ff starts Python with -O. *)
  Variable debug : bool.

  (** The class methods input (type.py:83, 251-259, 356, 386, 405, 422, 446) *)
  Definition input (t : ty) (s : str) : res value :=
    match t with
    | TString | TPath | TFileType | TListOfStrings => Ok (VStr s)
    | TNumber =>
        match py_int s with
        | None => Err ValueError
        | Some z => if z <? 0 then Err ValueError else Ok (VInt z)
        end
    | TMode => do z <- parse_mode s; Ok (VInt z)
    | TSize => do z <- parse_size s; Ok (VInt z)
    | TTime => do z <- parse_time s; Ok (VInt z)
    | TDuration => do z <- parse_duration s; Ok (VInt z)
    | TBoolean =>
        if debug && negb (str_in (lower s) (TRUE ++ FALSE)) then Err AssertionErr
        else Ok (VBool (str_in (lower s) TRUE))
    end.
End Input.

(** * Tests *)

Section Tests.
  (** Regular expressions of the user are not modelled: [R] is the type of
      compiled expressions, [rsearch r s] is r.search(s) is not None. *)
  Variable R : Type.
  Variable rsearch : R -> str -> bool.

  (** Test.value: a plain value, a compiled expression, a Glob object. *)
  Inductive tvalue := TV (v : value) | TRegex (r : R) | TGlob (g : glob).

  (** Errors of a compiled pattern that show up at the first match. *)
  Definition of_cres (x : cres bool) : res bool :=
    match x with COk b => Ok b | CErr => Err ReError | CUnmodelled => Err Unmodelled end.
  Definition glob_test (g : glob) (path basename : str) (is_dir : bool) : res bool :=
    do b <- of_cres (glob_match g path basename is_dir);
    Ok (if b then g_include g else negb (g_include g)).

  (** libff/type.py:141-155.  Values that are no strings cannot occur with
      plugins that keep to their declared types; TypeError stands for whatever
      Python does then. *)
  Definition string_test (ignore_case : bool) (operator : str) (tv : tvalue) (v : str) : res bool :=
    let v := if ignore_case then lower v else v in
    if str_eqb operator ($"%") then
      match tv with
      | TGlob g => glob_test g v v false
      | _ => Err AttributeErr
      end
    else if str_eqb operator ($"=") then
      Ok (match tv with TV (VStr x) => str_eqb v x | _ => false end)
    else if str_eqb operator ($":") then
      match tv with TV (VStr x) => Ok (is_sub x v) | _ => Err TypeErr end
    else if str_eqb operator ($"~") then
      match tv with TRegex r => Ok (rsearch r v) | _ => Err AttributeErr end
    else Ok false.
  (** libff/type.py:167-181 *)
  Definition path_test (name : str) (is_dir ignore_case : bool) (operator : str) (tv : tvalue) (v : str) : res bool :=
    let v := if ignore_case then lower v else v in
    if str_eqb operator ($"%") then
      match tv with
      | TGlob g => glob_test g v (if ignore_case then lower name else name) is_dir
      | _ => Err AttributeErr
      end
    else string_test ignore_case operator tv v.
  (** libff/type.py:201-214 *)
  Definition filetype_test (operator : str) (tv : tvalue) (v : str) : res bool :=
    match tv with
    | TV (VStr x) =>
        let t := lower x in
        let t := if str_eqb t ($"d") then $"directory"
                 else if str_eqb t ($"f") then $"file"
                 else if str_eqb t ($"l") then $"symlink"
                 else if str_eqb t ($"s") then $"socket"
                 else if str_in t [$"p"; $"pipe"] then $"fifo"
                 else t in
        Ok (str_eqb operator ($"=") && str_eqb v t)
    | _ => Err AttributeErr
    end.
  (** libff/type.py:229-231: any() stops at the first element that passes *)
  Fixpoint list_test (ignore_case : bool) (operator : str) (tv : tvalue) (l : list str) : res bool :=
    match l with
    | [] => Ok false
    | v :: l =>
        do b <- string_test ignore_case operator tv v;
        if b then Ok true else list_test ignore_case operator tv l
    end.
  (** libff/type.py:270-276 *)
  Definition number_test (operator : str) (t v : Z) : bool :=
    str_eqb operator ($"=") && (v =? t)
    || str_eqb operator ($"+=") && (v >=? t)
    || str_eqb operator ($"-=") && (v <=? t)
    || str_eqb operator ($"+") && (v >? t)
    || str_eqb operator ($"-") && (v <? t).
  (** libff/type.py:371-377 *)
  Definition mode_test (operator : str) (t v : Z) : bool :=
    let t := Z.land t MODE_ALL in
    let v := Z.land v MODE_ALL in
    str_eqb operator ($"=") && (v =? t)
    || str_eqb operator ($":") && (Z.land v t =? t)
    || str_eqb operator ($"~") && negb (Z.land v t =? 0).
  (** libff/type.py:454-456 *)
  Definition boolean_test (operator : str) (t v : bool) : bool :=
    str_eqb operator ($"=") && Bool.eqb v t.

  (** type_cls.test(entry, test, value); [name] and [is_dir] are entry.name and
      entry.is_dir(). *)
  Definition type_test (t : ty) (name : str) (is_dir ignore_case : bool) (operator : str) (tv : tvalue) (v : value)
    : res bool :=
    match t, v with
    | TString, VStr s => string_test ignore_case operator tv s
    | TPath, VStr s => path_test name is_dir ignore_case operator tv s
    | TFileType, VStr s => filetype_test operator tv s
    | TListOfStrings, VList l => list_test ignore_case operator tv l
    | (TNumber | TSize | TTime | TDuration), VInt z =>
        match tv with TV (VInt x) => Ok (number_test operator x z) | _ => Err TypeErr end
    | TMode, VInt z => match tv with TV (VInt x) => Ok (mode_test operator x z) | _ => Err TypeErr end
    | TBoolean, VBool b => match tv with TV (VBool x) => Ok (boolean_test operator x b) | _ => Err TypeErr end
    | _, _ => Err TypeErr
    end.
End Tests.
Arguments TV {R} v.
Arguments TRegex {R} r.
Arguments TGlob {R} g.
Arguments string_test {R} rsearch ignore_case operator tv v.
Arguments path_test {R} rsearch name is_dir ignore_case operator tv v.
Arguments filetype_test {R} operator tv v.
Arguments list_test {R} rsearch ignore_case operator tv l.
Arguments type_test {R} rsearch t name is_dir ignore_case operator tv v.
