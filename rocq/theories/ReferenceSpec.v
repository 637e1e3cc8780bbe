(** Which file a reference is, and what a test with a reference means. *)
From Coq Require Import List NArith ZArith Bool.
From Verif Require Import Py ExprSpec TypeModel TypeSpec TestModel ArgumentsSpec EntryModel EntrySpec SearchSpec.
Import ListNotations.

(** names lead from the directory d to the file p. *)
Definition leads (cwd d : str) (names : list str) (p : str) : Prop :=
  names <> [] /\ place cwd p = place cwd d ++ names.
(** d is the first of the directories that contain p. *)
Definition first_above (cwd : str) (directories : list str) (d : str) (names : list str) (p : str) : Prop :=
  exists before after, directories = before ++ d :: after /\ leads cwd d names p /\
    forall d' names', In d' before -> ~ leads cwd d' names' p.

(** The operators that relate every value to itself *)
Definition reflexive (t : ty) (o : str) : Prop :=
  match t with
  | TString | TPath => In o [$"="; $":"]
  | TNumber | TSize | TTime | TDuration => In o [$"="; $"+="; $"-="]
  | TMode => In o [$"="; $":"]
  | TFileType | TBoolean => o = $"="
  | TListOfStrings => False
  end.
(** A value that an attribute of this type has; types of files are those of
    the documentation. *)
Definition possible (t : ty) (x : value) : Prop :=
  of_type t x /\ match t, x with TFileType, VStr s => In s documented_types | _, _ => True end.
