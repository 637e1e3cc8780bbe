(** What the tests on the attribute types mean. *)
From Coq Require Import List NArith ZArith Bool.
From Verif Require Import Py.
Import ListNotations.
Local Open Scope Z_scope.

(** ** Numbers *)
Inductive Compare (v t : Z) : str -> Prop :=
| cmp_eq : v = t -> Compare v t ($"=")
| cmp_ge : t <= v -> Compare v t ($"+=")
| cmp_le : v <= t -> Compare v t ($"-=")
| cmp_gt : t < v -> Compare v t ($"+")
| cmp_lt : v < t -> Compare v t ($"-").

(** ** Modes: sets of the twelve permission bits *)
Definition permission (i : Z) : Prop := 0 <= i < 12.
Inductive ModeTest (v t : Z) : str -> Prop :=
| mode_eq : (forall i, permission i -> Z.testbit v i = Z.testbit t i) -> ModeTest v t ($"=")
| mode_all : (forall i, permission i -> Z.testbit t i = true -> Z.testbit v i = true) -> ModeTest v t ($":")
| mode_any : (exists i, permission i /\ Z.testbit t i = true /\ Z.testbit v i = true) -> ModeTest v t ($"~").

(** Symbolic modes as understood by chmod(1). *)
Inductive who := WUser | WGroup | WOther | WAll.
Inductive perm := PRead | PWrite | PExec | PExecIf | PSet | PSticky.
Inductive mop := MAdd | MRemove | MSet.
Record clause := Clause { c_who : list who; c_op : mop; c_perms : list perm }.

Definition in_list (i : Z) (l : list Z) : bool := existsb (Z.eqb i) l.
(** Bits that a letter of "who" stands for. *)
Definition selects (w : who) (i : Z) : bool :=
  match w with
  | WUser => in_list i [11; 8; 7; 6]
  | WGroup => in_list i [10; 5; 4; 3]
  | WOther => in_list i [9; 2; 1; 0]
  | WAll => (0 <=? i) && (i <? 12)
  end.
(** Bits that a permission letter stands for; [m] is the mode so far. *)
Definition exec_bits : list Z := [6; 3; 0].
Definition grants (m : Z -> bool) (p : perm) (i : Z) : bool :=
  match p with
  | PRead => in_list i [8; 5; 2]
  | PWrite => in_list i [7; 4; 1]
  | PExec => in_list i exec_bits
  | PExecIf => in_list i exec_bits && existsb m exec_bits
  | PSet => in_list i [11; 10]
  | PSticky => in_list i [9]
  end.
(** No letters mean all. *)
Definition selected (c : clause) (i : Z) : bool :=
  match c_who c with [] => selects WAll i | l => existsb (fun w => selects w i) l end.
(** Effect of a clause on a mode. *)
Definition apply_clause (m : Z -> bool) (c : clause) : Z -> bool := fun i =>
  let given := existsb (fun p => grants m p i) (c_perms c) in
  match c_op c with
  | MAdd => m i || (selected c i && given)
  | MRemove => m i && negb (selected c i && given)
  | MSet => if selected c i then given else m i
  end.
Definition denotes (l : list clause) : Z -> bool := fold_left apply_clause l (fun _ => false).

(** How a list of clauses is written. *)
Definition who_char (w : who) : char :=
  match w with WUser => 117 | WGroup => 103 | WOther => 111 | WAll => 97 end%N.
Definition perm_char (p : perm) : char :=
  match p with PRead => 114 | PWrite => 119 | PExec => 120 | PExecIf => 88 | PSet => 115 | PSticky => 116 end%N.
Definition mop_char (o : mop) : char := match o with MAdd => 43 | MRemove => 45 | MSet => 61 end%N.
Definition clause_text (c : clause) : str := map who_char (c_who c) ++ [mop_char (c_op c)] ++ map perm_char (c_perms c).
Fixpoint clauses_text (l : list clause) : str :=
  match l with
  | [] => []
  | [c] => clause_text c
  | c :: l => clause_text c ++ $"," ++ clauses_text l
  end.

(** Octal numbers, most significant digit first. *)
Definition octal_digits (s : str) : Prop := s <> [] /\ forall c, In c s -> (48 <= c <= 55)%N.
Fixpoint octal_value (s : str) : Z :=
  match s with
  | [] => 0
  | c :: t => (Z.of_N c - 48) * 8 ^ Z.of_nat (length t) + octal_value t
  end.

(** ** Strings *)
Definition StringTest (v t : str) (op : str) : Prop :=
  (op = $"=" /\ v = t) \/ (op = $":" /\ exists a b, v = a ++ t ++ b).
(** An upper-case letter (of Latin-1). *)
Definition upper_case (c : char) : Prop :=
  (65 <= c <= 90)%N \/ (192 <= c <= 222)%N /\ c <> 215%N.

(** ** File types *)
Inductive stands_for : str -> str -> Prop :=
| sf_d : stands_for ($"d") ($"directory")
| sf_directory : stands_for ($"directory") ($"directory")
| sf_f : stands_for ($"f") ($"file")
| sf_file : stands_for ($"file") ($"file")
| sf_l : stands_for ($"l") ($"symlink")
| sf_symlink : stands_for ($"symlink") ($"symlink")
| sf_s : stands_for ($"s") ($"socket")
| sf_socket : stands_for ($"socket") ($"socket")
| sf_p : stands_for ($"p") ($"fifo")
| sf_pipe : stands_for ($"pipe") ($"fifo")
| sf_fifo : stands_for ($"fifo") ($"fifo")
| sf_char : stands_for ($"char") ($"char")
| sf_block : stands_for ($"block") ($"block")
| sf_door : stands_for ($"door") ($"door")
| sf_port : stands_for ($"port") ($"port")
| sf_whiteout : stands_for ($"whiteout") ($"whiteout")
| sf_other : stands_for ($"other") ($"other").

(** ** Booleans: [lower_of u l] if l is u in lower case (ASCII letters) *)
Definition lower_of (u l : str) : Prop :=
  Forall2 (fun a b => a = b \/ (65 <= a <= 90 /\ b = a + 32)%N) u l.
Inductive yes_no : str -> bool -> Prop :=
| yn_true : yes_no ($"true") true
| yn_t : yes_no ($"t") true
| yn_1 : yes_no ($"1") true
| yn_yes : yes_no ($"yes") true
| yn_y : yes_no ($"y") true
| yn_on : yes_no ($"on") true
| yn_false : yes_no ($"false") false
| yn_f : yes_no ($"f") false
| yn_0 : yes_no ($"0") false
| yn_no : yes_no ($"no") false
| yn_n : yes_no ($"n") false
| yn_off : yes_no ($"off") false.
Definition boolean_text (s : str) (b : bool) : Prop := exists l, lower_of s l /\ yes_no l b.
