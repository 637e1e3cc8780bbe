(** What it means that a list of patterns decides about an entry. *)
From Coq Require Import List NArith Bool.
From Verif Require Import Py Re ReJoin PathModel PathSpec GlobModel GlobSpec.
Import ListNotations.

(** [l] are the rules in order, each with what it says and whether it applies
    to the entry.  The last rule that applies decides; without one the answer
    is [d]. *)
Inductive Decided {A} (applies : A -> Prop) (d : option A) : list A -> option A -> Prop :=
| dec_none l : Forall (fun a => ~ applies a) l -> Decided applies d l d
| dec_last l a l' : applies a -> Forall (fun a => ~ applies a) l' -> Decided applies d (l ++ a :: l') (Some a).

(** Proper ancestors of the directory with the given components, outermost
    first. *)
Fixpoint inits {A} (l : list A) : list (list A) :=
  match l with
  | [] => []
  | x :: t => [] :: map (cons x) (inits t)
  end.
Definition abs_dir (comps : list str) : str := $"/" ++ join_with ($"/") comps.

(** The lines of an ignore file that are patterns: not blank, no comment. *)
Definition is_pattern (line : str) : bool :=
  match line with [] => false | c :: _ => negb (N.eqb c 35) end.
Definition pattern_lines (lines : list str) : list str := filter is_pattern (map strip lines).

(** A rule is an ignore file (directory and path) with one of its patterns. *)
Definition rule := (str * str * str)%type.
Definition file := (str * str * list str)%type.
Definition file_rules (f : file) : list rule :=
  let '(d, n, lines) := f in map (fun p => (d, join d n, p)) (pattern_lines lines).
(** The rest of the path of the entry after the directory of the file. *)
Definition relpath (path dirname : str) : str := skipn (length dirname) path.
Definition rule_applies (path name : str) (is_dir : bool) (r : rule) : Prop :=
  let '(d, _, p) := r in glob_match (translate p true) (relpath path d) name is_dir = COk true.
Definition answer (v : option rule) : bool * option str :=
  match v with
  | Some (_, f, p) => if g_include (translate p true) then (true, Some f) else (false, None)
  | None => (false, None)
  end.
(** Patterns whose regular expression compiles (and has no capturing groups,
    which only malformed sets like []](a)b] can produce). *)
Definition valid (g : glob) : Prop := exists r, compiles false (g_regex g) r.
Definition rule_valid (r : rule) : Prop := let '(_, _, p) := r in valid (translate p true).

(** The rules of the ignore file with the given path; none if it cannot be read. *)
Definition path_rules (read : str -> option (list str)) (p : str) : list rule :=
  match read p with
  | None => []
  | Some lines => file_rules (fst (split p), snd (split p), lines)
  end.
Definition absolute (p : str) : Prop := exists t, p = SLASH :: t.

(** Ordinary names of files and directories, and the path of a file in a
    directory given by its components. *)
Definition plain_name (n : str) : Prop := name_ok n /\ n <> $"." /\ n <> $"..".
Definition file_in (d : list str) (name : str) : str := abs_dir (d ++ [name]).
(** The files that exist in the proper ancestors of a directory. *)
Definition ancestor_file (exists_ : str -> bool) (files : list str) (comps : list str) (p : str) : Prop :=
  exists d name, In d (inits comps) /\ In name files /\ p = file_in d name /\ exists_ p = true.

(** * Ignore files in a tree of directories *)
Definition well_formed (p : pattern) : Prop := starts_plain p /\ (for_path p \/ exists l, for_name p l).
(** The line is neither blank nor a comment and has no blanks around it. *)
Definition line_ok (s : str) : Prop := strip s = s /\ is_pattern s = true.
(** A pattern of a file applies to the entry with the components [r] below
    the directory of the file. *)
Inductive Applies (p : pattern) (r : list str) (is_dir : bool) : Prop :=
| ap_name l : for_name p l -> NameMatch l (last r []) -> (p_directory p = true -> is_dir = true) -> Applies p r is_dir
| ap_path : for_path p -> PathMatch (p_elems p) r -> (p_directory p = true -> is_dir = true) -> Applies p r is_dir.

(** An ignore file: the components of its directory, its name and its patterns. *)
Definition tree_file := (list str * str * list pattern)%type.
Definition tree_rule := (list str * str * pattern)%type.
Definition tree_rules (f : tree_file) : list tree_rule := let '(d, n, ps) := f in map (fun p => (d, n, p)) ps.
Definition rule_at (e : list str) (is_dir : bool) (r : tree_rule) : Prop :=
  let '(d, _, p) := r in exists below, e = d ++ below /\ Applies p below is_dir.
Definition tree_answer (v : option tree_rule) : bool * option str :=
  match v with
  | Some (d, n, p) => if p_negated p then (false, None) else (true, Some (abs_dir (d ++ [n])))
  | None => (false, None)
  end.
Definition tree_file_ok (e : list str) (f : tree_file) : Prop :=
  let '(d, n, ps) := f in
  (exists below, e = d ++ below /\ below <> []) /\ name_ok n /\
  Forall (fun p => well_formed p /\ line_ok (pattern_text p)) ps.
Definition tree_component (n : str) : Prop := entry_name n /\ n <> $"." /\ n <> $"..".
Definition text_file (f : tree_file) : file := let '(d, n, ps) := f in (abs_dir d, n, map pattern_text ps).

