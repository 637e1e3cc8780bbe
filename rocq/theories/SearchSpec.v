(** What a search should report, in terms of the directory tree and of what is
    written on the command line. *)
From Coq Require Import List NArith ZArith Bool.
From Verif Require Import Py ExprSpec PathSpec EntrySpec GrammarSpec GlobSpec TypeSpec ArgumentsSpec.
From Verif Require Import PathModel EntryModel TypeModel RegistryModel TestModel TestProofs RefProofs ArgumentsModel SearchModel.
Import ListNotations.
Local Open Scope Z_scope.

(** ** Single tests *)
Section Tests.
  Variable R : Type.
  Variable rcompile : str -> res R.
  Variable rsearch : R -> str -> bool.
  Variable parse_time : str -> res Z.
  Variable debug : bool.
  Variable case : case_mode.

  (** Upper and lower case are not distinguished. *)
  Definition folding (v : str) : Prop :=
    case = CaseIgnore \/ (case = CaseSmart /\ forall c, In c v -> ~ upper_case c).
  Inductive Folded (v : str) (x : str) : str -> Prop :=
  | folded_yes : folding v -> Folded v x (lower x)
  | folded_no : ~ folding v -> Folded v x x.
  (** A pattern for names; Python's $ also matches before a newline at the
      end. *)
  Definition GlobMatch (l : list item) (x : str) : Prop := exists y, NameMatch l y /\ (x = y \/ x = y ++ [NL]).
  Definition name_glob (p : pattern) (l : list item) : Prop :=
    for_name p l /\ starts_plain p /\ p_directory p = false.

  (** The test with operator o and value v is true of an attribute value.
      (Patterns with % are those for strings, without slashes.) *)
  Inductive Sat : ty -> str -> str -> value -> Prop :=
  | sat_number t o v n k : In t [TNumber; TSize; TTime; TDuration] -> input parse_time debug t v = Ok (VInt n) ->
      Compare k n o -> Sat t o v (VInt k)
  | sat_mode o v n k : parse_mode v = Ok n -> ModeTest k n o -> Sat TMode o v (VInt k)
  | sat_string t o v x x' v' : In t [TString; TPath] -> Folded v x x' -> Folded v v v' -> StringTest x' v' o ->
      Sat t o v (VStr x)
  | sat_regex t v x x' v' r : In t [TString; TPath] -> Folded v x x' -> Folded v v v' ->
      rcompile v' = Ok r -> rsearch r x' = true -> Sat t ($"~") v (VStr x)
  | sat_glob v x x' v' p l : Folded v x x' -> Folded v v v' -> v' = pattern_text p -> name_glob p l ->
      (if p_negated p then ~ GlobMatch l x' else GlobMatch l x') -> Sat TString ($"%") v (VStr x)
  | sat_list o v x l : In x l -> Sat TString o v (VStr x) -> Sat TListOfStrings o v (VList l)
  | sat_type v y : stands_for v y -> Sat TFileType ($"=") v (VStr y)
  | sat_boolean v b : boolean_text v b -> Sat TBoolean ($"=") v (VBool b).

  (** The tests that can be made *)
  Inductive Sensible : ty -> str -> str -> Prop :=
  | sen_number t o v n : In t [TNumber; TSize; TTime; TDuration] -> In o [$"="; $"+="; $"-="; $"+"; $"-"] ->
      input parse_time debug t v = Ok (VInt n) -> Sensible t o v
  | sen_mode o v n : In o [$"="; $":"; $"~"] -> parse_mode v = Ok n -> Sensible TMode o v
  | sen_string t o v : In t [TString; TPath; TListOfStrings] -> In o [$"="; $":"] -> Sensible t o v
  | sen_regex t v v' r : In t [TString; TPath; TListOfStrings] -> Folded v v v' -> rcompile v' = Ok r -> Sensible t ($"~") v
  | sen_glob t v v' p l : In t [TString; TListOfStrings] -> Folded v v v' -> v' = pattern_text p -> name_glob p l ->
      Sensible t ($"%") v
  | sen_type v y : stands_for v y -> Sensible TFileType ($"=") v
  | sen_boolean v b : boolean_text v b -> Sensible TBoolean ($"=") v.

  (** Values of a type *)
  Definition of_type (t : ty) (x : value) : Prop :=
    match t, x with
    | (TString | TPath | TFileType), VStr _ | TListOfStrings, VList _
    | (TNumber | TSize | TTime | TDuration | TMode), VInt _ | TBoolean, VBool _ => True
    | _, _ => False
    end.

  (** A pattern for paths: for the whole path, or without a slash for the name
      of the entry; with one at the end it is only for directories.  As for
      names, a newline at the end does not count. *)
  Definition path_glob (p : pattern) : Prop := starts_plain p /\ (path_form p \/ exists l, for_name p l).
  Definition PathGlob (p : pattern) (path name type : str) : Prop :=
    ((path_form p /\ exists k x y, path = repeat SLASH k ++ x /\ (forall z, x <> SLASH :: z) /\
        TextMatch (p_elems p) y /\ (x = y \/ x = y ++ [NL])) \/
     (exists l, for_name p l /\ GlobMatch l name)) /\
    (p_directory p = true -> type = $"directory").
  (** The test is true of something with these attributes, if x is the one that
      is tested. *)
  Inductive Meets (attribute : str * str -> option value) : ty -> str -> str -> value -> Prop :=
  | meets_sat t o v x : Sat t o v x -> Meets attribute t o v x
  | meets_path v v' p x x' n n' k : attribute ($"file", $"name") = Some (VStr n) -> attribute ($"file", $"type") = Some (VStr k) ->
      Folded v v v' -> Folded v x x' -> Folded v n n' -> v' = pattern_text p -> path_glob p ->
      (if p_negated p then ~ PathGlob p x' n' k else PathGlob p x' n' k) -> Meets attribute TPath ($"%") v (VStr x).
  Inductive Testable : ty -> str -> str -> Prop :=
  | testable_sensible t o v : Sensible t o v -> Testable t o v
  | testable_path v v' p : Folded v v v' -> v' = pattern_text p -> path_glob p -> Testable TPath ($"%") v.
  (** The same for the value of another file instead of a text *)
  Definition MeetsValue (attribute : str * str -> option value) (t : ty) (o : str) (w x : value) : Prop :=
    match w with
    | VStr s => Meets attribute t o s x
    | VInt n => exists k, x = VInt k /\ (if match t with TMode => true | _ => false end then ModeTest k n o else Compare k n o)
    | VBool b => x = VBool b
    | VList _ => False
    end.
  Definition TestableValue (t : ty) (o : str) (w : value) : Prop :=
    match w with
    | VStr s => In t [TString; TPath; TListOfStrings; TFileType] /\ Testable t o s
    | VInt _ => (In t [TNumber; TSize; TTime; TDuration] /\ In o [$"="; $"+="; $"-="; $"+"; $"-"]) \/
                (t = TMode /\ In o [$"="; $":"; $"~"])
    | VBool _ => t = TBoolean /\ o = $"="
    | VList _ => False
    end.

  Variable registered : list plugin.
  Variable init_plugin : str -> res unit.
  (** The value of an attribute of another file *)
  Variable reference_value : str * str -> str -> res value.
  (** {attribute}path in a test of the attribute at_ means the value w. *)
  Definition Stands (at_ : str * str) (t : ty) (r path : str) (w : value) : Prop :=
    exists ref rt, refers registered init_plugin r at_ t ref rt /\ comparable t rt /\ reference_value ref path = Ok w.
  (** The text s is a test that can be made. *)
  Definition Legal (s : str) : Prop :=
    exists a o r v at_ t, Writes s a o r v /\ resolves registered init_plugin a at_ t /\
      match r with
      | None => Testable t o v
      | Some r => exists w, Stands at_ t r v w /\ TestableValue t o w
      end.
  (** The test s is true of something with these attributes. *)
  Definition Holds (attribute : str * str -> option value) (s : str) : Prop :=
    exists a o r v at_ t x, Writes s a o r v /\ resolves registered init_plugin a at_ t /\ attribute at_ = Some x /\
      match r with
      | None => Meets attribute t o v x
      | Some r => exists w, Stands at_ t r v w /\ MeetsValue attribute t o w x
      end.
End Tests.

(** ** Expressions: the meaning of [denote], with propositions *)
Fixpoint True_of (P : str -> Prop) (e : bexp) : Prop :=
  match e with
  | BTest t => P t
  | BGroup n alts =>
      let any := (fix any l := match l with
                   | [] => False
                   | es :: l => (fix all l := match l with [] => True | e :: l => True_of P e /\ all l end) es \/ any l
                   end) alts in
      if n then ~ any else any
  end.
(** One of the alternatives is true. *)
Definition Satisfied (P : str -> Prop) (alts : list (list bexp)) : Prop := True_of P (BGroup false alts).

(** ** The directory tree *)
(** Names are not empty, have no slash, and are different in a directory. *)
Inductive valid : list file -> Prop :=
| valid_intro l : NoDup (map f_name l) -> Forall (fun f => name_ok (f_name f)) l ->
    (forall f, In f l -> valid (f_kids f)) -> valid l.
Definition directory (st : status) : Prop := format_name ((st_mode st / 4096) mod 16) = $"directory".
(** [Place l names f]: from the directory with contents l one gets to f through
    these names. *)
Inductive Place (l : list file) : list str -> file -> Prop :=
| place_here f : In f l -> Place l [f_name f] f
| place_below names d f : Place l names d -> directory (f_status d) -> In f (f_kids d) -> Place l (names ++ [f_name f]) f.

(** ** The search *)
Section Search.
  Variable R : Type.
  Variable rcompile : str -> res R.
  Variable rsearch : R -> str -> bool.
  Variable parse_time : str -> res Z.
  Variable debug : bool.
  Variable case : case_mode.
  Variable registered : list plugin.
  Variable init_plugin : str -> res unit.
  Variable reference_value : str * str -> str -> res value.
  Variable other : entry -> str -> option value.
  Variable plugin_value : entry -> str * str -> option value.
  Variable cwd : str.
  Variable device : str -> Z.
  Variable listing : str -> list file.
  Notation Holds e s := (Holds R rcompile rsearch parse_time debug case registered init_plugin reference_value (attribute_value other plugin_value e) s).

  Definition ranges (a : pargs) : list (Z * option Z) := match a_depth a with Some l => l | None => [] end.
  (** The entry e, at the end of names, is excluded: by -e, -I, -H,
      --one-file-system, or because it is below all levels to be shown. *)
  Definition Excluded (a : pargs) (names : list str) (e : entry) : Prop :=
    (exists s, In s (a_exclude a) /\ Holds e s) \/
    (a_ignore a = true /\ Holds e ($"ignored=yes")) \/
    (a_one_file_system a = true /\ st_dev (e_status e) <> start_dev (e_start e)) \/
    (a_hide a = true /\ dotted (last names [])) \/
    (ranges a <> [] /\ bounded (ranges a) /\ beyond (ranges a) (Z.of_nat (length names) - 1)).
  (** Paths are absolute with -A, and with --json in one of its forms. *)
  Definition absolute_paths (a : pargs) : bool :=
    a_absolute_path a || match a_json a with Some (_ :: _) => true | _ => false end.
  Definition contents (a : pargs) (d : str) : list file := listing (start_path cwd (absolute_paths a) d).
  (** e is the entry of f. *)
  Definition entry_at (a : pargs) (d : str) (names : list str) (f : file) (e : entry) : Prop :=
    mk_entry (start_dir cwd device (absolute_paths a) d) (walk_relpath names) (f_status f) = Ok e.
  (** e is to be reported by a search with the arguments a, where ess is the
      meaning of the tests. *)
  Definition Reported (a : pargs) (ess : list (list bexp)) (e : entry) : Prop :=
    exists d names f, In d (a_directories a) /\ Place (contents a d) names f /\ entry_at a d names f e /\
      (* neither it nor a directory on the way is excluded *)
      (forall k l g e', names = k ++ l -> k <> [] -> Place (contents a d) k g -> entry_at a d k g e' ->
         ~ Excluded a k e') /\
      (ranges a <> [] -> in_ranges (ranges a) (Z.of_nat (length names) - 1)) /\
      Satisfied (fun s => Holds e s) ess.
  (** What is assumed of the plugins, the arguments and the directories *)
  Notation Legal := (Legal R rcompile parse_time debug case registered init_plugin reference_value).
  (** The plugins provide values of the types they declare. *)
  Definition honest : Prop :=
    find_plugin registered ($"file") = Some file_plugin /\ init_plugin ($"file") = Ok tt /\
    (forall e n t x, find_attr n file_plugin = Some t -> other e n = Some x -> of_type t x) /\
    (forall e at_ t x, fst at_ <> $"file" -> get_attribute_type registered at_ = Ok t -> plugin_value e at_ = Some x -> of_type t x).
  (** The arguments make sense; ess is the meaning of the tests. *)
  Definition sensible_args (a : pargs) (ess : list (list bexp)) : Prop :=
    Expression (a_tests a) ess /\ (forall t, In t (a_tests a) -> is_test t -> Legal t) /\
    Forall natural_range (ranges a) /\ (ranges a = [] \/ a_tests a = [] \/ no_empty ess) /\
    Forall (fun t => is_test t /\ Legal t) (a_exclude a) /\ (a_ignore a = true -> Legal ($"ignored=yes")).
  (** The directories exist and are real ones. *)
  Definition real_directories (a : pargs) : Prop :=
    forall d, In d (a_directories a) -> start_path cwd (absolute_paths a) d <> [] /\ valid (contents a d).
End Search.
