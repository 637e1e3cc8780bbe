(** Model of class GitIgnore (/repo/libff/ignore.py:142-220), of the ignore
    plugin (/repo/libff/builtin/ignore.py:47-86), and of the way the lists of
    ignore files come about (/repo/libff/walk.py:139-180,
    /repo/libff/main.py:153-167). *)
From Coq Require Import List NArith ZArith Bool.
From Verif Require Import Py Re PathModel OsPath GlobModel.
Import ListNotations.

(** libff/ignore.py:29, 135-139 GroupKey *)
Record key := Key { k_include : bool; k_anchored : bool; k_directory : bool }.
Definition get_group_key (g : glob) : key := Key (g_include g) (g_anchored g) (g_directory g).
Definition key_eqb (a b : key) : bool :=
  Bool.eqb (k_include a) (k_include b) && Bool.eqb (k_anchored a) (k_anchored b) &&
  Bool.eqb (k_directory a) (k_directory b).

(** libff/ignore.py:182-186: the patterns of the lines *)
Definition line_globs (lines : list str) : list glob :=
  flat_map (fun line =>
    let pattern := strip line in
    match pattern with
    | [] => []
    | _ => if starts_with ($"#") pattern then [] else [translate pattern true]
    end) lines.

(** libff/ignore.py:180-192: the loop that builds the groups; [groups] is
    self.patterns in reverse order, each with its patterns in reverse order,
    so the head is the group that is being filled. *)
Fixpoint group_loop (ps : list glob) (groups : list (key * list glob)) : list (key * list glob) :=
  match ps with
  | [] => groups
  | p :: t =>
      match groups with
      | (k, patterns) :: groups' =>
          if negb (key_eqb (get_group_key p) k)
          then group_loop t ((get_group_key p, [p]) :: groups)
          else group_loop t ((k, p :: patterns) :: groups')
      | [] => group_loop t [(get_group_key p, [p])]
      end
  end.
Definition groups_of (ps : list glob) : list (key * list glob) :=
  rev (map (fun '(k, l) => (k, rev l)) (group_loop ps [])).

Record gitignore := { gi_dirname : str; gi_path : str; gi_patterns : list (key * re) }.

(** libff/ignore.py:194-196: one regular expression for each group *)
Fixpoint compile_groups (gs : list (key * list glob)) : cres (list (key * re)) :=
  match gs with
  | [] => COk []
  | (k, ps) :: t =>
      cbind (compile false (join_with ($"|") (map g_regex ps))) (fun r =>
        cbind (compile_groups t) (fun l => COk ((k, r) :: l)))
  end.
(** libff/ignore.py:164-196 GitIgnore.__init__; [lines] is the content of the
    file.  [CErr] is an uncaught re.error. *)
Definition new_gitignore (dirname name : str) (lines : list str) : cres gitignore :=
  let dirname := match dirname with [] => $"/" | _ => dirname end in
  cbind (compile_groups (groups_of (line_globs lines))) (fun l =>
    COk {| gi_dirname := dirname; gi_path := join dirname name; gi_patterns := l |}).

(** libff/ignore.py:211-220: one ignore file *)
Definition match_file (path name : str) (is_dir : bool) (st : bool * option str) (ig : gitignore) : bool * option str :=
  let relpath := lstrip_p (N.eqb SLASH) (slice path (Some (Z.of_nat (length (gi_dirname ig)))) None) in
  fold_left (fun '(exclude, ignore_path) '(k, r) =>
    if k_directory k && negb is_dir then (exclude, ignore_path)
    else if re_matches r (if k_anchored k then relpath else name)
         then (k_include k, Some (gi_path ig))
         else (exclude, ignore_path)) (gi_patterns ig) st.
(** libff/ignore.py:200-220 GitIgnore.match *)
Definition git_match (ignores : list gitignore) (path name : str) (is_dir : bool) : bool * option str :=
  let '(exclude, ignore_path) := fold_left (match_file path name is_dir) ignores (false, None) in
  (exclude, if exclude then ignore_path else None).

(** libff/builtin/ignore.py:47-73 Ignore.get_ignores without its caches;
    [read] gives the lines of a file, None if opening it raises OSError (such
    files are skipped with a warning). *)
Fixpoint get_ignores (read : str -> option (list str)) (paths : list str) : cres (list gitignore) :=
  match paths with
  | [] => COk []
  | p :: t =>
      match read p with
      | None => get_ignores read t
      | Some lines =>
          cbind (let '(d, n) := split p in new_gitignore d n lines) (fun g =>
            cbind (get_ignores read t) (fun l => COk (g :: l)))
      end
  end.
(** libff/builtin/ignore.py:75-86: the attributes ignored and ignore.path *)
Definition is_ignored (read : str -> option (list str)) (ignore_paths : list str)
  (abspath name : str) (is_dir : bool) : cres (bool * option str) :=
  match ignore_paths with
  | [] => COk (false, None)
  | _ => cbind (get_ignores read ignore_paths) (fun l => COk (git_match l abspath name is_dir))
  end.

(** libff/walk.py:139-169: the list of ignore files that all entries of one
    directory share.  [names] is the listing of the directory, [absdir] the
    absolute path of the directory. *)
Definition scan_ignore_paths (ignore_files : list str) (parent_paths : list str) (absdir : str)
  (names : list str) : list str :=
  parent_paths ++
  map (fun n => join absdir n) (filter (fun n => existsb (str_eqb n) ignore_files) names).

(** libff/ignore.py:150-162 from_parent_directories; [exists_] is
    os.path.exists, [cwd] the current directory.  [ignore_files] is a set in
    the code; the list gives its iteration order. *)
Fixpoint parents_loop (exists_ : str -> bool) (ignore_files : list str) (parent : str)
  (parts : list str) : list str :=
  match parts with
  | [] => []
  | part :: t =>
      let parent := join parent part in
      filter exists_ (map (fun name => join parent name) ignore_files) ++
      parents_loop exists_ ignore_files parent t
  end.
Definition from_parent_directories (exists_ : str -> bool) (cwd : str) (ignore_files : list str)
  (path : str) : list str :=
  parents_loop exists_ ignore_files ($"/") (split_on SLASH (dirname (abspath cwd path))).
(** libff/main.py:153-167: the ignore files for a start directory *)
Definition start_ignores (exists_ : str -> bool) (cwd : str) (ignore_files : list str)
  (ignore no_parent_ignore absolute_path : bool) (path : str) : list str :=
  let path := if absolute_path then abspath cwd path else path in
  if no_parent_ignore then []
  else if ignore then from_parent_directories exists_ cwd ignore_files (dirname path)
  else [].
