(** Model of how the data of a plugin are asked for (libff/registry.py:218-284)
    and of some plugins: grep, shebang, py, pacman, tar, mime and the hash sums.
    What they get from outside (contents of files, output of programs, results of
    libraries) are arguments. *)
From Coq Require Import List NArith ZArith Bool.
From Verif Require Import Py PathSpec TypeModel CountModel GitModel SortLib StrOrder.
Import ListNotations.

(** * Data *)

(** What plugins raise: NoData, NotImplementedError, any other exception *)
Inductive raised := NoData | NotImplemented | Unhandled.
Inductive out (A : Type) := Val (a : A) | Raise (r : raised).
Arguments Val {A} a.
Arguments Raise {A} r.
(** dict() of key-value pairs *)
Definition pairs := list (str * value).
Definition make_dict (l : pairs) : pairs := fold_left (fun d kv => dict_set str_eqb (fst kv) (snd kv) d) l [].

(** A plugin, applied to an entry.  [p_cached]: None without use_cache. *)
Record run (C : Type) := Run { p_handles : out bool; p_cached : option (out C); p_process : option C -> out pairs }.
Arguments Run {C} p_handles p_cached p_process.
Arguments p_handles {C} r.
Arguments p_cached {C} r.
Arguments p_process {C} r.

Section Data.
  Context {C : Type}.
  (** libff/registry.py:234-273 without the cache, which is in CacheModel, and
      without the check of types. *)
  Definition get_data_from_plugin (p : run C) : out pairs :=
    match p_handles p with
    | Raise r => Raise r
    | Val false => Val []
    | Val true =>
        match p_cached p with
        | None => match p_process p None with Val l => Val (make_dict l) | Raise r => Raise r end
        | Some (Raise NoData) => Val []
        | Some (Raise r) => Raise r
        | Some (Val c) => match p_process p (Some c) with Val l => Val (make_dict l) | Raise r => Raise r end
        end
    end.
  (** libff/registry.py:218-232; PluginErr is BadPluginError *)
  Definition get_data (p : run C) : res pairs :=
    match get_data_from_plugin p with
    | Val d => Ok d
    | Raise NoData => Ok []
    | Raise _ => Err PluginErr
    end.
  (** libff/registry.py:275-284 *)
  Definition get_value (p : run C) (n : str) : res value :=
    do d <- get_data p;
    match dict_get str_eqb n d with Some v => Ok v | None => Err KeyErr end.
End Data.

(** * Text *)
Notation CR := (13%N : char) (only parsing).
Notation LF := (10%N : char) (only parsing).
(** Universal newlines: open() with newline=None *)
Fixpoint translate (s : str) : str :=
  match s with
  | [] => []
  | c :: s' =>
      if N.eqb c CR then
        match s' with
        | d :: s'' => if N.eqb d LF then LF :: translate s'' else LF :: translate s'
        | [] => [LF]
        end
      else c :: translate s'
  end.
(** readlines: the lines keep their newline. *)
Fixpoint readlines (s : str) : list str :=
  match s with
  | [] => []
  | c :: s =>
      if N.eqb c LF then [LF] :: readlines s
      else match readlines s with [] => [[c]] | l :: ls => (c :: l) :: ls end
  end.

(** libff/builtin/grep.py:35-51.  What open and reading give: OSError, bytes
    that cannot be decoded, or decoded text before the translation of newlines *)
Inductive reading := ReadError | Undecodable | Decoded (s : str).
Definition grep (is_file : bool) (r : reading) : run unit :=
  Run (Val is_file) None (fun _ =>
    match r with
    | ReadError => Raise NoData
    | Undecodable => Val [($"text", VBool false)]
    | Decoded s =>
        let lines := readlines (translate s) in
        Val [($"text", VBool true); ($"linecount", VInt (Z.of_nat (length lines))); ($"lines", VList lines)]
    end).

(** * Scripts *)

(** bytes.decode("ascii") *)
Definition ascii (s : str) : option str := if forallb (fun c => c <? 128)%N s then Some s else None.
(** plugins/introspect.py:91-103: the lines of the file (bytes), None: OSError *)
Fixpoint first_shebang (lines : list str) : option str :=
  match lines with
  | [] => None
  | line :: lines =>
      if starts_with ($"#!") line then option_map (rstrip_p is_space) (ascii (skipn 2 line)) else first_shebang lines
  end.
Definition extract_shebang (contents : option str) : option str :=
  match contents with None => None | Some s => first_shebang (readlines s) end.
(** plugins/introspect.py:105-111 *)
Definition shebang (is_file : bool) (contents : option str) : run unit :=
  Run (Val is_file) None (fun _ => Val match extract_shebang contents with Some s => [($"shebang", VStr s)] | None => [] end).

(** The nodes of a syntax tree that matter: "import a.b, c" and
    "from ..m import x" (None: "from . import x") *)
Inductive node := Import (names : list str) | ImportFrom (module : option str) (level : nat).
(** plugins/introspect.py:134-138 *)
Fixpoint relative_parts (level : nat) (dirname : str) (parts : list str) : list str :=
  match level with
  | O => parts
  | S level => let (dirname, basename) := os_split dirname in relative_parts level dirname (basename :: parts)
  end.
(** plugins/introspect.py:130-144 *)
Definition imports_of (dir : str) (n : node) : list str :=
  match n with
  | ImportFrom None _ => []
  | ImportFrom (Some m) level => if Nat.ltb 0 level then [join_with ($".") (relative_parts level dir [m])] else [m]
  | Import (name :: _) => [name]
  | Import [] => []   (* the grammar has no such statement *)
  end.
(** What reading and parsing give: an exception that is caught (OSError,
    SyntaxError, UnicodeDecodeError), another one, or the nodes *)
Inductive parsing := Caught | Uncaught | Parsed (nodes : list node).
(** plugins/introspect.py:146-156 *)
Definition py (ext dir : str) (contents : option str) (p : parsing) : run unit :=
  Run (Val (str_eqb (lower ext) ($"py") || match extract_shebang contents with Some s => is_sub ($"python") s | None => false end))
    None (fun _ =>
      match p with
      | Caught => Raise NoData
      | Uncaught => Raise Unhandled
      | Parsed nodes => Val [($"imports", VList (isort str_leb (flat_map (imports_of dir) nodes)))]
      end).

(** * Packages *)

(** plugins/pacman.py:38-47: the lines of "pacman -Ql", in their order *)
Fixpoint package_files (lines : list str) : res (list (str * str)) :=
  match lines with
  | [] => Ok []
  | line :: lines =>
      do x <- split_once (strip line);
      do l <- package_files lines;
      Ok ((fst x, rstrip_p (N.eqb SLASH) (snd x)) :: l)
  end.
(** setdefault(pkgname, set()).add(path): packages in the order of their first
    line *)
Fixpoint packages (l : list (str * str)) (d : list (str * list str)) : list (str * list str) :=
  match l with
  | [] => d
  | (pkg, path) :: l => packages l (dict_set str_eqb pkg (path :: match dict_get str_eqb pkg d with Some s => s | None => [] end) d)
  end.
(** plugins/pacman.py:49-59 *)
Definition pacman (files : list (str * str)) (path : str) : run unit :=
  Run (Val true) None (fun _ => Val
    (if str_in path (map snd files) then
       ($"installed", VBool true) ::
       flat_map (fun p => if str_in path (snd p) then [($"pkgname", VStr (fst p))] else []) (packages files [])
     else [($"installed", VBool false)])).

(** * Other libraries *)

(** plugins/tar.py:41-59: what tarfile.open and getnames give; tarfile.ReadError
    is not an OSError.  The elements of a set come in some order. *)
Inductive archive := Members (l : list str) | TarOSError | TarEOFError | TarReadError.
Definition tar_extensions : list str :=
  [$".tar"; $".tar.gz"; $".taz"; $".tgz"; $".tpz"; $".tar.bz2"; $".tb2"; $".tbz"; $".tbz2"; $".tz2"; $".tar.lz"; $".tar.lzma"; $".tlz";
   $".tar.xz"; $".txz"].
Definition tar (name : str) (a : archive) : run (list str) :=
  Run (Val (existsb (fun x => ends_with x name) tar_extensions))
    (Some match a with
          | Members l => Val (nodup str_eq_dec l)
          | TarOSError | TarEOFError => Raise NoData
          | TarReadError => Raise Unhandled
          end)
    (fun c => match c with Some l => Val [($"members", VList l)] | None => Raise Unhandled end).

(** libff/builtin/mime.py:50-68: what libmagic says: the type, the encoding and
    a text; None: OSError or ValueError *)
Definition mime (is_file : bool) (detected : option (str * str * str)) : run (str * str * str) :=
  Run (Val is_file) (Some match detected with Some d => Val d | None => Raise NoData end)
    (fun c => match c with
     | None => Raise Unhandled
     | Some (m, encoding, name) =>
         (* mime.split("/", 1); [1] raises IndexError *)
         match split_on SLASH m with
         | t :: p :: rest =>
             Val [($"mime", VStr m); ($"type", VStr t); ($"subtype", VStr (join_with ($"/") (p :: rest))); ($"encoding", VStr encoding); ($"name", VStr name)]
         | _ => Raise Unhandled
         end
     end).

(** plugins/hash.py:32-46; [hexdigest] is None if it needs a length (shake_128,
    shake_256), a TypeError. *)
Section Hash.
  Variable S : Type.
  Variable start : S.
  Variable update : S -> str -> S.
  Variable hexdigest : option (S -> str).
  Definition buffer : nat := N.to_nat 8192.
  (** fobj.read(8192) until nothing is left; each turn takes something, so that
      the length is enough fuel. *)
  Fixpoint read_loop (fuel : nat) (s : S) (contents : str) : option S :=
    match fuel with
    | O => None
    | Datatypes.S fuel =>
        match firstn buffer contents with
        | [] => Some s
        | buf => read_loop fuel (update s buf) (skipn buffer contents)
        end
    end.
  Definition hash (name : str) (is_file : bool) (contents : option str) : run str :=
    Run (Val is_file)
      (Some match contents with
            | None => Raise NoData
            | Some s =>
                match read_loop (Datatypes.S (length s)) start s, hexdigest with
                | Some h, Some f => Val (f h)
                | _, _ => Raise Unhandled
                end
            end)
      (fun c => match c with Some h => Val [(name, VStr h)] | None => Raise Unhandled end).
End Hash.
