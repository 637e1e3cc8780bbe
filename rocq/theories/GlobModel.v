(** Model of class Glob, /repo/libff/ignore.py:33-139. *)
From Coq Require Import List NArith ZArith Bool.
From Verif Require Import Py Re.
Import ListNotations.

(** re.escape: the characters that get a backslash
    (CPython Lib/re/__init__.py, _special_chars_map). *)
Definition is_special (c : char) : bool :=
  existsb (N.eqb c) [40;41;91;93;123;125;63;42;43;45;124;94;36;92;46;38;126;35;32;9;10;13;11;12]%N.
Definition escape_c (c : char) : str := if is_special c then [92%N; c] else [c].
Definition re_escape (s : str) : str := flat_map escape_c s.

(** libff/ignore.py:92, the pattern of the split *)
Definition split_pattern : str := $"(/\*\*/|\*\*/|/\*\*|\*|\?|\[![^\]]+\]|\[[^\]]+\])".
Definition split_re : re :=
  Eval vm_compute in match compile false split_pattern with COk r => r | _ => Eps end.
Lemma split_re_ok : compile false split_pattern = COk split_re.
Proof. reflexivity. Qed.

(** libff/ignore.py:93-109, the translation of one part *)
Definition translate_part (part : str) : str :=
  if str_eqb part ($"/**/") then $"(?:/|/.+/)"
  else if str_eqb part ($"**/") then $"(?:.+/)?"
  else if str_eqb part ($"/**") then $"(?:/.+)?"
  else if str_eqb part ($"*") then $"[^/]*"
  else if str_eqb part ($"?") then $"[^/]"
  else if starts_with ($"[!") part then $"[^" ++ slice part (Some 2%Z) (Some (-1)%Z) ++ $"]"
  else if starts_with ($"[") part then $"[" ++ slice part (Some 1%Z) (Some (-1)%Z) ++ $"]"
  else re_escape part.

(** pattern.index("/") *)
Fixpoint index_c (c : char) (s : str) : option nat :=
  match s with
  | [] => None
  | x :: t => if N.eqb x c then Some 0 else option_map S (index_c c t)
  end.

Record glob := { g_regex : str; g_include : bool; g_anchored : bool; g_directory : bool }.

(** libff/ignore.py:52-111 Glob.translate *)
Definition translate (pattern : str) (path_pattern : bool) : glob :=
  let pattern := if starts_with ($"\#") pattern then tl pattern else pattern in
  let '(include, pattern) :=
    if starts_with ($"!") pattern then (false, tl pattern) else (true, pattern) in
  let pattern := if starts_with ($"\!") pattern then tl pattern else pattern in
  let '(anchored, pattern) :=
    if path_pattern then
      let anchored := match index_c SLASH pattern with
                      | Some i => Nat.ltb i (length pattern - 1)
                      | None => false
                      end in
      (anchored, if anchored then lstrip_p (N.eqb SLASH) pattern else pattern)
    else (false, pattern) in
  let '(directory, pattern) :=
    if ends_with ($"/") pattern then (true, removelast pattern) else (false, pattern) in
  {| g_regex := $"^" ++ concat (map translate_part (re_split split_re pattern)) ++ $"$";
     g_include := include; g_anchored := anchored; g_directory := directory |}.

(** libff/ignore.py:113-133 Glob.match with given basename and is_dir.  The
    regular expression is compiled on first use; [CErr] is re.error. *)
Definition glob_match (g : glob) (path basename : str) (is_dir : bool) : cres bool :=
  cbind (compile false (g_regex g)) (fun r =>
    let path := lstrip_p (N.eqb SLASH) path in
    COk (re_matches r (if g_anchored g then path else basename) && (negb (g_directory g) || is_dir))).
