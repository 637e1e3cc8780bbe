(** A small world for the examples of C65: the plugins file, ignore and sum;
    sum has a cache.  The world is whether a plugin file is broken, whether
    setup() of sum succeeds, and the lines of the ignore file. *)
From Coq Require Import List NArith ZArith Bool.
From Verif Require Import Py Re TypeModel RegistryModel IgnoreModel CacheModel CacheSpec CacheProofs ApiModel ApiSpec ApiProofs.
Import ListNotations.

Record world := World { broken : bool; works : bool; lines : list str }.
Definition xmodules (w : world) : list module :=
  [([APlugin (Plugin ($"file") [($"path", TPath); ($"size", TSize)]) false 0], true);
   ([APlugin (Plugin ($"ignore") [($"ignored", TBoolean)]) false 1], true);
   (if broken w then [] else [APlugin (Plugin ($"sum") [($"sum", TString)]) true 7], negb (broken w))].
Definition xsetup (w : world) (n : str) : bool := negb (str_eqb n ($"sum")) || works w.
Definition xnew (n : str) : ignore_object := IgnoreObject [] [].
Definition xhandle (w : world) (n : str) (e : str) : bool := true.
Definition xread (w : world) (path : str) : option (list str) := Some (lines w).
(** values: strings *)
Definition xprocess (w : world) (n : str) (i : ignore_object) (e : str) : option (list (str * str)) * ignore_object :=
  if str_eqb n ($"ignore") then
    let (r, i) := get_ignores_cached (xread w) [$"/d/.gitignore"] i in
    (match r with COk l => Some [($"ignored", if fst (git_match l ($"/d/" ++ e) e false) then $"yes" else $"no")] | _ => None end, i)
  else (Some [($"sum", $"sum of " ++ e)], i).
Definition xfile (w : world) (e n : str) : option str := if str_eqb n ($"path") then Some e else None.
Notation xfind := (find_query xmodules xsetup xnew xhandle xprocess xfile true).
Notation xafter := (after xmodules xsetup xnew xhandle xprocess xfile true).
Definition xquery (cache : option str) (output : list str) : query str str :=
  Query cache output [] [] (Decide true) (map snd) [[$"a.o"; $"b"]].
Definition xworld := World false true [$"*.o"].

Lemma xunnoticed w : unnoticed (xprocess w) xnew (fun _ o => ignore_inv (xread w) o).
Proof.
  assert (N : ignore_inv (xread w) (IgnoreObject [] [])) by (split; cbn; discriminate).
  split; [intros; exact N|]. intros n i e H. unfold xprocess. destruct (str_eqb n ($"ignore")); [|now split].
  destruct (get_ignores_cached_ok (xread w) [$"/d/.gitignore"] i H) as [F S].
  destruct (get_ignores_cached_ok (xread w) [$"/d/.gitignore"] (IgnoreObject [] []) N) as [F' S']. unfold xnew.
  destruct (get_ignores_cached _ _ i) as [r j]. destruct (get_ignores_cached _ _ (IgnoreObject [] [])) as [r' j']. cbn [fst snd] in *. subst. now split.
Qed.
Lemma xapart w : apart (fst (load_modules [] (xmodules w))).
Proof.
  assert (H : forall p, In p (fst (load_modules [] (xmodules w))) -> forallb simple (a_name p) = true /\ (a_cached p = true -> a_name p = $"sum")).
  { intros p. unfold xmodules. destruct (broken w); cbn; intros H; repeat (destruct H as [<-|H]; [split; [reflexivity|intros; try reflexivity; discriminate]|]); destruct H. }
  split; [intros p P; apply (H p P)|]. intros p p' P P' C C' N. exfalso. apply N. transitivity ($"sum"); [apply (H p P), C|symmetry; apply (H p' P'), C'].
Qed.
