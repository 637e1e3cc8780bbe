(** Property C134: Find leaves the query of the caller as it is. *)
From Coq Require Import List NArith ZArith Bool.
From Verif Require Import Py ArgumentsModel ArgumentsSpec QueryModel QueryProofs.
Import ListNotations.

(** A query that is a text, or a list together with directories, or a list
    without a directory at its ends, is the same afterwards.  Full statement: every
    query; missing: lists with directories in them, which are removed. *)
Theorem C134_unchanged_partial : forall shlex_split isdir cwd q dirs,
  (match q with
   | Tests l => dirs <> [] \/ (forall t rest, l = t :: rest -> ~ names_directory isdir t) /\ (forall t rest, l = rest ++ [t] -> ~ names_directory isdir t)
   | _ => True
   end) -> snd (find shlex_split isdir cwd q dirs) = q.
Proof. exact query_unchanged. Qed.
Print Assumptions C134_unchanged_partial.
(** Nothing but names of directories is ever removed from a list, and the rest
    keeps its order, whether the arguments are accepted or not. *)
Theorem C134_list : forall shlex_split isdir cwd l dirs, exists kept taken,
  snd (find shlex_split isdir cwd (Tests l) dirs) = Tests kept /\ Splits l kept taken /\ Forall (names_directory isdir) taken /\
  (dirs <> [] -> kept = l).
Proof. exact list_after. Qed.
Print Assumptions C134_list.
(** The search itself is made from the same tests and directories as that of a
    command line with these arguments (C36). *)
Theorem C134_search : forall shlex_split isdir cwd q dirs tests a,
  (match q with NoQuery => tests = [] | Text s => shlex_split s = Ok tests | Tests l => tests = l end) ->
  a_tests a = tests -> a_directories a = dirs ->
  fst (find shlex_split isdir cwd q dirs) = (do a' <- process_directories isdir cwd a; Ok (a_tests a', a_directories a')).
Proof. exact find_search. Qed.
Print Assumptions C134_search.
Theorem C134_unsplit : forall shlex_split isdir cwd s dirs e, shlex_split s = Err e ->
  find shlex_split isdir cwd (Text s) dirs = (Err e, Text s).
Proof. exact find_unsplit. Qed.
Print Assumptions C134_unsplit.
Definition ex_directory (s : str) : bool := str_in s [$"src/"; $"doc/"].
(** The query is changed, and the next search with the same list looks elsewhere. *)
Theorem C134_refuted : ~ forall shlex_split isdir cwd q dirs, snd (find shlex_split isdir cwd q dirs) = q.
Proof.
  intros H. specialize (H (fun _ => Ok []) ex_directory ($"/h") (Tests [$"src/"; $"type=f"]) []). vm_compute in H. discriminate H.
Qed.
Print Assumptions C134_refuted.
Theorem C134_again_refuted : ~ forall shlex_split isdir cwd q dirs r q', find shlex_split isdir cwd q dirs = (Ok r, q') ->
  fst (find shlex_split isdir cwd q' dirs) = Ok r.
Proof.
  intros H. specialize (H (fun _ => Ok []) ex_directory ($"/h") (Tests [$"src/"; $"type=f"]) [] _ _ eq_refl). vm_compute in H. discriminate H.
Qed.
Print Assumptions C134_again_refuted.

Example C134_example :
  let find := find (fun s => Ok [s]) ex_directory ($"/h") in
  find (Tests [$"src/"; $"type=f"]) [] = (Ok ([$"type=f"], [$"src"]), Tests [$"type=f"]) /\
  find (Tests [$"type=f"]) [] = (Ok ([$"type=f"], [$"."]), Tests [$"type=f"]) /\
  find (Tests [$"src/"; $"type=f"]) [$"."] = (Ok ([$"src/"; $"type=f"], [$"."]), Tests [$"src/"; $"type=f"]) /\
  find (Text ($"src/")) [] = (Ok ([], [$"src"]), Text ($"src/")).
Proof. vm_compute. repeat split. Qed.
Example C134_unchanged_example : (forall t rest, [$"type=f"; $"src/"; $"size+1"] = t :: rest -> ~ names_directory ex_directory t) /\
  (forall t rest, [$"type=f"; $"src/"; $"size+1"] = rest ++ [t] -> ~ names_directory ex_directory t).
Proof.
  split; intros t rest E [_ D].
  - injection E as <- _. discriminate D.
  - change [$"type=f"; $"src/"; $"size+1"] with ([$"type=f"; $"src/"] ++ [$"size+1"]) in E. apply app_inj_tail in E as [_ <-]. discriminate D.
Qed.
Example C134_unsplit_example : find (fun s => if str_eqb s ($"'") then Err UsageError else Ok [s]) ex_directory ($"/h") (Text ($"'")) [] = (Err UsageError, Text ($"'")).
Proof. reflexivity. Qed.
