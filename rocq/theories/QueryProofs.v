(** Proofs about queries of the caller. *)
From Coq Require Import List NArith ZArith Bool Permutation.
From Verif Require Import Py PathModel OsPath StrOrder SortLib ArgumentsModel ArgumentsSpec DirectoryProofs QueryModel.
Import ListNotations.

Definition blank : pargs := PArgs [] [] [] None false false false None [] false None None None [] None None false.
Section Proofs.
  Variable shlex_split : str -> res (list str).
  Variable isdir : str -> bool.
  Variable cwd : str.
  Notation find := (find shlex_split isdir cwd).
  Notation args tests dirs := (set_directories (set_tests blank tests) dirs).

  (** The constructor does what the command line does (C36). *)
  Lemma find_process q dirs tests : tests_of shlex_split q = Ok tests ->
    fst (find q dirs) = (do a <- process_directories isdir cwd (args tests dirs); Ok (a_tests a, a_directories a)) /\
    snd (find q dirs) = match q with Tests _ => Tests (a_tests (detect isdir (args tests dirs))) | _ => q end.
  Proof.
    intros T. unfold QueryModel.find. rewrite T. unfold process_directories, detect. destruct dirs as [|d dirs]; cbn.
    - destruct (front_loop isdir tests tests []) as [t1 d1]. destruct (back_loop isdir (length tests) t1 d1) as [t2 [|d2 ds]]; cbn;
        (split; [|reflexivity]); try (match goal with |- context [if ?b then _ else _] => destruct b end); reflexivity.
    - split; [|reflexivity]. try (match goal with |- context [if ?b then _ else _] => destruct b end); reflexivity.
  Qed.
  Lemma list_after l dirs : exists kept taken, snd (find (Tests l) dirs) = Tests kept /\ Splits l kept taken /\ Forall (names_directory isdir) taken /\
    (dirs <> [] -> kept = l).
  Proof.
    destruct (find_process (Tests l) dirs l eq_refl) as [_ ->]. destruct dirs as [|d dirs].
    - destruct (detect_split isdir (args l []) eq_refl) as (taken & ds & SP & F & _). exists (a_tests (detect isdir (args l []))), taken.
      split; [reflexivity|]. split; [exact SP|]. split; [now apply all_directories|]. intros N. now elim N.
    - exists l, []. rewrite detect_given by discriminate. split; [reflexivity|]. split; [|split; [constructor|reflexivity]].
      clear. induction l; constructor; assumption.
  Qed.
  Lemma query_unchanged q dirs :
    (match q with
     | Tests l => dirs <> [] \/ (forall t rest, l = t :: rest -> ~ names_directory isdir t) /\ (forall t rest, l = rest ++ [t] -> ~ names_directory isdir t)
     | _ => True
     end) -> snd (find q dirs) = q.
  Proof.
    destruct q as [|s|l]; intros H.
    - unfold QueryModel.find. cbn [tests_of]. match goal with |- context [let (_, _) := ?b in _] => destruct b end. reflexivity.
    - unfold QueryModel.find. cbn [tests_of]. destruct (shlex_split s); [|reflexivity].
      match goal with |- context [let (_, _) := ?b in _] => destruct b end. reflexivity.
    - destruct (list_after l dirs) as (kept & taken & E & _ & _ & K). rewrite E. f_equal.
      destruct dirs as [|d dirs]; [|apply K; discriminate]. destruct H as [H|[M1 M2]]; [now elim H|].
      destruct (find_process (Tests l) [] l eq_refl) as [_ F]. rewrite E in F. injection F as ->.
      apply (detect_none isdir (args l [])); [reflexivity|..]; cbn [a_tests set_tests set_directories].
      + destruct l; [exact I|]. eapply not_directory, M1. reflexivity.
      + destruct (rev l) as [|t r] eqn:Er; [exact I|]. apply not_directory, (M2 t (rev r)). rewrite <- (rev_involutive l), Er. reflexivity.
  Qed.
  (** For the tests and directories of any command line *)
  Lemma find_search q dirs tests a :
    (match q with NoQuery => tests = [] | Text s => shlex_split s = Ok tests | Tests l => tests = l end) ->
    a_tests a = tests -> a_directories a = dirs ->
    fst (find q dirs) = (do a' <- process_directories isdir cwd a; Ok (a_tests a', a_directories a')).
  Proof.
    intros T <- <-. assert (T' : tests_of shlex_split q = Ok (a_tests a)) by (destruct q; cbn; [now rewrite T|exact T|now rewrite T]). clear T.
    unfold QueryModel.find. rewrite T'. destruct a as [tests dirs]. unfold process_directories. cbn. destruct dirs as [|d dirs]; cbn.
    - destruct (front_loop isdir tests tests []) as [t1 d1]. destruct (back_loop isdir (length tests) t1 d1) as [t2 [|d2 ds]]; cbn;
        try (match goal with |- context [if ?b then _ else _] => destruct b end); reflexivity.
    - try (match goal with |- context [if ?b then _ else _] => destruct b end); reflexivity.
  Qed.
  Lemma find_unsplit s dirs e : shlex_split s = Err e -> find (Text s) dirs = (Err e, Text s).
  Proof. intros T. unfold QueryModel.find. cbn [tests_of]. now rewrite T. Qed.
  (** An unchanged query gives the same search again. *)
  Lemma query_again q dirs : snd (find q dirs) = q -> find (snd (find q dirs)) dirs = find q dirs.
  Proof. now intros ->. Qed.
End Proofs.
