(** C110: the variable FF_OPTIONS *)
From Coq Require Import List NArith Bool.
From Verif Require Import Py ShlexModel ShlexSpec ArgumentsModel ShlexProofs.
Import ListNotations.

(** The arguments are the words of FF_OPTIONS and then those of the command line *)
Theorem C110_words : forall s argv a, collect_arguments shlex_split (Some s) argv = Ok a <->
  exists l, Words s l /\ a = l ++ argv.
Proof. exact collect_read. Qed.
Print Assumptions C110_words.
(** A text has at most one reading as words *)
Theorem C110_unique : forall s l l', Words s l -> Words s l' -> l = l'.
Proof. exact words_fun. Qed.
Print Assumptions C110_unique.
(** A text that is not a list of words ends ff with a ValueError, and this is the only error *)
Theorem C110_error : forall s argv e, collect_arguments shlex_split (Some s) argv = Err e <->
  e = ValueError /\ forall l, ~ Words s l.
Proof. exact collect_error. Qed.
Print Assumptions C110_error.
(** Every list of arguments can be given in FF_OPTIONS, whatever characters are in them *)
Theorem C110_quoted : forall l, Words (flat_map (fun w => quote w ++ [32%N]) l) l.
Proof. exact quoted_words. Qed.
Print Assumptions C110_quoted.

Example C110_example :
  collect_arguments shlex_split (Some ($" -H  --sort='a b'c\ d 'it'""'""s ''")) [$"type=f"] =
    Ok [$"-H"; $"--sort=a bc d"; $"it's"; []; $"type=f"] /\
  quote ($"it's") = $"'it'""'""'s'" /\
  Words ($"it\'s") [$"it's"] /\
  collect_arguments shlex_split (Some ($"-x 'a")) [] = Err ValueError /\
  (forall l, ~ Words ($"-x 'a") l).
Proof.
  repeat split; try reflexivity.
  - apply words_iff. reflexivity.
  - intros l W. apply words_iff in W. discriminate W.
Qed.
