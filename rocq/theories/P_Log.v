(** C116: messages are shown completely, in lines as wide as the screen, and
    those with a tag once. *)
From Coq Require Import List NArith ZArith Bool.
From Verif Require Import Py WrapModel LogModel LogSpec WrapProofs LogProofs.
Import ListNotations.

(** The function fills texts whatever they are split into: nothing but white
    space is lost. *)
Theorem C116_fill : forall split width first next text,
  Splits split -> (0 < width)%Z -> ink first = [] -> ink next = [] ->
  (match text with [] => True | c :: _ => is_space c = false end) ->
  exists lines, fill split width first next text = Ok (join_with [NL] lines) /\ Filled width first next text lines.
Proof. exact fill_filled. Qed.
Print Assumptions C116_fill.
Example C116_fill_example :
  fill words_and_blanks 12 [] ($"    ") ($"some words  in averyverylongline") =
  Ok ($"some words" ++ [NL] ++ $"    in avery" ++ [NL] ++ $"    verylong" ++ [NL] ++ $"    line").
Proof. vm_compute. reflexivity. Qed.

(** If the only white space are blanks, words that fit on a line are not broken. *)
Theorem C116_whole : forall split width first next text,
  Splits split -> (0 < width)%Z -> ink first = [] -> ink next = [] ->
  (match text with [] => True | c :: _ => is_space c = false end) -> (forall x, In x text -> is_space x = true -> x = 32%N) ->
  exists lines, fill split width first next text = Ok (join_with [NL] lines) /\ Filled width first next text lines /\
  forall c, In c (split text) -> (exists x, In x c /\ is_space x = false) ->
    (Z.of_nat (length c) + Z.of_nat (length first) <= width)%Z -> (Z.of_nat (length c) + Z.of_nat (length next) <= width)%Z ->
    exists u v, In (u ++ c ++ v) lines.
Proof. exact fill_whole. Qed.
Print Assumptions C116_whole.
(** A word that is longer than the line is broken after the last hyphen on the
    line, if there is anything but hyphens before it, else at the end of the line. *)
Theorem C116_long : forall split width next text,
  Splits split -> (0 < width)%Z -> ink next = [] -> split text = [text] -> (forall x, In x text -> is_space x = false) -> (width < Z.of_nat (length text))%Z ->
  exists line rest, fill split width [] next text = Ok (join_with [NL] (line :: rest)) /\
  (forall a b, firstn (Z.to_nat width) text = a ++ 45%N :: b -> ~ In 45%N b -> (exists x, In x a /\ x <> 45%N) -> line = a ++ [45%N]) /\
  ((forall a b x, firstn (Z.to_nat width) text = a ++ 45%N :: b -> In x a -> x = 45%N) -> line = firstn (Z.to_nat width) text).
Proof. exact long_word. Qed.
Print Assumptions C116_long.
Example C116_long_example : words_and_blanks ($"a-long-word") = [$"a-long-word"] /\
  fill words_and_blanks 8 [] [] ($"a-long-word") = Ok ($"a-long-" ++ [NL] ++ $"word") /\
  fill words_and_blanks 8 [] [] ($"----along-word") = Ok ($"----alon" ++ [NL] ++ $"g-word") /\
  fill words_and_blanks 8 [] [] ($"whole words are kept") = Ok ($"whole" ++ [NL] ++ $"words" ++ [NL] ++ $"are kept").
Proof. vm_compute. repeat split. Qed.

(** The full statement: whatever the size of the screen, the messages are shown
    and ff goes on.  It is false on a screen of one or two columns, or if
    COLUMNS says so. *)
Theorem C116_narrow_refuted : exists columns terminal split, (1 <= columns)%Z /\ Splits split /\
  forall l m, snd (perform split (output_width (Some columns) terminal) l (Warning m None)) = Raises ValueError.
Proof.
  exists 2%Z, (Some 80%Z), words_and_blanks. split; [discriminate|]. split; [exact words_and_blanks_splits|].
  intros l m. apply (narrow _ _ l (Warning m None) ($"WARNING") m); [discriminate|reflexivity].
Qed.
Print Assumptions C116_narrow_refuted.
(** These are the only ones. *)
Theorem C116_narrow : forall columns terminal, (output_width columns terminal <= 0)%Z <->
  (exists n, columns = Some n /\ (1 <= n <= 2)%Z) \/
  ((forall n, columns = Some n -> (n <= 0)%Z) /\ exists n, terminal = Some n /\ (1 <= n <= 2)%Z).
Proof. exact width_narrow. Qed.
Print Assumptions C116_narrow.
Theorem C116_narrow_raises : forall split columns terminal l c word m, (output_width columns terminal <= 0)%Z ->
  message_of c = Some (word, m, None) -> snd (perform split (output_width columns terminal) l c) = Raises ValueError.
Proof. exact (fun split columns terminal => narrow split (output_width columns terminal)). Qed.
Print Assumptions C116_narrow_raises.
Example C116_narrow_example : output_width None (Some 80%Z) = 78%Z /\ output_width (Some 0%Z) (Some 2%Z) = 0%Z.
Proof. split; reflexivity. Qed.

(** The messages of one process: each is written with its whole text if it has no
    tag or its tag is new, otherwise nothing is written.  Debug messages are
    written as they are if their category was chosen. *)
Theorem C116_messages_partial : forall split width, Splits split -> (0 < width)%Z ->
  forall categories calls before c rest s, calls = before ++ c :: rest ->
  nth_error (fst (log split width (Logger [] (Some categories)) calls)) (length before) = Some s ->
  Fine width categories before c s.
Proof. exact log_messages. Qed.
Print Assumptions C116_messages_partial.
(** No call is skipped: the process goes on after every message without an exit
    code, and ends with the code of the first that has one. *)
Theorem C116_exit_partial : forall split width, Splits split -> (0 < width)%Z ->
  forall calls l, categories l <> None ->
  (Forall (fun c => exit_of c = None) calls ->
     snd (log split width l calls) = Goes_on /\ length (fst (log split width l calls)) = length calls) /\
  (forall before c n rest, calls = before ++ c :: rest -> Forall (fun c => exit_of c = None) before -> exit_of c = Some n ->
     snd (log split width l calls) = Exits n /\ length (fst (log split width l calls)) = S (length before)).
Proof. exact log_exit. Qed.
Print Assumptions C116_exit_partial.
Definition c116_calls : list call :=
  [Warning ($"cannot read a") (Some ($"t")); Debug ($"walk") ($"x"); Hint ($"again") (Some ($"t"));
   Debug ($"mp") ($"y"); Error ($"unknown test") (Some 2%Z); Info ($"never")].
Example C116_messages_example :
  log words_and_blanks 18 (Logger [] (Some [$"mp"])) c116_calls =
  ([$"WARNING: cannot" ++ [NL] ++ $"         read a" ++ [NL]; []; []; $"DEBUG:mp: y" ++ [NL];
    $"ERROR: unknown" ++ [NL] ++ $"       test" ++ [NL]], Exits 2%Z).
Proof. vm_compute. reflexivity. Qed.

(** The full statement: a message with a tag is shown once in a run.  It is false,
    every process keeps tags of its own. *)
Theorem C116_once_refuted : exists split width ls calls s, Splits split /\ (0 < width)%Z /\ s <> [] /\
  (forall p, tags (ls p) = []) /\ (exists tag, Forall (fun x => tag_of (snd x) = Some tag) calls) /\
  nth_error (logs split width ls calls) 0 = Some s /\ nth_error (logs split width ls calls) 1 = Some s.
Proof.
  exists (fun s => [s]), 80%Z, (fun _ => Logger [] (Some [])).
  exists [(1%nat, Warning ($"x") (Some ($"t"))); (2%nat, Warning ($"x") (Some ($"t"))); (1%nat, Warning ($"x") (Some ($"t")))].
  exists ($"WARNING: x" ++ [NL]). split; [intros s; apply app_nil_r|]. split; [reflexivity|]. split; [discriminate|]. split; [reflexivity|].
  split; [exists ($"t"); repeat constructor|]. cbv zeta. rewrite twice. split; reflexivity.
Qed.
Print Assumptions C116_once_refuted.
(** It holds in each process, whatever the others do in between, unless the tag
    was inherited. *)
Theorem C116_processes_partial : forall split width, Splits split -> (0 < width)%Z ->
  forall ls cats calls before p c rest s, calls = before ++ (p, c) :: rest -> categories (ls p) = Some cats ->
  (forall t, tag_of c = Some t -> ~ In t (tags (ls p))) ->
  nth_error (logs split width ls calls) (length before) = Some s -> Fine width cats (calls_of p before) c s.
Proof. exact logs_messages. Qed.
Print Assumptions C116_processes_partial.
Example C116_processes_example : let c := Warning ($"x") (Some ($"t")) in
  logs (fun s => [s]) 80 (fun _ => Logger [] (Some [])) [(1%nat, c); (2%nat, c); (1%nat, c)] =
  [$"WARNING: x" ++ [NL]; $"WARNING: x" ++ [NL]; []].
Proof. exact twice. Qed.
