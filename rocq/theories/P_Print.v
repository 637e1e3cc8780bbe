(** Properties C125 and C126: the lines of several processes on standard output,
    and names that cannot be encoded. *)
From Coq Require Import List NArith ZArith Bool.
From Verif Require Import Py JsonModel TypeModel PrintModel PrintSpec PrintProofs.
Import ListNotations.
Local Open Scope nat_scope.

(** C125.  Whole lines at any moment, of each process its first ones in their
    order, and all those whose call has returned.  Missing for the full
    statement: lines that do not fit into the buffer, and on a terminal lines
    with line breaks in them. *)
Theorem C125_whole_partial (size : nat) (tty : bool) (out fs : char -> option str) (css : list (list (call * str))) (st : state) :
  Forall (Forall (fun x => Prints out fs (fst x) (snd x) /\ length (snd x) <= size /\ (tty = false \/ Unbroken (fst x)))) css ->
  steps size tty (begin (map (fun cs => program out fs (map fst cs)) css)) st ->
  length (procs st) = length css /\
  exists log, written st = concat (map snd log) /\ Forall (fun e => fst e < length css) log /\
    forall i cs p, nth_error css i = Some cs -> nth_error (procs st) i = Some p ->
      exists n, n <= length cs /\ of_process i log = map snd (firstn n cs) /\
        forall k, k <= length cs -> ops p = program out fs (map fst (skipn k cs)) -> calls p = [] -> n = k /\ buffer p = [].
Proof. exact (whole size tty out fs css st). Qed.
Print Assumptions C125_whole_partial.

(** When everybody is done, everything is there. *)
Theorem C125_all_partial (size : nat) (tty : bool) (out fs : char -> option str) (css : list (list (call * str))) (st : state) :
  Forall (Forall (fun x => Prints out fs (fst x) (snd x) /\ length (snd x) <= size /\ (tty = false \/ Unbroken (fst x)))) css ->
  steps size tty (begin (map (fun cs => program out fs (map fst cs)) css)) st -> Forall (fun p => ops p = [] /\ calls p = []) (procs st) ->
  exists log, written st = concat (map snd log) /\ Forall (fun e => fst e < length css) log /\
    forall i cs, nth_error css i = Some cs -> of_process i log = map snd cs.
Proof. exact (whole_end size tty out fs css st). Qed.
Print Assumptions C125_all_partial.

(** The records of --json=jsonl, in whatever pieces, are such lines. *)
Theorem C125_records (out fs : char -> option str) (r : list (str * option value)) (pieces : list str) :
  (forall c, (c < 128)%N -> out c = Some [c]) -> concat pieces = dumps r ->
  Prints out fs (CRecord pieces) (dumps r ++ [10%N]) /\ Unbroken (CRecord pieces).
Proof. exact (record_prints out fs r pieces). Qed.
Print Assumptions C125_records.

(** A line longer than the buffer can be torn by that of another process. *)
Theorem C125_long_refuted (size : nat) : 2 <= size -> exists c1 t1 c2 t2 st,
  Prints utf8 utf8 c1 t1 /\ Prints utf8 utf8 c2 t2 /\ Unbroken c1 /\ Unbroken c2 /\ length t2 <= size /\
  steps size false (begin [program utf8 utf8 [c1]; program utf8 utf8 [c2]]) st /\
  procs st = [Process [] [] []; Process [] [] []] /\ written st <> t1 ++ t2 /\ written st <> t2 ++ t1.
Proof. exact (mixed_long size). Qed.
Print Assumptions C125_long_refuted.

(** On a terminal also the line of a name with a line break *)
Theorem C125_terminal_refuted (size : nat) : 6 <= size -> exists c1 t1 c2 t2 st,
  Prints utf8 utf8 c1 t1 /\ Prints utf8 utf8 c2 t2 /\ length t1 <= size /\ length t2 <= size /\
  steps size true (begin [program utf8 utf8 [c1]; program utf8 utf8 [c2]]) st /\
  procs st = [Process [] [] []; Process [] [] []] /\ written st <> t1 ++ t2 /\ written st <> t2 ++ t1.
Proof. exact (mixed_terminal size). Qed.
Print Assumptions C125_terminal_refuted.

(** Two processes with a name, a name that has to be escaped and a record; both
    orders of the processes, and a moment at which the first has written one of
    its lines and has the second in its buffer *)
Definition C125_calls : list (list (call * str)) :=
  [[(CLine [10%N] ($"a"), $"a" ++ [10%N]); (CLine [10%N] [98; 56575]%N, $"b\udcff" ++ [10%N])];
   [(CRecord [$"{"; [34%N]; $"p"; [34%N]; $": "; $"1"; $"}"], $"{" ++ [34%N] ++ $"p" ++ [34%N] ++ $": 1}" ++ [10%N])]].
Example C125_example :
  Forall (Forall (fun x => Prints utf8 utf8 (fst x) (snd x) /\ length (snd x) <= 20 /\ (true = false \/ Unbroken (fst x)))) C125_calls /\
  (exists st, steps 20 true (begin (map (fun cs => program utf8 utf8 (map fst cs)) C125_calls)) st /\
     written st = $"a" ++ [10%N] /\ map buffer (procs st) = [$"b\udcff"; $"{"]) /\
  dumps [($"p", Some (VInt 1%Z))] = $"{" ++ [34%N] ++ $"p" ++ [34%N] ++ $": 1}".
Proof.
  split; [|split; [|reflexivity]].
  - unfold C125_calls.
    apply Forall_cons; [apply Forall_cons; [|apply Forall_cons; [|apply Forall_nil]]|apply Forall_cons; [apply Forall_cons; [|apply Forall_nil]|apply Forall_nil]];
      cbn [fst snd]; (split; [|split; [cbn; repeat constructor|]]).
    + now apply (prints_of [10%N] ($"a") ($"a") [10%N]).
    + right. split; intros [I|[]]; discriminate.
    + change ($"b\udcff" ++ [10%N]) with (($"b\udcff" : str) ++ [10%N]).
      apply (prints_escaped utf8 utf8 [10%N] [98; 56575]%N (replaced utf8 [98; 56575]%N)).
      * exists 56575%N. split; [now right; left|reflexivity].
      * apply replaced_shown. now repeat constructor.
      * now apply encode_bytes.
      * now apply encode_bytes.
    + right. split; intros [I|[I|[]]]; discriminate.
    + apply (prints_record utf8 utf8 _ ($"{" ++ [34%N] ++ $"p" ++ [34%N] ++ $": 1}") [10%N]); now apply encode_bytes.
    + right. split; cbn; intuition discriminate.
  - eexists (State [Process _ _ _; Process _ _ _] _). split; [|split; [reflexivity|reflexivity]].
    first0. { apply act_keep; [reflexivity|cbn; repeat constructor]. }
    cbn. first1. { apply act_keep; [reflexivity|cbn; repeat constructor]. }
    cbn. first0. { apply act_break; [reflexivity|cbn; repeat constructor]. }
    cbn. call0. first0. { apply act_flush. cbn. repeat constructor. }
    cbn. call0. first0. { apply act_keep; [reflexivity|cbn; repeat constructor]. }
    cbn. apply steps_refl.
Qed.

(** C126.  If standard output has the encoding of the file system, every line
    is printed, with exactly the characters that cannot be encoded escaped. *)
Theorem C126_escaped_partial (out fs : char -> option str) (newline line : str) :
  (forall c, out c = None <-> fs c = None) -> (forall c, (c < 128)%N -> out c <> None) ->
  (newline = [10%N] \/ newline = [0%N]) -> Forall (fun c => c < 1114112)%N line ->
  exists s b n ops, Shown fs line s /\ Bytes out s b /\ Bytes out newline n /\
    write_line out fs newline line = (ops, false) /\ Wrote ops (b ++ n).
Proof. exact (line_escaped out fs newline line). Qed.
Print Assumptions C126_escaped_partial.

(** There is only one such text. *)
Theorem C126_one (enc : char -> option str) (s t u : str) : Shown enc s t -> Shown enc s u -> t = u.
Proof. exact (shown_one enc s t u). Qed.
Print Assumptions C126_one.

(** What can be encoded is printed as it is, whatever the encodings are. *)
Theorem C126_unchanged (out fs : char -> option str) (newline line b n : str) : Bytes out line b -> Bytes out newline n ->
  exists ops, write_line out fs newline line = (ops, false) /\ Wrote ops (b ++ n).
Proof. exact (line_unchanged out fs newline line b n). Qed.
Print Assumptions C126_unchanged.

(** With other encodings the exception is raised again, and nothing is printed
    or flushed. *)
Theorem C126_refuted : exists line, Forall (fun c => c < 1114112)%N line /\ write_line ascii utf8 [10%N] line = ([], true).
Proof. exists [228%N]. split; [now repeat constructor|exact line_raises]. Qed.
Print Assumptions C126_refuted.

(** Two names can look the same: *)
Theorem C126_distinct_refuted : exists line line' ops,
  line <> line' /\ write_line utf8 utf8 [10%N] line = (ops, false) /\ write_line utf8 utf8 [10%N] line' = (ops, false).
Proof. exact line_ambiguous. Qed.
Print Assumptions C126_distinct_refuted.

(** not without backslashes. *)
Theorem C126_distinct_partial (line line' : str) (n : char) (t : str) :
  Forall (fun c => c < 1114112)%N line -> Forall (fun c => c < 1114112)%N line' ->
  ~ In 92%N line -> ~ In 92%N line' -> (n < 128)%N ->
  Prints utf8 utf8 (CLine [n] line) t -> Prints utf8 utf8 (CLine [n] line') t -> line = line'.
Proof. exact (utf8_distinct line line' n t). Qed.
Print Assumptions C126_distinct_partial.

(** A name in Latin-1 and one in UTF-8, in a terminal with UTF-8 *)
Example C126_example :
  (forall c, (c < 128)%N -> utf8 c <> None) /\ Forall (fun c => c < 1114112)%N [103; 56508; 110; 228]%N /\
  write_line utf8 utf8 [0%N] [103; 56508; 110; 228]%N = ([Write false ($"g\udcbcn" ++ [195; 164]%N); Write false [0%N]; Flush], false) /\
  Shown utf8 [103; 56508; 110; 228]%N ($"g\udcbcn" ++ [228%N]) /\
  Prints utf8 utf8 (CLine [0%N] [103; 56508; 110; 228]%N) ($"g\udcbcn" ++ [195; 164; 0]%N).
Proof.
  assert (S : Shown utf8 [103; 56508; 110; 228]%N ($"g\udcbcn" ++ [228%N])) by (apply replaced_shown; now repeat constructor).
  split; [|split; [now repeat constructor|split; [reflexivity|split; [exact S|]]]].
  - intros c C. unfold utf8, CacheModel.is_surrogate. destruct (N.leb_spec 55296 c) as [L|L]; [|discriminate].
    exfalso. apply (N.lt_irrefl 128). apply N.le_lt_trans with c; [|exact C]. apply N.le_trans with 55296%N; [discriminate|exact L].
  - change ($"g\udcbcn" ++ [195; 164; 0]%N) with (($"g\udcbcn" ++ [195; 164]%N) ++ [0%N]).
    apply (prints_escaped utf8 utf8 [0%N] _ ($"g\udcbcn" ++ [228%N])); [exists 56508%N; split; [now right; left|reflexivity]|exact S| |]; now apply encode_bytes.
Qed.
