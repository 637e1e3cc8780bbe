(** Properties C48, C52, C53: commands made of the results. *)
From Coq Require Import List NArith ZArith Bool.
From Verif Require Import Py TypeModel RegistryModel FieldModel TemplateModel TemplateSpec TemplateProofs BatchModel BatchProofs.
Import ListNotations.

(** C52.  Every template is read in exactly one way; any text can be written
    as a template. *)
Theorem C52_reads : forall s, exists l, Reads s l /\ forall l', Reads s l' -> l' = l.
Proof. intros s. destruct (reads_total s) as [l H]. exists l. split; [exact H|]. intros l' H'. symmetry. exact (reads_unique s l H l' H'). Qed.
Theorem C52_literal : forall s, Reads (double s) (map PChar s).
Proof. exact reads_double. Qed.
(** Templates are accepted if and only if every placeholder names a field; the
    error is that of the field. *)
Theorem C52_accepted : forall registered init_plugin, (exists f, slot registered init_plugin [] f) -> forall ts ls, Forall2 Reads ts ls ->
  (exists fs, store registered init_plugin ts = Ok fs) <-> Forall (holes_ok registered init_plugin) ls.
Proof. exact store_ok. Qed.
Theorem C52_rejected : forall registered init_plugin, (exists f, slot registered init_plugin [] f) -> forall ts ls e, Forall2 Reads ts ls ->
  store registered init_plugin ts = Err e -> Exists (fun l => bad_hole registered init_plugin l e) ls.
Proof. exact store_errors. Qed.
(** The arguments are the expanded templates, and the path if the arguments
    have no placeholder; there is no call if and only if a value is missing. *)
Theorem C52_expanded : forall registered init_plugin A (get : A -> str * str -> res value) human all,
  typed registered init_plugin get -> (exists f, slot registered init_plugin [] f) ->
  forall ts ls full, Forall2 Reads ts ls -> Forall (holes_ok registered init_plugin) ls -> with_path ls full ->
  exists fs, store registered init_plugin ts = Ok fs /\ forall e,
    (forall args, render_exec get human all fs e = Ok args <-> Forall2 (Expands get human all (slot registered init_plugin) e) full args) /\
    (render_exec get human all fs e = Err KeyErr <-> Exists (Fails get all (slot registered init_plugin) e) full) /\
    ((exists args, render_exec get human all fs e = Ok args) \/ render_exec get human all fs e = Err KeyErr).
Proof. exact @exec_whole. Qed.
Definition xp : list plugin := load_plugins [file_plugin].
Definition xi (_ : str) : res unit := Ok tt.
(** entries: path and, if known, size *)
Definition xget (e : str * option Z) (a : str * str) : res value :=
  if str_eqb (snd a) ($"path") then Ok (VStr (fst e))
  else if str_eqb (snd a) ($"size") then match snd e with Some z => Ok (VInt z) | None => Err KeyErr end
  else Err KeyErr.
Definition xhuman (_ : ty) (z : Z) : str := str_of_Z z.
Definition xrun (ts : list str) (e : str * option Z) : res (list str) :=
  do fs <- store xp xi ts; render_exec xget xhuman false fs e.
Example C52_hypotheses : (exists f, slot xp xi [] f) /\ typed xp xi xget /\
  exists ls, Forall2 Reads [$"cp"; $"{}"; $"{{x}}-{size:x}}"] ls /\ Forall (holes_ok xp xi) ls /\ with_path ls ls.
Proof.
  split; [eexists; exists ($"file.path"); split; [constructor|reflexivity]|]. split.
  - intros [p z] h f (name & _ & M). unfold xget. cbn [fst snd]. unfold make_field in M.
    destruct (Re.re_match field_re (strip name)) as [[r cs]|]; [|discriminate]. destruct (Re.group 1 cs) as [nm|]; [|discriminate].
    destruct (setup_attribute xp xi nm) as [a|] eqn:S; cbn [bindr] in M; [|discriminate].
    destruct (get_attribute_type xp a) as [t|] eqn:G; cbn [bindr] in M; [|discriminate]. injection M as <-. cbn [f_attribute f_type].
    destruct (str_eqb (snd a) ($"path")) eqn:E1.
    + right. eexists. split; [reflexivity|]. apply str_eqb_eq in E1. destruct a as [pl at_]. cbn in E1. subst at_. 
      unfold get_attribute_type, find_plugin in G. change xp with [file_plugin] in G.
      cbn [find fst] in G. destruct (str_eqb (p_name file_plugin) pl); [|discriminate]. vm_compute in G. now injection G as <-.
    + destruct (str_eqb (snd a) ($"size")) eqn:E2; [|now left]. destruct z as [z|]; [right|now left].
      eexists. split; [reflexivity|]. apply str_eqb_eq in E2. destruct a as [pl at_]. cbn in E2. subst at_.
      unfold get_attribute_type, find_plugin in G. change xp with [file_plugin] in G.
      cbn [find fst] in G. destruct (str_eqb (p_name file_plugin) pl); [|discriminate]. vm_compute in G. now injection G as <-.
  - exists [[PChar 99%N; PChar 112%N]; [PHole []]; [PChar OPEN; PChar 120%N; PChar CLOSE; PChar 45%N; PHole ($"size:x"); PChar CLOSE]].
    split; [|split].
    + constructor; [|constructor; [|constructor; [|constructor]]].
      * repeat (apply reads_char; [discriminate|discriminate|]). constructor.
      * apply (reads_hole [] []); [intros []|discriminate|constructor].
      * apply reads_open. apply reads_char; [discriminate|discriminate|]. apply reads_close. apply reads_char; [discriminate|discriminate|].
        apply (reads_hole ($"size:x") ($"}")); [|discriminate|apply reads_single_close; [discriminate|constructor]].
        cbn. intuition discriminate.
    + assert (H0 : slot xp xi [] (Field ($"file", $"path") ($"file.path") TPath None None)) by (exists ($"file.path"); split; [constructor|reflexivity]).
      assert (H1 : slot xp xi ($"size:x") (Field ($"file", $"size") ($"size") TSize None (Some ($"x")))).
      { exists ($"size:x"). split; [constructor; cbn; intuition discriminate|reflexivity]. }
      repeat constructor; intros h Hh; cbn [In] in Hh; repeat (destruct Hh as [Hh|Hh]; [try discriminate Hh; injection Hh as <-; eauto|]); destruct Hh.
    + left. split; [|reflexivity]. exists [PHole []]. split; [now left|]. exists []. now left.
Qed.
Example C52_example :
  xrun [$"cp"; $"{}"; $"{{x}}-{size:x}}"] ($"a b", Some 255%Z) = Ok [$"cp"; $"a b"; $"{x}-ff}"] /\
  xrun [$"cp"; $"{size}"] ($"a", None) = Err KeyErr /\ xrun [$"cp"; $"{size:n}"] ($"a", None) = Ok [$"cp"; []] /\
  xrun [$"rm"] ($"a", None) = Ok [$"rm"; $"a"].
Proof. repeat split. Qed.
(** A placeholder in the command does not count: the path is appended. *)
Example C52_command : xrun [$"{}"] ($"a", None) = Ok [$"a"; $"a"].
Proof. reflexivity. Qed.
Print Assumptions C52_reads.
Print Assumptions C52_literal.
Print Assumptions C52_accepted.
Print Assumptions C52_rejected.
Print Assumptions C52_expanded.
Print Assumptions C52_hypotheses.
Print Assumptions C52_example.
Print Assumptions C52_command.

(** C53.  The command is not expanded, nor may it have placeholders. *)
Theorem C53_expanded : forall registered init_plugin A (get : A -> str * str -> res value) human all,
  typed registered init_plugin get -> (exists f, slot registered init_plugin [] f) ->
  forall t ts l ls s full, Reads t l -> Forall2 Reads ts ls -> l = map PChar s -> Forall (holes_ok registered init_plugin) ls ->
  with_path (l :: ls) (l :: full) ->
  exists fs, store_batch registered init_plugin (t :: ts) = Ok fs /\ forall entries,
    exists outs, render_batch get human all fs entries = Ok (s :: concat outs) /\
      Forall2 (Batch get human all (slot registered init_plugin) entries) full outs.
Proof. exact @batch_whole. Qed.
Theorem C53_unique : forall registered init_plugin A (get : A -> str * str -> res value) human all entries l out out',
  Batch get human all (slot registered init_plugin) entries l out -> Batch get human all (slot registered init_plugin) entries l out' -> out = out'.
Proof. exact @batch_fun. Qed.
Theorem C53_command : forall registered init_plugin, (exists f, slot registered init_plugin [] f) -> forall t ts l ls,
  Reads t l -> Forall2 Reads ts ls -> Forall (holes_ok registered init_plugin) (l :: ls) -> has_hole l ->
  store_batch registered init_plugin (t :: ts) = Err UsageError.
Proof. exact batch_command. Qed.
Definition xbatch (ts : list str) (es : list (str * option Z)) : res (list str) :=
  do fs <- store_batch xp xi ts; render_batch xget xhuman false fs es.
Example C53_example :
  xbatch [$"echo"; $"-{size}-"; $"x"; $"{}"] [($"a", Some 1%Z); ($"b", None); ($"c", Some 3%Z)]
    = Ok [$"echo"; $"-1-"; $"-3-"; $"x"; $"a"; $"b"; $"c"] /\
  xbatch [$"{}"] [($"a", None)] = Err UsageError.
Proof. split; reflexivity. Qed.
Print Assumptions C53_expanded.
Print Assumptions C53_unique.
Print Assumptions C53_command.
Print Assumptions C53_example.

(** C48.  The loop ends.  What is passed is a beginning of the results, in
    order, in calls with at least one result each; it is all of them unless one
    result alone was too long or the command could not be run. *)
Theorem C48_ends : forall A (render : list A -> res (list str)) run entries,
  (forall l, render l <> Err OutOfFuel) -> ended (finalize render run entries) <> Err OutOfFuel.
Proof. exact @finalize_ends. Qed.
Theorem C48_passed_partial : forall A (render : list A -> res (list str)) run entries,
  let d := finalize render run entries in
  (forall l args status, In (l, args, status) (calls d) -> l <> [] /\ render l = Ok args) /\
  exists rest, entries = concat (map (fun c => fst (fst c)) (calls d)) ++ rest /\
    (ended d = Ok tt -> rest = [] \/
      exists x rest' m args, rest = x :: rest' /\ render [x] = Ok args /\ run m args = TooLong).
Proof. exact @finalize_passed. Qed.
Theorem C48_errors : forall A (render : list A -> res (list str)) run, (forall l, exists args, render l = Ok args) ->
  forall fuel n entries remainder e, ended (exec_batch render run fuel n entries remainder) = Err e -> e <> OutOfFuel ->
  e = SubprocessErr /\ exists m args, run m args = Refused.
Proof. exact @ended_errors. Qed.
(** The exit code tells if a call failed. *)
Theorem C48_exit : forall A (render : list A -> res (list str)) run fuel n entries remainder,
  let d := exec_batch render run fuel n entries remainder in
  bad_exit d = true <-> exists l args status, In (l, args, status) (calls d) /\ status <> 0%Z.
Proof. exact @exit_flag. Qed.
(** In general it is false: a result that is too long alone ends the loop, and
    the results after it are not passed, without any sign. *)
Definition xlimit (limit : nat) (_ : nat) (args : list str) : outcome :=
  if Nat.ltb limit (length (concat args)) then TooLong else Exited 0.
Theorem C48_refuted : exists limit (entries : list str), let d := finalize (fun l => Ok ($"echo" :: l)) (xlimit limit) entries in
  calls d = [([$"a"], [$"echo"; $"a"], 0%Z)] /\ In ($"c") entries /\
  xlimit limit 0 [$"echo"; $"c"] = Exited 0 /\ bad_exit d = false /\ ended d = Ok tt.
Proof. exists 6, [$"a"; $"bbb"; $"c"]. cbn. repeat split. auto. Qed.
Example C48_example : let d := finalize (fun l => Ok ($"echo" :: l)) (xlimit 6) [$"a"; $"b"; $"c"; $"d"; $"e"] in
  map (fun c => fst (fst c)) (calls d) = [[$"a"; $"b"]; [$"c"]; [$"d"; $"e"]] /\ ended d = Ok tt.
Proof. split; reflexivity. Qed.
Print Assumptions C48_ends.
Print Assumptions C48_passed_partial.
Print Assumptions C48_errors.
Print Assumptions C48_exit.
Print Assumptions C48_refuted.
Print Assumptions C48_example.
