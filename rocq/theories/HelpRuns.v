(** Two plugins and a template for the examples. *)
From Coq Require Import List NArith Bool Arith Lia.
From Verif Require Import Py TypeModel HelpModel HelpSpec HelpProofs HelpPageProofs.
Import ListNotations.
Open Scope N_scope.

Definition ex_header (title : str) : str := $".TH ff 7 " ++ title.
Lemma ex_header_ok : Header ex_header.
Proof.
  intros t N. exists ($"ff 7 " ++ t). split; [reflexivity|]. rewrite in_app_iff. intros [I|I]; [cbn in I; intuition discriminate|easy].
Qed.
(** plugins/introspect.py: the Elf plugin, as in man/ff.7:195-203 *)
Definition ex_elf : hplugin := HPlugin ($"elf")
  (Some ($"The elf plugin provides information extracted from ELF executable files. It requires the 'pyelftools' module."))
  [($"sonames", TListOfStrings, $"The names of all shared objects that are linked in this executable file.")]
  ($"contrib") ($"/plugins/introspect.py") true ($"A. Author") ($"a@example.org") ($"https://example.org/ff-x").
Definition ex_file : hplugin := HPlugin ($"file") (Some ($"Basic file attributes, see `stat`(2) and --all."))
  [($"name", TString, $"The basename portion of the file"); ($"mode", TMode, $"The mode and permission bits of the file.")]
  ($"builtin") ($"/ff/file.py") false ($"A. Author") ($"a@example.org") ($"https://example.org/ff-x").
Lemma ex_name s : s <> [] -> forallb is_w s = true -> Name s.
Proof. intros N H. split; [exact N|]. now apply forallb_forall. Qed.
Lemma ex_documented p : In p [ex_elf; ex_file] -> Documented p /\ Detailed p /\ h_doc p <> None.
Proof.
  assert (K : forall t, has_char 92 t = false -> has_char NL t = false -> line_text t) by (intros t A B; split; now apply has_char_false).
  intros [<-|[<-|[]]]; (split; [|split; [repeat split; apply has_char_false; reflexivity|discriminate]]).
  - split; [apply ex_name; [discriminate|reflexivity]|]. split.
    + intros d E. injection E as <-. apply (readable_check _ ($"The")); vm_compute; reflexivity.
    + intros n t help [E|[]]. injection E as <- <- <-. split; [apply ex_name; [discriminate|reflexivity]|].
      apply (readable_check _ ($"The")); vm_compute; reflexivity.
  - split; [apply ex_name; [discriminate|reflexivity]|]. split.
    + intros d E. injection E as <-. apply (readable_check _ ($"Basic")); vm_compute; reflexivity.
    + intros n t help [E|[E|[]]]; injection E as <- <- <-; (split; [apply ex_name; [discriminate|reflexivity]|]);
        apply (readable_check _ ($"The")); vm_compute; reflexivity.
Qed.
(** A class without a docstring *)
Definition ex_bare : hplugin := HPlugin ($"bare") None [] ($"user") ($"/x/bare.py") false [] [] [].

(** A part of libff/manpage.template *)
Definition ex_template : list str :=
  [$"OPTIONS"; $"    ::help"; $""; $"ENVIRONMENT"; $"    FF_OPTIONS  Default options to use"; $"        for every run.";
   $"    $ ff --sort name"].
Definition ex_text (name : str) : option (list str) :=
  if str_eqb name ($"help") then Some [$"    --all  Show all files"] else None.
Definition begins_b (s : str) : bool := match words s with w :: _ => control w | [] => false end.
Definition definable_b (p : str) : bool :=
  negb (has_char 92 p) && negb (has_char NL p) && negb (begins_b p) &&
  forallb (fun n => let k := firstn n p in let v := skipn n p in
    negb (starts_with [32; 32] v) || match words k with [] => true | _ => false end
    || (negb (has_char 34 k) && negb (begins_b (skipn 2 v)))) (seq 0 (length p)).
Lemma begins_b_ok s : begins_b s = false -> ~ begins_control s.
Proof. intros H (w & r & E & C). unfold begins_b in H. rewrite E in H. congruence. Qed.
Lemma definable_b_ok p : definable_b p = true -> Definable p.
Proof.
  unfold definable_b. rewrite !andb_true_iff, !negb_true_iff. intros [[[B N] C] F].
  split; [now apply has_char_false|]. split; [now apply has_char_false|]. split; [now apply begins_b_ok|].
  intros k v E W. rewrite forallb_forall in F. specialize (F (length k)).
  assert (I : In (length k) (seq 0 (length p))).
  { apply in_seq. rewrite E, !app_length. cbn [length]. lia. }
  specialize (F I). cbv zeta in F. clear I. rewrite E in F. rewrite firstn_app, firstn_all, skipn_app, skipn_all, Nat.sub_diag in F.
  cbn [firstn skipn app starts_with] in F. rewrite app_nil_r in F. cbn [N.eqb Pos.eqb andb negb orb] in F.
  destruct (words k) as [|w r]; [easy|]. cbn [orb] in F. apply andb_true_iff in F as [F1 F2]. apply negb_true_iff in F1, F2.
  split; [now apply has_char_false|now apply begins_b_ok].
Qed.
Lemma no_include p : starts_with ($"::") (lstrip (rstrip p)) = false -> forall name, ~ Include p name.
Proof. intros H name I. apply include_strip in I. rewrite I in H. discriminate. Qed.
Lemma ex_template_ok : Template ex_text (wrap ex_template)
  [$"OPTIONS"; $"--all"; $"Show"; $"all"; $"files"; $"ENVIRONMENT"; $"FF_OPTIONS"; $"Default"; $"options";
      $"to"; $"use"; $"for"; $"every"; $"run."; $"$"; $"ff"; $"--sort"; $"name"].
Proof.
  assert (T : forall p ps ws, starts_with ($"::") (lstrip (rstrip p)) = false -> definable_b p = true ->
    Template ex_text ps ws -> Template ex_text (p :: ps) (text_words p ++ ws)).
  { intros p ps ws H D R. apply T_text; [now apply no_include|now apply definable_b_ok|exact R]. }
  assert (I : Template ex_text (wrap [$"    --all  Show all files"]) (text_words [] ++ text_words ($"    --all  Show all files") ++ [])).
  { change (wrap [$"    --all  Show all files"]) with [[]; $"    --all  Show all files"].
    apply T; [reflexivity..|]. apply T; [reflexivity..|]. apply T_end. }
  change (wrap ex_template) with [$"OPTIONS"; $""; $"    ::help"; $""; $""; $"ENVIRONMENT"; $"";
    $"    FF_OPTIONS  Default options to use for every run."; $""; $"    $ ff --sort name"].
  apply (T ($"OPTIONS") _ (text_words ($"") ++ (text_words [] ++ text_words ($"    --all  Show all files") ++ []) ++ text_words ($"") ++
    text_words ($"") ++ text_words ($"ENVIRONMENT") ++ text_words ($"") ++ text_words ($"    FF_OPTIONS  Default options to use for every run.")
    ++ text_words ($"") ++ text_words ($"    $ ff --sort name") ++ [])); [reflexivity..|].
  apply T; [reflexivity..|]. apply (T_include _ _ ($"help") [$"    --all  Show all files"]); [|reflexivity|exact I|].
  - exists ($"    "), []. repeat split. right. exists ($"hel"), 112. split; reflexivity.
  - do 7 (apply T; [reflexivity..|]). apply T_end.
Qed.
