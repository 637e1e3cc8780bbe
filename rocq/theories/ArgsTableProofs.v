(** The command line of ff: the option table. *)
From Coq Require Import List NArith ZArith Bool Lia.
From Verif Require Import Py ConvertSpec ArgsModel ArgsSpec ArgsValueSpec ArgsProofs ArgsMoreProofs ArgsValueProofs.
Import ListNotations.
Local Open Scope Z_scope.

Section Table.
Variable debug : bool.
Variable cpus : Z.
Variable cache color : str.
Notation options := (create_parser debug cpus cache color).
Notation parse_args := (parse_args cpus options).
Notation convert := (convert cpus).
Notation names := (names options).
Notation ok := (table_ok_create debug cpus cache color).

Lemma c27_total argv : (exists ns, parse_args argv = Ok ns) \/ parse_args argv = Err ArgumentErr \/ parse_args argv = Err ValueError.
Proof.
  destruct (parse_args argv) as [ns|e] eqn:E; [left; now exists ns|right].
  destruct (parse_err cpus options ok argv e E) as [-> | ->]; auto.
Qed.
Lemma c27_once argv items items' : Reads options argv items -> Reads options argv items' -> items = items'.
Proof. intros H. exact (reads_det cpus options ok argv items H items'). Qed.
Lemma c29_command pre ns o w args : parse_args pre = Ok ns -> ns ($"exec") = ANone -> ns ($"exec_batch") = ANone ->
  names o w -> o_action o = StoreRemainder -> args <> [] ->
  exists ns', parse_args (pre ++ w :: args) = Ok ns' /\ ns' (o_dest o) = AStrs args /\
    forall d, d <> o_dest o -> ns' d = ns d.
Proof.
  intros H H1 H2. apply (command_parse cpus options ok pre ns); [exact H|].
  intros o' Ho'. destruct debug; cbn [create_parser app] in Ho';
    repeat (destruct Ho' as [<-|Ho']; [try discriminate; intros _; assumption|]); easy.
Qed.
Lemma c29_names : names (Opt [$"-x"; $"--exec"] StoreRemainder TStr ($"exec") ANone ANone) ($"-x") /\
  names (Opt [$"-x"; $"--exec"] StoreRemainder TStr ($"exec") ANone ANone) ($"--exec") /\
  names (Opt [$"-X"; $"--exec-batch"] StoreRemainder TStr ($"exec_batch") ANone ANone) ($"-X") /\
  names (Opt [$"-X"; $"--exec-batch"] StoreRemainder TStr ($"exec_batch") ANone ANone) ($"--exec-batch").
Proof.
  assert (G : forall o w, get_option options w = Ok o -> names o w) by (intros; now apply (get_option_names cpus options ok)).
  split; [|split; [|split]]; apply G; destruct debug; reflexivity.
Qed.
Lemma c29_missing pre ns o w : parse_args pre = Ok ns -> ns ($"exec") = ANone -> ns ($"exec_batch") = ANone ->
  names o w -> o_action o = StoreRemainder -> parse_args (pre ++ [w]) = Err ArgumentErr.
Proof.
  intros H H1 H2. apply (command_missing cpus options ok pre ns); [exact H|].
  intros o' Ho'. destruct debug; cbn [create_parser app] in Ho';
    repeat (destruct Ho' as [<-|Ho']; [try discriminate; intros _; assumption|]); easy.
Qed.
Lemma c30_default argv ns items o : parse_args argv = Ok ns -> Reads options argv items ->
  In o options -> (forall o', In o' options -> o_dest o' = o_dest o -> o' = o) ->
  untouched options convert (o_dest o) items -> ns (o_dest o) = o_default o.
Proof.
  intros H HR Ho U Hu. rewrite (parse_untouched cpus options ok _ _ _ _ H HR Hu).
  destruct (initialize_starts options (o_dest o)) as [(o' & l1 & l2 & E & H1 & H2 & _)|[_ X]].
  - rewrite H2. rewrite (U o'); [reflexivity| |exact H1]. rewrite E. apply in_or_app. right. now left.
  - exfalso. now apply (X o).
Qed.
Lemma c30_collect argv ns items d k : parse_args argv = Ok ns -> Reads options argv items ->
  d = $"directories" \/ d = $"exclude" \/ d = $"tests" -> Collects options convert d items k -> ns d = AStrs k.
Proof.
  intros H HR Hd HC.
  assert (X : exists o, In o options /\ grows o = true /\ o_dest o = d /\ o_default o = AStrs []).
  { destruct Hd as [-> |[-> | ->]].
    - exists (Opt [$"-D"; $"--directory"] Append TStr ($"directories") ANone (AStrs [])).
      split; [destruct debug; cbn [create_parser app]; repeat (first [left; reflexivity|right])|]. repeat split.
    - exists (Opt [$"-e"; $"--exclude"] Append TStr ($"exclude") ANone (AStrs [])).
      split; [destruct debug; cbn [create_parser app]; repeat (first [left; reflexivity|right])|]. repeat split.
    - exists (Opt [$"tests"] Arguments TStr ($"tests") ANone (AStrs [])).
      split; [left; reflexivity|]. repeat split. }
  destruct X as (o & Ho & Hg & <- & D). exact (parse_collects cpus options ok argv ns items o k H HR Ho Hg HC D).
Qed.
Lemma c30_environment env items argv items' : Reads options env items -> no_rest items ->
  dash_first argv \/ closed items -> Reads options argv items' -> Reads options (env ++ argv) (items ++ items').
Proof. intros H Hn Hc H'. exact (reads_app options env items H argv items' Hn Hc H'). Qed.
Lemma c31_depth s l : convert TRanges s = Ok (ARanges l) <-> RangesText s l.
Proof.
  rewrite <- type_ranges_text. cbn [ArgsModel.convert]. destruct (type_ranges s); cbn [bindr]; split; congruence.
Qed.
Lemma c31_limit s a b : convert TSlice s = Ok (ASlice a b) <->
  exists t e, s = t ++ e /\ (e = [] \/ e = [NL]) /\ SliceText t (a, b).
Proof.
  rewrite <- type_slice_text. cbn [ArgsModel.convert]. destruct (type_slice s) as [[x y]|]; cbn [bindr]; split; congruence.
Qed.
Lemma c31_bad_types t s : convert t s = Err ValueError -> t = TJobs \/ t = TRanges.
Proof.
  destruct t; auto; cbn [ArgsModel.convert]; try discriminate.
  destruct (type_slice s) as [[x y]|e] eqn:E; cbn [bindr]; [discriminate|]. apply type_slice_err in E. congruence.
Qed.
Lemma c32_jobs z : 1 <= cpus ->
  match type_jobs cpus (str_of_Z z) with
  | Ok n => 0 <= z /\ (z = 0 -> n = cpus) /\ (0 < z -> n = Z.min z cpus)
  | Err _ => z < 0
  end.
Proof.
  intros H. rewrite type_jobs_value by exact H. destruct (Z.ltb_spec z 0); [assumption|].
  destruct (Z.eqb_spec z 0); lia.
Qed.
Lemma c32_bounds s n : 1 <= cpus -> type_jobs cpus s = Ok n -> 1 <= n <= cpus.
Proof. intros H E. now apply type_jobs_bounds in E. Qed.
Lemma c32_option argv ns l1 o v l2 : parse_args argv = Ok ns -> Reads options argv (l1 ++ Value o v :: l2) ->
  o_dest o = $"jobs" -> untouched options convert ($"jobs") l2 ->
  exists n, ns ($"jobs") = ANum n /\ type_jobs cpus v = Ok n.
Proof.
  intros H HR Hd Hu.
  assert (Oi : item_ok options (Value o v)) by (apply (reads_ok options _ _ HR); apply in_or_app; right; now left).
  cbn [item_ok] in Oi. destruct Oi as [Ho Ha].
  assert (T : o_type o = TJobs /\ o_action o = Store).
  { destruct debug; cbn [create_parser app] in Ho;
      repeat (destruct Ho as [<-|Ho]; [try (vm_compute in Hd; discriminate); split; reflexivity|]); easy. }
  destruct T as [Ty Ac].
  destruct (parse_leads cpus options ok _ _ H) as (items & start & HR' & HS & HL & Hok).
  assert (items = l1 ++ Value o v :: l2) by (eapply (reads_det cpus options ok); eauto). subst items.
  apply leads_app in HL as (n & _ & HL). inversion HL as [|? ? ? d c n1 ? HC H1 H2 HL']; subst.
  inversion HC as [| |? ? A| ? ? x A C| | |]; subst; [congruence|].
  rewrite Ty in C. cbn [ArgsModel.convert] in C. destruct (type_jobs cpus v) as [z|] eqn:J; cbn [bindr] in C; [|discriminate].
  exists z. split; [|reflexivity]. rewrite Hd in H2. unfold str, char in *.
  rewrite (leads_untouched _ _ _ _ _ _ HL' Hu), H2. now injection C as <-.
Qed.
End Table.
