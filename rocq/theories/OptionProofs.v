(** Every option of ff sets what the manual says, and nothing else. *)
From Coq Require Import List NArith ZArith Bool Lia.
From Verif Require Import Py ConvertSpec ArgsModel ArgsSpec ArgsProofs ArgsMoreProofs OptionSpec.
Import ListNotations.
Local Open Scope Z_scope.

Section Table.
Variable debug : bool.
Variable cpus : Z.
Variable cache color : str.
Notation options := (create_parser debug cpus cache color).
Notation parse_args := (parse_args cpus options).
Notation convert := (convert cpus).
Notation names := (names options).
Notation ok := (table_ok_create debug cpus cache color).

Lemma typed_parse pre ns : parse_args pre = Ok ns -> typed options ns.
Proof.
  intros H o' Ho' Hg. apply (parse_leads cpus options ok) in H as (items & start & _ & HS & HL & Hok).
  apply (starts_typed cpus options ok) in HS.
  assert (G : forall d, is_list (start d) -> (forall i c, In i items -> Change options convert i d c -> exists l, c = Grows l) -> is_list (ns d)).
  { clear -HL. induction HL as [ns ns' H|ns i items d' c ns1 ns' HC H1 H2 HL IH]; intros d Hd Hc; [rewrite H; exact Hd|].
    apply IH; [|intros; eapply Hc; eauto; now right]. destruct (str_eq_dec d d') as [->|Hne]; [|now rewrite H1].
    destruct (Hc i c (or_introl eq_refl) HC) as [l ->]. rewrite H2. right. destruct (ns d'); cbn; eauto. }
  apply G; [now apply HS|]. intros i c Hi. apply (grow_changes cpus options ok); auto.
Qed.
Lemma item_parse pre ns w ws i : parse_args pre = Ok ns -> no_cmd ns -> dash w ->
  Reads options (w :: ws) [i] -> parse_args (pre ++ w :: ws) = apply_item cpus options ns i.
Proof.
  intros H [H1 H2] D R. destruct (parse_reads cpus options ok _ _ H) as (items & HR & HA).
  assert (Hno : no_rest items).
  { refine (no_command cpus options ok _ _ _ H HR _).
    intros o' Ho'. destruct debug; cbn [create_parser app] in Ho';
      repeat (destruct Ho' as [<-|Ho']; [try discriminate; intros _; assumption|]); easy. }
  assert (E : parse_args (pre ++ w :: ws) = do ns' <- apply_all cpus options (initialize options) items; run cpus options ns' (w :: ws))
    by (apply (run_split cpus options ok); auto).
  rewrite E, HA. cbn [bindr]. rewrite <- (app_nil_r (w :: ws)).
  rewrite (reads_run cpus options ok _ _ R); [|now right|exact I].
  cbn [apply_all]. destruct (apply_item cpus options ns i); reflexivity.
Qed.
Lemma item_sets pre ns w ws i d x : parse_args pre = Ok ns -> no_cmd ns -> dash w ->
  Reads options (w :: ws) [i] -> Change options convert i d (Becomes x) ->
  exists ns', parse_args (pre ++ w :: ws) = Ok ns' /\ only ns d x ns'.
Proof.
  intros H Hc D R C. rewrite (item_parse _ _ _ _ _ H Hc D R).
  assert (K : item_ok options i) by (apply (reads_ok options _ _ R); now left).
  destruct (item_change cpus options ok ns i (typed_parse _ _ H) K)
    as [(d' & c' & n & HC & E & [U1 U2] & _)|[(o & v & e & _ & _ & _ & X)|(l & o & -> & _)]].
  - destruct (change_det cpus options ok _ _ _ _ _ K C HC) as [<- <-]. exists n. split; [exact E|]. split; [exact U1|exact U2].
  - exfalso. eapply X. exact C.
  - inversion C.
Qed.

Lemma find_names w o : find (fun o => negb (is_arguments o) && str_in w (o_strings o)) options = Some o -> names o w.
Proof.
  intros H. apply find_some in H. destruct H as [I H]. rewrite andb_true_iff, negb_true_iff in H.
  destruct H as [H1 H2]. split; [exact I|]. split.
  - intros E. unfold is_arguments in H1. rewrite E in H1. discriminate H1.
  - now apply str_in_iff.
Qed.
Ltac entries := repeat match goal with
  | H : In _ (_ :: _) |- _ => destruct H as [H|H]
  | H : In _ [] |- _ => destruct H
  end.
Ltac found := eexists; split; [apply find_names; destruct debug; lazy; reflexivity|].

Lemma switch_entry ws d v w : In (ws, (d, v)) switches -> In w ws ->
  exists o, names o w /\ (o_action o = StoreTrue /\ v = ABool true \/ o_action o = StoreConst /\ v = o_const o) /\ o_dest o = d.
Proof.
  unfold switches. intros H I. entries; injection H as <- <- <-; entries; subst w; found;
    (split; [first [left; split; reflexivity | right; split; reflexivity] | reflexivity]).
Qed.
Lemma setting_entry ws d t w : In (ws, (d, t)) settings -> In w ws ->
  exists o, names o w /\ o_action o = Store /\ o_dest o = d /\ o_type o = t.
Proof.
  unfold settings. intros H I. entries; injection H as <- <- <-; entries; subst w; found; repeat split.
Qed.
Lemma optional_entry ws d t v w : In (ws, (d, t, v)) optional -> In w ws ->
  exists o, names o w /\ o_action o = StoreOptional /\ o_dest o = d /\ o_type o = t /\
    exists s, o_const o = AStr s /\ convert t s = Ok v.
Proof.
  unfold optional. intros H I. entries; injection H as <- <- <- <-; entries; subst w; found; repeat split;
    eexists; split; reflexivity.
Qed.
Lemma several_entry ws d w : In (ws, d) several -> In w ws ->
  exists o, names o w /\ o_action o = Append /\ o_dest o = d.
Proof.
  unfold several. intros H I. entries; injection H as <- <-; entries; subst w; found; repeat split.
Qed.

Lemma switch_sets ws d v w pre ns : In (ws, (d, v)) switches -> In w ws -> parse_args pre = Ok ns -> no_cmd ns ->
  exists ns', parse_args (pre ++ [w]) = Ok ns' /\ only ns d v ns'.
Proof.
  intros S I H C. destruct (switch_entry _ _ _ _ S I) as (o & N & A & <-).
  apply (item_sets pre ns w [] (Flag o)); auto.
  - exact (names_dash cpus options ok _ _ N).
  - apply reads_flag; [exact N|tauto|constructor].
  - destruct A as [[A ->]|[A ->]]; now constructor.
Qed.
Lemma setting_sets ws d t w x v pre ns : In (ws, (d, t)) settings -> In w ws -> parse_args pre = Ok ns -> no_cmd ns ->
  convert t x = Ok v -> exists ns', parse_args (pre ++ [w; x]) = Ok ns' /\ only ns d v ns'.
Proof.
  intros S I H C V. destruct (setting_entry _ _ _ _ S I) as (o & N & A & <- & <-).
  apply (item_sets pre ns w [x] (Value o x)); auto.
  - exact (names_dash cpus options ok _ _ N).
  - apply reads_value; [exact N|tauto|constructor].
  - apply change_value; [tauto|exact V].
Qed.
Lemma value_refused pre ns w x o e : parse_args pre = Ok ns -> no_cmd ns -> names o w -> Reads options [w; x] [Value o x] ->
  o_action o <> Append -> convert (o_type o) x = Err e -> parse_args (pre ++ [w; x]) = Err e.
Proof.
  intros H C N R A V. rewrite (item_parse _ _ _ _ _ H C (names_dash cpus options ok _ _ N) R).
  assert (K : item_ok options (Value o x)) by (apply (reads_ok options _ _ R); now left).
  destruct (item_change cpus options ok ns _ (typed_parse _ _ H) K)
    as [(d' & c' & n & HC & E & _)|[(o' & v' & e' & E1 & E2 & E3 & X)|(l & o' & E1 & _)]].
  - inversion HC; subst; congruence.
  - injection E1 as <- <-. congruence.
  - discriminate E1.
Qed.
Lemma setting_refused ws d t w x e pre ns : In (ws, (d, t)) settings -> In w ws -> parse_args pre = Ok ns -> no_cmd ns ->
  convert t x = Err e -> parse_args (pre ++ [w; x]) = Err e.
Proof.
  intros S I H C V. destruct (setting_entry _ _ _ _ S I) as (o & N & A & <- & <-).
  apply (value_refused pre ns w x o e); auto; [|congruence]. apply reads_value; [exact N|tauto|constructor].
Qed.
Lemma no_dash_iff x : no_dash x <-> ~ dash x.
Proof. split; [intros H [t ->]; now apply (H t)|intros H t ->; apply H; now exists t]. Qed.
Lemma optional_bare ws d t v w pre ns : In (ws, (d, t, v)) optional -> In w ws -> parse_args pre = Ok ns -> no_cmd ns ->
  exists ns', parse_args (pre ++ [w]) = Ok ns' /\ only ns d v ns'.
Proof.
  intros S I H C. destruct (optional_entry _ _ _ _ _ S I) as (o & N & A & <- & <- & s & E & V).
  apply (item_sets pre ns w [] (Bare o)); auto.
  - exact (names_dash cpus options ok _ _ N).
  - apply reads_bare; [exact N|exact A|exact Logic.I|constructor].
  - now apply (change_bare _ _ o s).
Qed.
Lemma optional_sets ws d t v w x v' pre ns : In (ws, (d, t, v)) optional -> In w ws -> parse_args pre = Ok ns -> no_cmd ns ->
  no_dash x -> convert t x = Ok v' -> exists ns', parse_args (pre ++ [w; x]) = Ok ns' /\ only ns d v' ns'.
Proof.
  intros S I H C D V. destruct (optional_entry _ _ _ _ _ S I) as (o & N & A & <- & <- & _).
  apply (item_sets pre ns w [x] (Value o x)); auto.
  - exact (names_dash cpus options ok _ _ N).
  - apply reads_optional; [exact N|exact A|now apply no_dash_iff|constructor].
  - apply change_value; [tauto|exact V].
Qed.
Lemma several_adds ws d w x k pre ns : In (ws, d) several -> In w ws -> parse_args pre = Ok ns -> no_cmd ns ->
  ns d = AStrs k -> exists ns', parse_args (pre ++ [w; x]) = Ok ns' /\ only ns d (AStrs (k ++ [x])) ns'.
Proof.
  intros S I H C V. destruct (several_entry _ _ _ S I) as (o & N & A & <-).
  assert (R : Reads options [w; x] [Value o x]) by (apply reads_value; [exact N|tauto|constructor]).
  rewrite (item_parse _ _ _ _ _ H C (names_dash cpus options ok _ _ N) R).
  assert (K : item_ok options (Value o x)) by (apply (reads_ok options _ _ R); now left).
  destruct (item_change cpus options ok ns _ (typed_parse _ _ H) K)
    as [(d' & c' & n & HC & E & [U1 U2] & _)|[(o' & v' & e' & E1 & E2 & E3 & X)|(l & o' & E1 & _)]].
  - assert (HC' : Change options convert (Value o x) (o_dest o) (Grows [x])) by now constructor.
    destruct (change_det cpus options ok _ _ _ _ _ K HC' HC) as [<- <-]. rewrite V in U1.
    exists n. split; [exact E|split; [exact U1|exact U2]].
  - exfalso. eapply X. injection E1 as <- <-. now constructor.
  - discriminate E1.
Qed.
Lemma several_list ws d pre ns : In (ws, d) several -> parse_args pre = Ok ns -> exists k, ns d = AStrs k.
Proof.
  intros S H.
  assert (I : exists w, In w ws) by (unfold several in S; entries; injection S as <- <-; eexists; now left).
  destruct I as [w I]. destruct (several_entry _ _ _ S I) as (o & (Ho & _) & A & E).
  assert (D : initialize options d = AStrs []).
  { unfold several in S. entries; injection S as <- <-; destruct debug; lazy; reflexivity. }
  apply (parse_leads cpus options ok) in H as (items & start & _ & HS & HL & Hok).
  assert (D' : exists k, start d = AStrs k).
  { exists []. rewrite <- D. apply (starts_unique cpus options ok start (initialize options) HS (initialize_starts options)). }
  assert (G : forall i c, In i items -> Change options convert i d c -> exists l, c = Grows l).
  { intros i c Hi HC. apply (grow_changes cpus options ok o i); auto; [|now rewrite E]. unfold grows. now rewrite A. }
  clear -HL D' G. induction HL as [ns ns' H|ns i items d' c ns1 ns' HC H1 H2 HL IH]; [rewrite H; exact D'|].
  apply IH; [|intros; eapply G; eauto; now right].
  destruct (str_eq_dec d d') as [->|Hne]; [|now rewrite H1].
  destruct (G i c (or_introl eq_refl) HC) as [l ->]. rewrite H2. destruct D' as [k ->]. now eexists.
Qed.
Lemma several_sets ws d w x pre ns : In (ws, d) several -> In w ws -> parse_args pre = Ok ns -> no_cmd ns ->
  exists k ns', ns d = AStrs k /\ parse_args (pre ++ [w; x]) = Ok ns' /\ only ns d (AStrs (k ++ [x])) ns'.
Proof.
  intros S I H C. destruct (several_list _ _ _ _ S H) as [k K].
  destruct (several_adds _ _ _ x k _ _ S I H C K) as (ns' & A & B). now exists k, ns'.
Qed.
Lemma initial_value d v : In (d, v) (initially cpus cache color) -> exists ns, parse_args [] = Ok ns /\ ns d = v.
Proof.
  intros H. exists (initialize options). split; [reflexivity|].
  unfold initially in H. entries; injection H as <- <-; destruct debug; lazy; reflexivity.
Qed.
End Table.
