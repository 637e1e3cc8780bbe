(** How results are presented. *)
From Coq Require Import List NArith ZArith Bool Lia.
From Verif Require Import Py ArgumentsModel ArgumentsSpec ArgumentsProofs DirectoryProofs ConsoleModel PresentModel PresentSpec.
Import ListNotations.

Definition json_colour (a : pargs) : str := match a_json a with Some (_ :: _) => $"never" | _ => a_color a end.
Lemma arguments_look a : a_json (process_arguments a) = a_json a /\ a_color (process_arguments a) = json_colour a.
Proof.
  unfold process_arguments, json_colour. cbv zeta.
  set (b := match a_json a with Some (_ :: _) => set_json_output a | _ => a end).
  assert (B : a_json b = a_json a /\ a_color b = match a_json a with Some (_ :: _) => $"never" | _ => a_color a end).
  { unfold b. destruct (a_json a) as [[|c j]|] eqn:Ej; cbn; rewrite ?Ej; auto. }
  destruct B as [B1 B2]. rewrite <- B2, <- B1. clearbody b. clear B1 B2.
  assert (E : forall l c, a_json (set_exclude c l) = a_json c /\ a_color (set_exclude c l) = a_color c) by (intros; split; reflexivity).
  set (b1 := if a_ignore b then _ else b). assert (B1 : a_json b1 = a_json b /\ a_color b1 = a_color b) by (unfold b1; destruct (a_ignore b); auto).
  destruct B1 as [<- <-]. clearbody b1. clear b.
  set (b2 := if a_one_file_system b1 then _ else b1). assert (B1 : a_json b2 = a_json b1 /\ a_color b2 = a_color b1) by (unfold b2; destruct (a_one_file_system b1); auto).
  destruct B1 as [<- <-]. clearbody b2. clear b1.
  set (b3 := if a_hide b2 then _ else b2). assert (B1 : a_json b3 = a_json b2 /\ a_color b3 = a_color b2) by (unfold b3; destruct (a_hide b2); auto).
  destruct B1 as [<- <-]. clearbody b3. clear b2.
  set (b4 := match a_depth b3 with Some _ => _ | None => b3 end).
  assert (B1 : a_json b4 = a_json b3 /\ a_color b4 = a_color b3).
  { unfold b4. destruct (a_depth b3) as [[|r l]|]; auto. unfold process_depth_argument. destruct (all_stops (r :: l)); auto. }
  destruct B1 as [<- <-]. clearbody b4. clear b3.
  destruct (a_count b4) as [[|[|c s] [|x l]]|]; auto.
Qed.
Lemma warnings_look c b w : collect_warnings c = (b, w) ->
  a_json b = a_json c /\ a_color b = a_color c /\ a_limit b = a_limit c /\ a_exec b = a_exec c /\ a_exec_batch b = a_exec_batch c /\
  a_count b = a_count c.
Proof.
  unfold collect_warnings. destruct (_ && _); cbv beta iota; cbn [a_count set_output a_sort a_output];
    destruct (truthy (a_count c)); cbv beta iota; try destruct (truthy (a_sort c)); cbv beta iota; cbn [a_output set_sort set_output];
    try destruct (negb (strs_eqb _ _)); cbv beta iota; destruct (match a_limit _ with Some _ => _ | None => _ end);
    intros H; injection H as <- <-; cbn; auto 10.
Qed.
Lemma process_look isdir cwd debug a b w : ArgumentsModel.process isdir cwd debug a = Ok (b, w) ->
  a_json b = a_json a /\ a_color b = json_colour a /\ a_limit b = a_limit a /\ a_exec b = a_exec a /\ a_exec_batch b = a_exec_batch a /\
  (given (a_count b) <-> given (a_count a)) /\ ~ conflict debug a /\ warned a b w.
Proof.
  intros H. assert (W := process_warnings _ _ _ _ _ _ H). assert (NC : ~ conflict debug a) by (apply (process_ok_iff isdir cwd debug a); eauto).
  unfold ArgumentsModel.process in H. destruct (process_directories isdir cwd a) as [a1|e] eqn:E; cbn [bindr] in H; [|discriminate].
  destruct (check_for_errors debug (process_arguments a1)); cbn [bindr] in H; [|discriminate].
  injection H as H. apply process_detect in E. subst a1. apply warnings_look in H. destruct H as (H1 & H2 & H3 & H4 & H5 & H6).
  destruct (arguments_look (detect isdir a)) as [A1 A2]. destruct (process_same (detect isdir a)) as [(P1 & P2 & P3 & _) C].
  destruct (detect_same isdir a) as (D1 & D2 & D3 & D4 & D5 & D6 & D7).
  assert (D8 : a_json (detect isdir a) = a_json a /\ a_color (detect isdir a) = a_color a).
  { unfold detect. destruct (a_directories a) eqn:Ed; [|rewrite Ed; auto]. cbv zeta. destruct (front_loop _ _ _ _) as [t1 d1]. destruct (back_loop _ _ _ _) as [t2 d2].
    cbn [a_directories set_directories]. destruct d2; cbn; auto. }
  destruct D8 as [D8 D9]. unfold json_colour in *. rewrite D8, D9 in A2. rewrite H1, H2, H3, H4, H5, H6, A1, A2, P1, P2, P3, D1, D2, D3, D8, C, D7. tauto.
Qed.
(** Only --json and --jsonl set a_json. *)
Definition json_known (a : pargs) : Prop := a_json a = None \/ a_json a = Some ($"json") \/ a_json a = Some ($"jsonl").
Lemma asked_unique a t p q : Asked a t p -> Asked a t q -> p = q.
Proof. intros H K. destruct H, K; try reflexivity; try contradiction; try congruence; match goal with A : a_json a = _, B : a_json a = _ |- _ => rewrite A in B; discriminate B end. Qed.
Lemma start_presents isdir cwd debug t a p : json_known a -> start_processing isdir cwd debug t a = Ok p -> Asked a t (presents p).
Proof.
  intros J H. unfold start_processing in H. destruct (ArgumentsModel.process isdir cwd debug a) as [[b w]|] eqn:E; cbn [bindr] in H; [|discriminate].
  injection H as <-. apply process_look in E. destruct E as (E1 & E2 & E3 & E4 & E5 & E6 & NC & W).
  rewrite <- truthy_iff in E6. unfold setup_processing, chosen_of. cbn [o_sort o_count o_limit o_exec o_batch].
  assert (C : truthy (a_exec b) || truthy (a_exec_batch b) = true <-> commands a)
    by (unfold commands; rewrite E4, E5, orb_true_iff, !truthy_iff; tauto).
  assert (N : given (a_count a) -> ~ commands a) by (intros G K; apply NC; left; split; [exact G|destruct K; auto]).
  assert (X : forall s l i x k, ~ commands a ->
     Asked a t (match console_class (Chosen s (truthy (a_count b)) l x k (a_json b) (a_color b) t) with
                | NullConsole => Statistics | JsonConsole => Array | JsonlConsole => Objects | ColorConsole => Colours | TextConsole => Lines end) /\ i = i :> bool).
  { intros s l i x k NCo. split; [|reflexivity]. unfold console_class, json_is. cbn [o_count o_json o_colour o_isatty].
    destruct (truthy (a_count b)) eqn:Ec; [apply asked_statistics; [exact NCo|apply E6; reflexivity]|].
    assert (NG : ~ given (a_count a)) by (intros G; apply E6 in G; discriminate).
    rewrite E1, E2. unfold json_colour. destruct J as [J|[J|J]]; rewrite J.
    - destruct (str_eqb (a_color a) ($"auto")) eqn:Ea.
      + apply str_eqb_eq in Ea. destruct t.
        * apply asked_colours; auto. right. auto.
        * apply asked_lines; auto. intros [K|[_ K]]; [rewrite Ea in K; discriminate K|discriminate].
      + apply str_eqb_neq in Ea. destruct (str_eqb (a_color a) ($"always")) eqn:Eb.
        * apply str_eqb_eq in Eb. apply asked_colours; auto. left. auto.
        * apply str_eqb_neq in Eb. apply asked_lines; auto. intros [K|[K _]]; contradiction.
    - now apply asked_array.
    - now apply asked_objects. }
  destruct (truthy (a_exec b)) eqn:Ex, (truthy (a_exec_batch b)) eqn:Eb; cbn [orb] in C; rewrite ?orb_true_r; cbn [orb].
  - apply asked_commands. tauto.
  - destruct (_ || _); apply asked_commands; tauto.
  - apply asked_commands. tauto.
  - assert (NCo : ~ commands a) by (intros K; apply C in K; discriminate). rewrite orb_false_r.
    destruct (_ || _); cbn [presents]; apply (X _ _ true); exact NCo.
Qed.
Lemma start_waits isdir cwd debug t a p : json_known a -> start_processing isdir cwd debug t a = Ok p -> (waits p <-> Waits a).
Proof.
  intros J H. unfold start_processing in H. destruct (ArgumentsModel.process isdir cwd debug a) as [[b w]|] eqn:E; cbn [bindr] in H; [|discriminate].
  injection H as <-. apply process_look in E. destruct E as (E1 & E2 & E3 & E4 & E5 & E6 & NC & W).
  unfold warned in W. destruct W as (_ & _ & _ & _ & _ & _ & _ & W1 & W2 & _).
  unfold setup_processing, chosen_of, json_is. cbn [o_sort o_count o_limit o_exec o_batch o_json].
  assert (K : truthy (a_sort b) || truthy (a_count b) || match a_limit b with Some _ => true | None => false end || truthy (a_exec_batch b) ||
     match a_json b with Some j => str_eqb j ($"json") | None => false end = true <-> Waits a).
  { unfold Waits. rewrite E1, E3, E5. rewrite !orb_true_iff, !truthy_iff, E6.
    assert (L : match a_limit a with Some _ => true | None => false end = true <-> a_limit a <> None) by (destruct (a_limit a); split; congruence).
    assert (M : match a_json a with Some j => str_eqb j ($"json") | None => false end = true <-> a_json a = Some ($"json")).
    { destruct (a_json a) as [j|]; [|split; discriminate]. rewrite str_eqb_eq. split; [now intros ->|intros Q; now injection Q]. }
    rewrite L, M. assert (S : given (a_sort b) \/ given (a_count a) <-> given (a_sort a) \/ given (a_count a)).
    { split; intros [Q|Q]; auto.
      - destruct (truthy (a_count a)) eqn:T; [right; now apply truthy_iff|]. rewrite W2 in Q; auto. intros G. apply truthy_iff in G. congruence.
      - destruct (truthy (a_count a)) eqn:T; [right; now apply truthy_iff|]. rewrite <- W2 in Q; auto. intros G. apply truthy_iff in G. congruence. }
    tauto. }
  match type of K with ?x = true <-> _ => destruct x eqn:EQ end.
  - rewrite <- K. split; [intros _; reflexivity|intros _]. destruct (truthy (a_exec b) || truthy (a_exec_batch b)); [now left|right; eauto].
  - split; [|intros Q; apply K in Q; discriminate]. intros Q. exfalso. destruct (truthy (a_exec b)); destruct Q as [Q|[c Q]]; discriminate Q.
Qed.
