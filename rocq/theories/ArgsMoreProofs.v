From Coq Require Import List NArith ZArith Bool Lia.
From Verif Require Import Py Re ArgsModel ArgsSpec ArgsProofs.
Import ListNotations.
Local Open Scope nat_scope.

Section More.
  Variable max_cpu : Z.
  Variable options : list opt.
  Notation convert := (convert max_cpu).
  Hypothesis ok : table_ok convert options = true.
  Notation names := (names options).
  Notation Spelled := (Spelled options).
  Notation Reads := (Reads options).
  Notation Change := (Change options convert).
  Notation Leads := (Leads options convert).
  Notation Means := (Means options convert).
  Notation parse_args := (parse_args max_cpu options).
  Notation run := (run max_cpu options).
  Notation starts := (starts options).

  Lemma spelled_dash w ws : Spelled w ws -> dash w /\ dash_first ws /\ 2 <= length ws.
  Proof.
    intros H. split; [now apply (spelled_words max_cpu options ok) in H|].
    destruct H as [o l v Hn Hv [n ->]|cs Hl Hc|cs o c v Hc Hn Hv He].
    - split; [now eexists|cbn; lia].
    - destruct cs as [|c cs]; cbn in *; [lia|]. split; [now eexists|]. rewrite map_length. lia.
    - destruct cs as [|d cs]; cbn; (split; [now eexists|]).
      + lia.
      + rewrite app_length, map_length. cbn. lia.
  Qed.
  Lemma run_split ns pre items tail : Reads pre items -> no_rest items -> dash_first tail ->
    run ns (pre ++ tail) = do ns' <- apply_all max_cpu options ns items; run ns' tail.
  Proof. intros. apply reads_run; auto. Qed.
  Lemma spelled_parse pre items w ws post : Reads pre items -> no_rest items -> Spelled w ws ->
    parse_args (pre ++ w :: post) = parse_args (pre ++ ws ++ post).
  Proof.
    intros HR Hn HS. change (run (initialize options) (pre ++ w :: post) = run (initialize options) (pre ++ ws ++ post)).
    destruct (spelled_dash w ws HS) as (D1 & D2 & D3).
    rewrite (run_split _ pre items) by auto.
    rewrite (run_split _ pre items (ws ++ post)); auto.
    - destruct (apply_all _ _ _ _); cbn [bindr]; [|reflexivity]. now apply spelled_run.
    - destruct ws; [cbn in D3; lia|exact D2].
  Qed.

  (** Reading is deterministic. *)
  Lemma names_not_spelled o w ws : names o w -> Spelled w ws -> False.
  Proof.
    intros Hn HS. assert (H := spelled_dash w ws HS). apply (spelled_words max_cpu options ok) in HS as [HS _].
    apply (plain_words max_cpu options ok) in Hn. rewrite Hn in HS. injection HS as <-. cbn in H. lia.
  Qed.
  Lemma spelled_det w ws ws' : Spelled w ws -> Spelled w ws' -> ws = ws'.
  Proof.
    intros H H'. apply (spelled_words max_cpu options ok) in H as [H _].
    apply (spelled_words max_cpu options ok) in H' as [H' _]. congruence.
  Qed.
  Lemma names_det o o' w : names o w -> names o' w -> o = o'.
  Proof. apply (ok_unique max_cpu options ok). Qed.
  Lemma args_split l l' (rest rest' : list str) : l ++ rest = l' ++ rest' ->
    (forall a, In a l -> ~ dash a) -> (forall a, In a l' -> ~ dash a) -> dash_first rest -> dash_first rest' ->
    l = l' /\ rest = rest'.
  Proof.
    intros E H H' D D'. assert (X := take_args_app l rest H D). assert (Y := take_args_app l' rest' H' D').
    rewrite E in X. rewrite X in Y. now injection Y.
  Qed.
  Lemma reads_det argv items : Reads argv items -> forall items', Reads argv items' -> items = items'.
  Proof.
    assert (ND : forall o w, names o w -> dash w) by apply (names_dash max_cpu options ok).
    assert (SD : forall w ws, Spelled w ws -> dash w) by (intros; eapply spelled_dash; eauto).
    assert (NA : forall w (l : list str) rest argv, l <> [] -> (forall a, In a l -> ~ dash a) -> l ++ rest = w :: argv -> dash w -> False).
    { intros w l rest argv0 Hl Hd E D. destruct l; [easy|]. injection E as -> _. apply (Hd w); [now left|exact D]. }
    induction 1 as [|w ws rest items HS HR IH|o w rest items Hn Ha HR IH|o w v rest items Hn Ha HR IH
      |o w v rest items Hn Ha Hv HR IH|o w rest items Hn Ha Hd HR IH|o w l Hn Ha Hl|l rest items Hl Hnd Hd HR IH];
      intros items' H'.
    - symmetry. now apply (reads_nil_inv options).
    - inversion H'; subst; try (exfalso; eapply names_not_spelled; eauto; fail); try (exfalso; eapply NA; eauto; fail).
      apply IH. match goal with X : Spelled w ?y |- _ => rewrite (spelled_det w ws y) by assumption end. assumption.
    - inversion H'; subst; try (exfalso; eapply names_not_spelled; eauto; fail); try (exfalso; eapply NA; eauto; fail);
        match goal with X : names ?y w |- _ => assert (o = y) by eauto using names_det end; subst;
        try (exfalso; intuition congruence). f_equal. auto.
    - inversion H'; subst; try (exfalso; eapply names_not_spelled; eauto; fail); try (exfalso; eapply NA; eauto; fail);
        match goal with X : names ?y w |- _ => assert (o = y) by eauto using names_det end; subst;
        try (exfalso; intuition congruence). f_equal. auto.
    - inversion H'; subst; try (exfalso; eapply names_not_spelled; eauto; fail); try (exfalso; eapply NA; eauto; fail);
        match goal with X : names ?y w |- _ => assert (o = y) by eauto using names_det end; subst;
        try (exfalso; intuition congruence); f_equal; auto.
    - inversion H'; subst; try (exfalso; eapply names_not_spelled; eauto; fail); try (exfalso; eapply NA; eauto; fail);
        match goal with X : names ?y w |- _ => assert (o = y) by eauto using names_det end; subst;
        try (exfalso; intuition congruence); f_equal; auto. 
    - inversion H'; subst; try (exfalso; eapply names_not_spelled; eauto; fail); try (exfalso; eapply NA; eauto; fail);
        match goal with X : names ?y w |- _ => assert (o = y) by eauto using names_det end; subst;
        try (exfalso; intuition congruence). reflexivity.
    - remember (l ++ rest) as argv eqn:E.
      destruct H' as [|w ws rest' items' HS' HR'|o w rest' items' Hn' Ha' HR'|o w v rest' items' Hn' Ha' HR'
        |o w v rest' items' Hn' Ha' Hv' HR'|o w rest' items' Hn' Ha' Hd' HR'|o w l' Hn' Ha' Hl'|l' rest' items' Hl' Hnd' Hd' HR'];
        try (exfalso; symmetry in E; eapply NA; [exact Hl|exact Hnd|exact E|eauto]).
      + destruct l; [easy|discriminate].
      + apply args_split in E as [-> ->]; auto. f_equal. auto.
  Qed.

  (** Commands. *)
  Lemma leads_untouched ns items ns' d : Leads ns items ns' -> untouched options convert d items -> ns' d = ns d.
  Proof.
    induction 1 as [ns ns' H|ns i items d' c ns1 ns' HC H1 H2 HL IH]; intros Hu; [apply H|].
    rewrite IH; [|intros j c' Hj; apply Hu; now right]. apply H1. intros ->. apply (Hu i c); [now left|exact HC].
  Qed.
  Lemma leads_app ns l k ns' : Leads ns (l ++ k) ns' -> exists n, Leads ns l n /\ Leads n k ns'.
  Proof.
    revert ns. induction l as [|i l IH]; cbn [app]; intros ns H.
    - exists ns. split; [now constructor|exact H].
    - inversion H as [|? ? ? d c n1 ? HC H1 H2 HL]; subst. apply IH in HL as (n & L1 & L2). exists n.
      split; [|exact L2]. eapply leads_cons; eauto.
  Qed.
  Lemma leads_last ns l1 i l2 ns' d x : Leads ns (l1 ++ i :: l2) ns' -> (forall d c, Change i d c -> Change i d c) ->
    item_ok options i -> Change i d (Becomes x) -> untouched options convert d l2 -> ns' d = x.
  Proof.
    intros H _ Hi HC Hu. apply leads_app in H as (n & _ & H). inversion H as [|? ? ? d' c n1 ? HC' H1 H2 HL]; subst.
    destruct (change_det max_cpu options ok i d (Becomes x) d' c Hi HC HC') as [<- <-].
    rewrite (leads_untouched _ _ _ _ HL Hu). exact H2.
  Qed.
  Lemma leads_collects items d k : Collects options convert d items k -> (forall i, In i items -> item_ok options i) ->
    forall ns ns', is_list (ns d) -> Leads ns items ns' ->
    ns' d = match k with [] => ns' d | _ => grown (ns d) k end /\ (k = [] -> ns' d = grown (ns d) [] \/ ns' d = ns d).
  Proof.
    induction 1 as [|i items l Hc HC IH|i items k l Hc HC IH]; intros Hok ns ns' Ht HL.
    - inversion HL; subst. split; [reflexivity|]. intros _. right. auto.
    - inversion HL as [|? ? ? d' c n1 ? HC' H1 H2 HL']; subst.
      assert (d <> d') by (intros ->; now apply Hc in HC').
      rewrite <- (H1 d) by assumption. apply IH; auto; [intros; apply Hok; now right|]. rewrite H1 by assumption. exact Ht.
    - inversion HL as [|? ? ? d' c n1 ? HC' H1 H2 HL']; subst.
      destruct (change_det max_cpu options ok i d (Grows k) d' c (Hok i (or_introl eq_refl)) Hc HC') as [<- <-].
      destruct (IH (fun i H => Hok i (or_intror H)) n1 ns') as [I1 I2]; [|exact HL'|].
      + rewrite H2. right. destruct (ns d); cbn; eauto.
      + split.
        * destruct (k ++ l) as [|x kl] eqn:E; [reflexivity|]. rewrite <- E. destruct l as [|y l].
          -- rewrite app_nil_r. destruct (I2 eq_refl) as [X|X]; rewrite X, H2; [|reflexivity].
             destruct (ns d); cbn [grown]; now rewrite app_nil_r.
          -- rewrite I1, H2. destruct (ns d); cbn [grown]; rewrite ?app_assoc; reflexivity.
        * intros E. apply app_eq_nil in E as [-> ->]. destruct (I2 eq_refl) as [X|X]; rewrite X, H2; left; [|reflexivity].
          destruct (ns d); cbn [grown]; rewrite ?app_nil_r; reflexivity.
  Qed.
  Lemma parse_leads argv ns : parse_args argv = Ok ns ->
    exists items start, Reads argv items /\ starts start /\ Leads start items ns /\ forall i, In i items -> item_ok options i.
  Proof.
    intros H. apply (parse_sound max_cpu options ok) in H as (items & start & HR & _ & HS & HL).
    exists items, start. split; [exact HR|]. split; [exact HS|]. split; [exact HL|]. now apply (reads_ok options argv).
  Qed.
  (** The value of a list option after reading. *)
  Lemma parse_collects argv ns items o k : parse_args argv = Ok ns -> Reads argv items -> In o options -> grows o = true ->
    Collects options convert (o_dest o) items k -> o_default o = AStrs [] -> ns (o_dest o) = AStrs k.
  Proof.
    intros H HR Ho Hg HC Hd. apply parse_leads in H as (items' & start & HR' & HS & HL & Hok).
    assert (items' = items) by eauto using reads_det. subst items'.
    assert (St : start (o_dest o) = AStrs []).
    { destruct (ok_grows max_cpu options ok o Ho Hg) as (_ & _ & K).
      destruct (HS (o_dest o)) as [(o' & l1 & l2 & E & H1 & H2 & _)|[_ X]]; [|exfalso; now apply (X o)].
      rewrite H2, (K o'); [exact Hd| |exact H1]. rewrite E. apply in_or_app. right. now left. }
    destruct (leads_collects _ _ _ HC Hok start ns) as [X1 X2]; [|exact HL|].
    - rewrite St. right. eauto.
    - rewrite St in *. cbn [grown app] in *. destruct k as [|x k]; [destruct (X2 eq_refl); congruence|exact X1].
  Qed.
  Lemma parse_last argv ns l1 i l2 d x : parse_args argv = Ok ns -> Reads argv (l1 ++ i :: l2) ->
    Change i d (Becomes x) -> untouched options convert d l2 -> ns d = x.
  Proof.
    intros H HR HC Hu. apply parse_leads in H as (items' & start & HR' & HS & HL & Hok).
    assert (items' = l1 ++ i :: l2) by eauto using reads_det. subst items'.
    eapply leads_last; eauto. apply Hok. apply in_or_app. right. now left.
  Qed.
  Lemma parse_untouched argv ns items d : parse_args argv = Ok ns -> Reads argv items ->
    untouched options convert d items -> ns d = initialize options d.
  Proof.
    intros H HR Hu. apply parse_leads in H as (items' & start & HR' & HS & HL & Hok).
    assert (items' = items) by eauto using reads_det. subst items'.
    rewrite (leads_untouched _ _ _ _ HL Hu). eapply starts_unique; eauto; eapply initialize_starts; eauto.
  Qed.

  (** A command leaves a trace. *)
  Lemma leads_grows ns items ns' d : Leads ns items ns' -> (forall i c, In i items -> Change i d c -> exists l, c = Grows l) ->
    (exists x k, ns d = AStrs (x :: k)) -> exists x k, ns' d = AStrs (x :: k).
  Proof.
    induction 1 as [ns ns' H|ns i items d' c ns1 ns' HC H1 H2 HL IH]; intros Hg Ht.
    - rewrite H. exact Ht.
    - apply IH; [intros; eapply Hg; eauto; now right|]. destruct (str_eq_dec d d') as [->|Hne].
      + destruct (Hg i c (or_introl eq_refl) HC) as [l ->]. rewrite H2. destruct Ht as (x & k & ->). cbn. eauto.
      + rewrite H1 by exact Hne. exact Ht.
  Qed.
  Lemma grow_changes o i c : In o options -> grows o = true -> item_ok options i -> Change i (o_dest o) c -> exists l, c = Grows l.
  Proof.
    intros Ho Hg Hi HC. destruct (ok_grows max_cpu options ok o Ho Hg) as (_ & _ & K).
    assert (G : forall o', In o' options -> o_dest o' = o_dest o -> o_action o' = o_action o) by (intros o' Ho' E; now rewrite (K o' Ho' E)).
    unfold grows in Hg.
    inversion HC; subst; eauto; exfalso; cbn [item_ok] in Hi; 
      (rewrite <- (G o0) in Hg by tauto); destruct (o_action o0) eqn:A; try discriminate; intuition congruence.
  Qed.
  Lemma no_command argv ns items : parse_args argv = Ok ns -> Reads argv items ->
    (forall o, In o options -> o_action o = StoreRemainder -> ns (o_dest o) = ANone) -> no_rest items.
  Proof.
    intros H HR Hx o l Hin. apply parse_leads in H as (items' & start & HR' & HS & HL & Hok).
    assert (items' = items) by eauto using reads_det. subst items'.
    assert (Oi := Hok _ Hin). cbn [item_ok] in Oi. destruct Oi as (Ho & Ha & Hl).
    assert (Hg : grows o = true) by (apply in_grows; auto).
    apply in_split in Hin as (l1 & l2 & ->). apply leads_app in HL as (n & _ & HL).
    inversion HL as [|? ? ? d c n1 ? HC H1 H2 HL']; subst. inversion HC; subst.
    assert (X : exists x k, ns (o_dest o) = AStrs (x :: k)).
    { eapply leads_grows; [exact HL'| |].
      - intros i c Hi. apply (grow_changes o); auto. apply Hok. apply in_or_app. right. now right.
      - rewrite H2. destruct l as [|x l]; [easy|]. destruct (n (o_dest o)) as [| | | |[|]| |]; cbn; eauto. }
    rewrite (Hx o Ho Ha) in X. destruct X as (x & k & X). discriminate.
  Qed.
  Lemma parse_reads argv ns : parse_args argv = Ok ns -> exists items, Reads argv items /\
    apply_all max_cpu options (initialize options) items = Ok ns.
  Proof.
    intros H. change (run (initialize options) argv = Ok ns) in H.
    eapply run_reads; eauto.
  Qed.
  Lemma command_parse pre ns o w args : parse_args pre = Ok ns ->
    (forall o, In o options -> o_action o = StoreRemainder -> ns (o_dest o) = ANone) ->
    names o w -> o_action o = StoreRemainder -> args <> [] ->
    exists ns', parse_args (pre ++ w :: args) = Ok ns' /\ ns' (o_dest o) = AStrs args /\
      forall d, d <> o_dest o -> ns' d = ns d.
  Proof.
    intros H Hx Hn Ha Hargs. destruct (parse_reads _ _ H) as (items & HR & HA).
    assert (Hno := no_command _ _ _ H HR Hx).
    assert (E : parse_args (pre ++ w :: args) = do ns' <- apply_all max_cpu options (initialize options) items; run ns' (w :: args)).
    { apply run_split; auto. exact (names_dash max_cpu options ok _ _ Hn). }
    rewrite E, HA. cbn [bindr].
    rewrite <- (app_nil_r (w :: args)).
    rewrite (reads_run max_cpu options ok _ _ (reads_rest options o w args Hn Ha Hargs)); [|now right|exact I].
    assert (Ho : In o options) by apply Hn.
    assert (T : typed options ns).
    { intros o' Ho' Hg. clear -ok H Ho' Hg. apply parse_leads in H as (items & start & _ & HS & HL & Hok).
      apply (starts_typed max_cpu options ok) in HS. 
      assert (G : forall d, is_list (start d) -> (forall i c, In i items -> Change i d c -> exists l, c = Grows l) -> is_list (ns d)).
      { clear -HL. induction HL as [ns ns' H|ns i items d' c ns1 ns' HC H1 H2 HL IH]; intros d Hd Hc; [rewrite H; exact Hd|].
        apply IH; [|intros; eapply Hc; eauto; now right]. destruct (str_eq_dec d d') as [->|Hne]; [|now rewrite H1].
        destruct (Hc i c (or_introl eq_refl) HC) as [l ->]. rewrite H2. right. destruct (ns d'); cbn; eauto. }
      apply G; [now apply HS|]. intros i c Hi. apply grow_changes; auto. }
    assert (Oi : item_ok options (Rest o args)) by (cbn; auto).
    destruct (item_change max_cpu options ok ns (Rest o args) T Oi) as [(d & c & n & HC & E' & [U1 U2] & _)|[(? & ? & ? & X & _)|(? & ? & X & _)]]; try discriminate.
    cbn [apply_all]. rewrite E'. cbn [bindr]. inversion HC; subst. exists n. split; [reflexivity|]. split; [|exact U2].
    rewrite U1, (Hx o Ho Ha). reflexivity.
  Qed.
  Lemma command_missing pre ns o w : parse_args pre = Ok ns ->
    (forall o, In o options -> o_action o = StoreRemainder -> ns (o_dest o) = ANone) ->
    names o w -> o_action o = StoreRemainder -> parse_args (pre ++ [w]) = Err ArgumentErr.
  Proof.
    intros H Hx Hn Ha. destruct (parse_reads _ _ H) as (items & HR & HA).
    assert (Hno := no_command _ _ _ H HR Hx).
    assert (E : parse_args (pre ++ [w]) = do ns' <- apply_all max_cpu options (initialize options) items; run ns' [w]).
    { apply run_split; auto. exact (names_dash max_cpu options ok _ _ Hn). }
    rewrite E, HA. cbn [bindr]. rewrite (plain_run max_cpu options ok _ _ _ _ Hn). unfold parse_option.
    rewrite (proj2 (get_option_names max_cpu options ok _ _) Hn). cbn [bindr]. rewrite Ha. reflexivity.
  Qed.

  (** Two lists of arguments one after the other. *)
  Lemma closed_tail i items : items <> [] -> closed (i :: items) -> closed items.
  Proof. intros _ H l j E. apply (H (i :: l) j). now rewrite E. Qed.
  Lemma reads_nonnil argv items : Reads argv items -> argv <> [] -> items <> [].
  Proof.
    intros H. induction H; try easy. intros _. apply IHReads.
    apply spelled_dash in H as (_ & _ & H). destruct ws; [cbn in H; lia|discriminate].
  Qed.
  Lemma reads_app a items : Reads a items -> forall b items', no_rest items -> dash_first b \/ closed items -> Reads b items' ->
    Reads (a ++ b) (items ++ items').
  Proof.
    assert (T : forall i items, no_rest (i :: items) -> no_rest items) by (intros i l H o k Hin; apply (H o k); now right).
    assert (C : forall b i items, dash_first b \/ closed (i :: items) -> dash_first b \/ closed items).
    { intros b i l [H|H]; [auto|right]. intros k j E. apply (H (i :: k) j). now rewrite E. }
    assert (B : forall b i rest items, dash_first b \/ closed (i :: items) -> match i with Bare _ | Args _ => True | _ => False end ->
      Reads rest items -> dash_first rest -> dash_first (rest ++ b)).
    { intros b i rest l H Hi HR Hd. destruct rest as [|x rest]; [|exact Hd]. apply (reads_nil_inv options) in HR. subst l.
      destruct H as [H|H]; [exact H|]. specialize (H [] i eq_refl). now destruct i. }
    induction 1 as [|w ws rest items HS HR IH|o w rest items Hn Ha HR IH|o w v rest items Hn Ha HR IH
      |o w v rest items Hn Ha Hv HR IH|o w rest items Hn Ha Hd HR IH|o w l Hn Ha Hl|l rest items Hl Hnd Hd HR IH];
      intros b items' Hr Hc Hb; cbn [app].
    - exact Hb.
    - eapply reads_spelled; [exact HS|]. rewrite app_assoc. auto.
    - apply reads_flag; eauto.
    - apply reads_value; eauto.
    - apply reads_optional; eauto.
    - apply reads_bare; [exact Hn|exact Ha|exact (B b (Bare o) rest items Hc I HR Hd)|eauto].
    - exfalso. apply (Hr o l). now left.
    - rewrite <- app_assoc. apply reads_args; [exact Hl|exact Hnd|exact (B b (Args l) rest items Hc I HR Hd)|eauto].
  Qed.

  (** Errors. *)
  Notation BadValue := (BadValue options convert).
  Lemma bad_nil e l : BadValue e l -> l <> [].
  Proof. intros H. induction H; try easy. destruct l; [easy|discriminate]. Qed.
  Lemma option_bad ns o w argv e : names o w -> typed options ns -> parse_option max_cpu options ns w argv = Err e ->
    e = ArgumentErr \/ BadValue e (w :: argv).
  Proof.
    intros Hn Ht. unfold parse_option. rewrite (proj2 (get_option_names max_cpu options ok _ _) Hn). cbn [bindr].
    assert (Ho : In o options) by apply Hn.
    destruct (o_action o) eqn:Ha.
    - discriminate.
    - discriminate.
    - destruct argv as [|v argv]; [intros [= <-]; auto|]. intros H. right.
      destruct (ok_grows max_cpu options ok o Ho (in_grows o (or_introl Ha))) as (_ & Ty & _).
      exfalso. rewrite Ty in H. cbn [ArgsModel.convert bindr] in H. unfold ns_append in H.
      destruct (Ht o Ho (in_grows o (or_introl Ha))) as [X|[l X]]; rewrite X in H; discriminate.
    - destruct argv as [|v argv]; [intros [= <-]; auto|]. destruct (convert (o_type o) v) as [x|e'] eqn:C; cbn [bindr]; [discriminate|].
      intros [= <-]. right. eapply bad_here; [exact Hn|now left|exact C].
    - cbv zeta. destruct (ok_optional max_cpu options ok o Ho Ha) as (s & x & Cs & Cx). rewrite Cs, Cx. cbn [bindr].
      destruct argv as [|v argv]; [discriminate|]. destruct (dashed v) eqn:D; [discriminate|].
      destruct (convert (o_type o) v) as [y|e'] eqn:C; cbn [bindr]; [discriminate|]. intros [= <-]. right.
      eapply bad_here; [exact Hn| |exact C]. right. right. split; [exact Ha|now apply dashed_false].
    - destruct argv as [|v argv]; [intros [= <-]; auto|]. intros H. exfalso.
      destruct (appends_ok (v :: argv) ns (o_dest o)) as (n & E & _); [easy|apply Ht; [exact Ho|apply in_grows; auto]|].
      unfold appends in E. rewrite E in H. discriminate.
    - intros [= <-]. auto.
  Qed.
  Lemma option_bad_later ns o w argv ns' argv' e : names o w -> parse_option max_cpu options ns w argv = Ok (ns', argv') ->
    BadValue e argv' -> BadValue e (w :: argv).
  Proof.
    intros Hn. unfold parse_option. rewrite (proj2 (get_option_names max_cpu options ok _ _) Hn). cbn [bindr]. intros H HB.
    destruct (o_action o) eqn:Ha.
    - injection H as <- <-. eapply bad_flag; eauto.
    - injection H as <- <-. eapply bad_flag; eauto.
    - destruct argv as [|v argv]; [discriminate|]. destruct (convert _ _); cbn [bindr] in H; [|discriminate].
      destruct (ns_append _ _ _); cbn [bindr] in H; [|discriminate]. injection H as <- <-.
      eapply bad_value; [exact Hn|right; now left|exact HB].
    - destruct argv as [|v argv]; [discriminate|]. destruct (convert _ _); cbn [bindr] in H; [|discriminate].
      injection H as <- <-. eapply bad_value; [exact Hn|now left|exact HB].
    - cbv zeta in H. destruct argv as [|v argv].
      + destruct (match o_const o with AStr s => _ | _ => _ end); cbn [bindr] in H; [|discriminate]. injection H as <- <-.
        now apply bad_nil in HB.
      + destruct (dashed v) eqn:D.
        * destruct (match o_const o with AStr s => _ | _ => _ end); cbn [bindr] in H; [|discriminate]. injection H as <- <-.
          eapply bad_bare; [exact Hn|exact Ha|now apply dashed_iff|exact HB].
        * destruct (convert _ _); cbn [bindr] in H; [|discriminate]. injection H as <- <-.
          eapply bad_value; [exact Hn| |exact HB]. right. right. split; [exact Ha|now apply dashed_false].
    - destruct argv as [|v argv]; [discriminate|]. destruct (fold_left _ _ _); cbn [bindr] in H; [|discriminate].
      injection H as <- <-. now apply bad_nil in HB.
    - discriminate.
  Qed.
  Lemma run_bad n : forall ns argv e, weight argv <= n -> typed options ns -> run ns argv = Err e ->
    e = ArgumentErr \/ BadValue e argv.
  Proof.
    induction n as [|n IH]; intros ns argv e Hw Ht H.
    - destruct argv as [|a argv]; [discriminate|].
      assert (P := weight_pos max_cpu options ok a). change (a :: argv) with ([a] ++ argv) in Hw. rewrite weight_app in Hw. lia.
    - destruct argv as [|a argv]; [discriminate|]. rewrite (run_cons max_cpu options ok) in H. assert (T := turn_err max_cpu options ok ns a argv Ht).
      destruct (turn max_cpu options ns a argv) as [[ns1 argv1]|e'] eqn:E; cbn [bindr] in H.
      + assert (W := turn_weight max_cpu options ok ns a argv ns1 argv1 E). 
        destruct (IH ns1 argv1 e) as [X|X]; [lia|exact T|exact H|auto|]. right.
        destruct (dashed a) eqn:D.
        * apply dashed_iff in D. rewrite (turn_words _ _ _ _ _ D) in E. destruct (words options a) as [ws|] eqn:Ew; [|discriminate].
          cbn [bindr] in E. unfold first_word in E. destruct (words_weight max_cpu options ok _ _ Ew D) as [Wn _].
          destruct ws as [|w ws]; [easy|]. cbn [app] in E.
          assert (Hn : exists o, names o w).
          { unfold parse_option in E. destruct (get_option options w) as [o|] eqn:G; [|discriminate].
            apply (get_option_names max_cpu options ok) in G. eauto. }
          destruct Hn as [o Hn]. assert (B := option_bad_later _ _ _ _ _ _ _ Hn E X).
          destruct (words_spelled max_cpu options ok _ _ D Ew) as [Q|S].
          -- injection Q as -> ->. exact B.
          -- eapply bad_spelled; [exact S|exact B].
        * unfold turn in E. rewrite D in E. unfold parse_arguments in E.
          assert (TS := take_args_spec (a :: argv)).
          destruct (get_arguments_option options) as [o|] eqn:G; [|discriminate]. cbn [bindr] in E.
          destruct (take_args (a :: argv)) as [x y] eqn:TA. destruct TS as (Q & H1 & H2).
          assert (y = argv1).
          { destruct (ns (o_dest o)) as [| | | |[|]| |]; try discriminate;
            (destruct (fold_left _ x (Ok ns)); [|discriminate]); cbn [bindr] in E; now injection E. }
          subst y. rewrite Q. apply bad_args; auto. cbn [take_args] in TA. rewrite D in TA. destruct (take_args argv).
          injection TA as <- <-. easy.
      + injection H as <-. destruct (dashed a) eqn:D.
        * apply dashed_iff in D. rewrite (turn_words _ _ _ _ _ D) in E. destruct (words options a) as [ws|] eqn:Ew; cbn [bindr] in E.
          -- unfold first_word in E. destruct (words_weight max_cpu options ok _ _ Ew D) as [Wn _].
             destruct ws as [|w ws]; [easy|]. cbn [app] in E.
             destruct (get_option options w) as [o|e0] eqn:G.
             ++ apply (get_option_names max_cpu options ok) in G. apply option_bad with (o := o) in E as [E|E]; auto. right.
                destruct (words_spelled max_cpu options ok _ _ D Ew) as [Q|S].
                ** injection Q as -> ->. exact E.
                ** eapply bad_spelled; [exact S|exact E].
             ++ unfold parse_option in E. rewrite G in E. cbn [bindr] in E. apply (get_option_err max_cpu options ok) in G as [-> _]. left. congruence.
          -- injection E as <-. apply (words_err max_cpu options ok) in Ew. auto.
        * left. unfold turn in E. rewrite D in E. unfold parse_arguments in E.
          destruct (arguments_option max_cpu options ok) as (o & G & Ho & Ha & _). rewrite G in E. cbn [bindr] in E.
          assert (Hi : fst (take_args (a :: argv)) <> []).
          { cbn [take_args]. rewrite D. destruct (take_args argv). easy. }
          destruct (take_args (a :: argv)) as [x y]. cbn [fst] in Hi.
          assert (G' : grows o = true) by (apply in_grows; auto).
          destruct (appends_ok x ns (o_dest o) Hi (Ht o Ho G')) as (n' & X & _). unfold appends in X. rewrite X in E.
          destruct (ns (o_dest o)) as [| | | |[|]| |]; try discriminate. congruence.
  Qed.
  Lemma parse_bad argv e : parse_args argv = Err e -> e = ArgumentErr \/ (e = ValueError /\ BadValue ValueError argv).
  Proof.
    intros H. assert (X := parse_err max_cpu options ok argv e H).
    destruct (run_bad (weight argv) (initialize options) argv e) as [Y|Y]; auto.
    - eapply starts_typed; eauto. eapply initialize_starts; eauto.
    - destruct X as [-> | ->]; auto.
  Qed.
End More.

Lemma table_ok_create debug max_cpu cache color : table_ok (convert max_cpu) (create_parser debug max_cpu cache color) = true.
Proof. destruct debug; vm_compute; reflexivity. Qed.
