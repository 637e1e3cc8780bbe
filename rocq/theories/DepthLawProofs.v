(** --depth and arbitrary expressions: the language that is accepted. *)
From Coq Require Import List NArith ZArith Bool Lia.
From Verif Require Import Py GrammarSpec ParserModel ParserProofs TypeModel
  RegistryModel TestModel TestProofs ArgumentsModel ArgumentsSpec DepthProofs ArgumentsProofs DepthLawSpec.
Import ListNotations.

(** * Brackets *)
Definition neutral (ts : list str) : Prop := forall n rest, Balanced n (ts ++ rest) <-> Balanced n rest.
Lemma neutral_app a b : neutral a -> neutral b -> neutral (a ++ b).
Proof. intros Ha Hb n rest. rewrite <- app_assoc, (Ha n). apply Hb. Qed.
Lemma neutral_other t : ~ is_open t -> ~ is_close t -> neutral [t].
Proof.
  intros H1 H2 n rest. cbn [app]. split; intros H; [inversion H; subst; [contradiction|contradiction|assumption]|].
  now apply Balanced_other.
Qed.
Lemma neutral_group o c ts : is_open o -> is_close c -> neutral ts -> neutral (o :: ts ++ [c]).
Proof.
  intros Ho Hc Hn n rest. cbn [app]. rewrite <- app_assoc. cbn [app]. split; intros H.
  - inversion H as [| ? ? ? _ K | ? ? ? K _ | ? ? ? K _ _]; subst;
      [|exfalso; exact (open_not_close _ Ho K)|contradiction].
    apply (proj1 (Hn (S n) _)) in K. inversion K as [| ? ? ? L _ | ? ? ? _ L | ? ? ? _ L _]; subst;
      [exfalso; exact (open_not_close _ L Hc)|exact L|contradiction].
  - apply Balanced_open; [exact Ho|]. apply (Hn (S n)). now apply Balanced_close.
Qed.
Lemma test_neutral t : is_test t -> neutral [t].
Proof. intros (H1 & H2 & _). now apply neutral_other. Qed.
Lemma AND_neutral t : is_AND t -> neutral [t].
Proof. intros H. apply neutral_other; intros K; [exact (open_not_AND _ K H)|exact (close_not_AND _ K H)]. Qed.
Lemma OR_neutral t : is_OR t -> neutral [t].
Proof. intros H. apply neutral_other; intros K; [exact (open_not_OR _ K H)|exact (close_not_OR _ K H)]. Qed.
Lemma NOT_neutral t : is_NOT t -> neutral [t].
Proof. intros H. apply neutral_other; intros K; [exact (open_not_NOT _ K H)|exact (close_not_NOT _ K H)]. Qed.
Lemma grammar_neutral ok :
  (forall ts e, Operand ok ts e -> neutral ts) /\
  (forall ts es, Run ok ts es -> neutral ts) /\
  (forall ts ess, Alts ok ts ess -> neutral ts).
Proof.
  apply grammar_mutind.
  - intros t Ht. now apply test_neutral.
  - intros n t Hn Ht. apply (neutral_app [n] [t]); [now apply NOT_neutral|now apply test_neutral].
  - intros o ts ess c Ho Hc _ IH _. now apply neutral_group.
  - intros n o ts ess c Hn Ho Hc _ IH _. apply (neutral_app [n] (o :: ts ++ [c])); [now apply NOT_neutral|now apply neutral_group].
  - intros n rest. reflexivity.
  - intros a ts es Ha _ IH. apply (neutral_app [a] ts); [now apply AND_neutral|exact IH].
  - intros us e ts es _ IH1 _ IH2. now apply neutral_app.
  - intros ts es _ IH. exact IH.
  - intros ts1 es o ts2 ess _ IH1 Ho _ IH2. apply neutral_app; [exact IH1|].
    apply (neutral_app [o] ts2); [now apply OR_neutral|exact IH2].
Qed.
Lemma neutral_balanced ts : neutral ts -> Balanced 0 ts.
Proof. intros H. rewrite <- (app_nil_r ts). apply H. constructor. Qed.
Lemma alts_balanced ok ts ess : Alts ok ts ess -> Balanced 0 ts.
Proof. intros H. apply neutral_balanced. exact (proj2 (proj2 (grammar_neutral ok)) _ _ H). Qed.
Lemma balanced_neutral ts : Balanced 0 ts -> neutral ts.
Proof.
  intros B. assert (G : forall k ts, Balanced k ts -> forall n rest, Balanced (k + n) (ts ++ rest) <-> Balanced n rest).
  { clear. intros k ts B. induction B as [|k t ts Ho B IH|k t ts Hc B IH|k t ts H1 H2 B IH]; intros n rest; cbn [app].
    - reflexivity.
    - rewrite <- (IH n rest). cbn [plus]. split; intros H; [|now apply Balanced_open].
      inversion H; subst; [assumption|exfalso; now apply (open_not_close t)|contradiction].
    - rewrite <- (IH n rest). cbn [plus]. split; intros H; [|now apply Balanced_close].
      inversion H; subst; [exfalso; now apply (open_not_close t)|assumption|contradiction].
    - rewrite <- (IH n rest). split; intros H; [|now apply Balanced_other].
      inversion H; subst; [contradiction|contradiction|assumption]. }
  intros n rest. exact (G 0%nat ts B n rest).
Qed.
Lemma close_first t ts : is_close t -> ~ Balanced 0 (t :: ts).
Proof. intros Hc H. inversion H; subst; [now apply (open_not_close t)|contradiction]. Qed.
(** The closing bracket of a balanced piece is where it is. *)
Lemma neutral_prefix a : forall b c c' x y, neutral a -> neutral b -> is_close c -> is_close c' ->
  a ++ c :: x = b ++ c' :: y -> a = b /\ x = y.
Proof.
  assert (G : forall a b c c' x y l, neutral a -> neutral b -> is_close c ->
     b = a ++ l -> a ++ c :: x = b ++ c' :: y -> l = []).
  { intros a0 b c c' x y l Ha Hb Hc -> E. rewrite <- app_assoc in E. apply app_inv_head in E.
    destruct l as [|t l]; [reflexivity|]. cbn [app] in E. injection E as <- _. exfalso.
    apply (close_first c l Hc). apply (Ha 0%nat). now apply neutral_balanced. }
  assert (P : forall (a b : list str) x y, a ++ x = b ++ y -> (exists l, b = a ++ l) \/ (exists l, a = b ++ l)).
  { clear. induction a as [|u a IH]; intros b x y E; [left; now exists b|]. destruct b as [|w b]; [right; now exists (u :: a)|].
    cbn [app] in E. injection E as <- E. destruct (IH _ _ _ E) as [[l ->]|[l ->]]; [left|right]; now exists l. }
  intros b c c' x y Ha Hb Hc Hc' E. assert (K : a = b).
  { destruct (P _ _ _ _ E) as [[l ->]|[l ->]].
    - rewrite (G a (a ++ l) c c' x y l); auto. now rewrite app_nil_r.
    - rewrite (G b (b ++ l) c' c y x l); auto. now rewrite app_nil_r. }
  subst b. apply app_inv_head in E. injection E as _ <-. now split.
Qed.

(** * An expression is read in one way only *)
Section Unique.
  Variable ok : list (list bexp) -> Prop.
  Hypothesis ok_last : forall ess, ess <> [] -> ok ess -> last_nonempty ess.

  Lemma rel_det (P : str -> Prop) :
    (forall e n, rel (T := str) Ok P e n -> forall P' e', rel Ok P' e' n -> e = e') /\
    (forall es ns, rels (T := str) Ok P es ns -> forall P' es', rels Ok P' es' ns -> es = es') /\
    (forall ess nss, relss (T := str) Ok P ess nss -> forall P' ess', relss Ok P' ess' nss -> ess = ess').
  Proof.
    apply rel_mutind.
    - intros t x Hp Ht Hx P' e' H. inversion H; subst. congruence.
    - intros ess nss H IH P' e' H'. inversion H' as [|ess' nss' K E1 E2|]; subst.
      assert (nss' = nss) as ->.
      { clear - E2. revert nss E2. induction nss' as [|a l IHl]; intros [|b k] E; try discriminate; [reflexivity|].
        cbn [map] in E. injection E as -> E. f_equal. now apply IHl. }
      f_equal. eauto.
    - intros ess nss H IH P' e' H'. inversion H' as [| |ess' nss' K E1 E2]; subst.
      assert (nss' = nss) as ->.
      { clear - E2. revert nss E2. induction nss' as [|a l IHl]; intros [|b k] E; try discriminate; [reflexivity|].
        cbn [map] in E. injection E as -> E. f_equal. now apply IHl. }
      f_equal. eauto.
    - intros P' es' H. inversion H; now subst.
    - intros e n es ns _ IH1 _ IH2 P' es' H. inversion H; subst. f_equal; eauto.
    - intros P' es' H. inversion H; now subst.
    - intros e n es ns _ IH1 _ IH2 P' es' H. inversion H; subst. f_equal; eauto.
  Qed.
  Lemma alts_det ts ess ess' : Alts ok ts ess -> Alts ok ts ess' -> ess = ess'.
  Proof.
    intros H1 H2. set (w := $"x").
    assert (Tw : is_test w) by (pose proof (classify_spec w) as K; exact K).
    assert (Tc : is_close ($")")) by now left.
    assert (G : forall ess, Alts ok ts ess -> exists ns nss, relss (T := str) Ok (fun t => In t ts) ess (ns :: nss) /\
      exists r, ps (T := str) Ok (ts ++ [w; $")"]) [] [] = Ok (r, (removelast (ns :: nss), last (ns :: nss) [] ++ [Leaf w]))).
    { clear ess ess' H1 H2. intros ess H.
      destruct (proj2 (proj2 (complete (T := str) Ok ok ok_last)) ts ess H) as (ns & nss & Hr & Hs); [eauto|].
      exists ns, nss. split; [exact Hr|]. rewrite Hs. cbn [app]. rewrite ps_test by exact Tw. cbn [bindr].
      rewrite ps_close by exact Tc. destruct (is_nil _) eqn:E; [|eexists; reflexivity].
      exfalso. destruct (last (ns :: nss) []); discriminate. }
    destruct (G _ H1) as (ns & nss & R1 & r1 & E1). destruct (G _ H2) as (ns' & nss' & R2 & r2 & E2).
    rewrite E1 in E2.
    assert (K : removelast (ns :: nss) = removelast (ns' :: nss') /\ last (ns :: nss) [] ++ [Leaf w] = last (ns' :: nss') [] ++ [Leaf w])
      by (split; congruence).
    destruct K as [K1 K2]. apply app_inj_tail in K2 as [K2 _].
    assert (E : ns :: nss = ns' :: nss').
    { rewrite (app_removelast_last (l := ns :: nss) []), (app_removelast_last (l := ns' :: nss') []) by discriminate.
      now rewrite K1, K2. }
    rewrite E in R1. exact (proj2 (proj2 (rel_det _)) _ _ R1 _ _ R2).
  Qed.
End Unique.

(** * A group in front *)
Lemma operand_group ok us e o x c rest ts : is_open o -> is_close c -> neutral x ->
  Operand ok us e -> us ++ ts = o :: x ++ c :: rest ->
  exists ess, e = BGroup false ess /\ Alts ok x ess /\ ok ess /\ ts = rest.
Proof.
  intros Ho Hc Hx H E. inversion H as [t Ht|n t Hn Ht|o' xs ess c' Ho' Hc' Ha Hok|n o' xs ess c' Hn Ho' Hc' Ha Hok]; subst; cbn [app] in E.
  - injection E as -> _. now destruct Ht.
  - injection E as -> _. exfalso. exact (open_not_NOT _ Ho Hn).
  - injection E as -> E. rewrite <- app_assoc in E. cbn [app] in E.
    destruct (neutral_prefix xs x c' c ts rest) as [-> ->]; auto; [|now exists ess].
    exact (proj2 (proj2 (grammar_neutral ok)) _ _ Ha).
  - injection E as -> _. exfalso. exact (open_not_NOT _ Ho Hn).
Qed.
Lemma run_group ok o x c rest ts es : is_open o -> is_close c -> neutral x ->
  Run ok ts es -> forall more, ts ++ more = o :: x ++ c :: rest -> ts <> [] ->
  exists ess es' ts', es = BGroup false ess :: es' /\ Alts ok x ess /\ ok ess /\ Run ok ts' es' /\ ts' ++ more = rest.
Proof.
  intros Ho Hc Hx H more E N. inversion H as [|a us es0 Ha Hr|us e us' es' Hop Hr]; subst.
  - contradiction.
  - cbn [app] in E. injection E as -> _. exfalso. exact (open_not_AND _ Ho Ha).
  - rewrite <- app_assoc in E. destruct (operand_group ok us e o x c rest _ Ho Hc Hx Hop E) as (ess & -> & A & O & Et).
    exists ess, es', us'. auto.
Qed.
Lemma alts_group ok o x c rest ess : is_open o -> is_close c -> neutral x ->
  Alts ok (o :: x ++ c :: rest) ess ->
  exists g es ess', ess = (BGroup false g :: es) :: ess' /\ Alts ok x g /\ ok g /\ Alts ok rest (es :: ess').
Proof.
  intros Ho Hc Hx H. inversion H as [ts es Hr|ts1 es o' ts2 ess' Hr Ho' Ha]; subst.
  - destruct (run_group ok o x c rest _ es Ho Hc Hx Hr []) as (g & es' & ts' & -> & A & O & R & E);
      [apply app_nil_r|discriminate|].
    rewrite app_nil_r in E. subst ts'. exists g, es', []. repeat split; auto. now constructor.
  - destruct ts1 as [|t ts1].
    + cbn [app] in *. injection H0 as -> _. exfalso. exact (open_not_OR _ Ho Ho').
    + destruct (run_group ok o x c rest _ es Ho Hc Hx Hr (o' :: ts2)) as (g & es' & ts' & -> & A & O & R & E);
        [assumption|discriminate|].
      exists g, es', ess'. repeat split; auto. rewrite <- E. now constructor.
Qed.
Lemma alts_nil ok ess : Alts ok [] ess -> ess = [[]].
Proof.
  intros H. inversion H as [ts es Hr|ts1 es o' ts2 ess' Hr Ho' Ha].
  - inversion Hr as [| |us e us' es' Hop Hr' E]; [reflexivity|].
    apply app_eq_nil in E as [-> ->]. inversion Hop.
  - apply app_eq_nil in H0 as [_ H0]. discriminate.
Qed.
Lemma run_ands ok ts : Run ok ts [] -> Forall is_AND ts.
Proof. remember [] as es eqn:E. induction 1 as [|a ts es Ha Hr IH|]; [constructor|constructor; auto|discriminate]. Qed.

Lemma no_empty_last ess : ess <> [] -> no_empty ess -> last_nonempty ess.
Proof.
  intros Hn Hl. unfold last_nonempty, no_empty in *. rewrite (app_removelast_last [] Hn) in Hl.
  apply Forall_app in Hl as [_ Hl]. now apply Forall_inv in Hl.
Qed.
Lemma alts_mono (ok ok' : list (list bexp) -> Prop) : (forall ess, ess <> [] -> ok ess -> ok' ess) ->
  (forall ts e, Operand ok ts e -> Operand ok' ts e) /\
  (forall ts es, Run ok ts es -> Run ok' ts es) /\
  (forall ts ess, Alts ok ts ess -> Alts ok' ts ess /\ ess <> []).
Proof.
  intros M. apply grammar_mutind.
  - intros; now constructor.
  - intros; now constructor.
  - intros o ts ess c Ho Hc _ [IH N] Hok. apply Op_group; auto.
  - intros n o ts ess c Hn Ho Hc _ [IH N] Hok. apply Op_not_group; auto.
  - constructor.
  - intros; now constructor.
  - intros; now constructor.
  - intros; split; [now constructor|discriminate].
  - intros ts1 es o ts2 ess _ IH1 Ho _ [IH2 N]. split; [now constructor|discriminate].
Qed.

(** * The language with --depth *)
Section Env.
  Variable R : Type.
  Variable rcompile : str -> res R.
  Variable rsearch : R -> str -> bool.
  Variable parse_time : str -> res Z.
  Variable debug : bool.
  Variable case : case_mode.
  Variable registered : list plugin.
  Variable init_plugin : str -> res unit.
  Variable reference_value : str * str -> str -> res value.
  Variable score : test R -> Z.
  Notation parse := (parse_test R rcompile parse_time debug case registered init_plugin reference_value).
  Notation resolves := (resolves registered init_plugin).
  Notation run_test := (run_entry rsearch).

  Lemma depth_language a ranges at_ name is_dir attribute d v b :
    a_depth a = Some ranges -> ranges <> [] -> Forall natural_range ranges ->
    resolves ($"depth") at_ TNumber -> attribute at_ = Some (VInt d) ->
    a_tests a <> [] -> Balanced 0 (a_tests a) ->
    (forall t, In t (a_tests a) -> is_test t ->
       exists x, parse t = Ok x /\ truth (run_test name is_dir attribute x) (v t)) ->
    (matcher parse score (run_test name is_dir attribute) (a_tests (process_arguments a)) = Ok b <->
     exists ess, Alts last_nonempty (a_tests a) ess /\ last_nonempty ess /\
       (b = true <-> in_ranges ranges d /\ denote_alts v ess = true)).
  Proof.
    intros Ed Nr Fr Hat Hd Nt Bt Ht. rewrite process_tests, Ed. destruct ranges as [|r0 l0]; [easy|].
    set (ranges := r0 :: l0) in *. destruct (a_tests a) as [|t0 ts0] eqn:Et; [contradiction|].
    set (ts := t0 :: ts0) in *.
    pose (vo := value_of R rcompile rsearch parse_time debug case registered init_plugin reference_value name is_dir attribute).
    destruct (ranges_ok R rcompile rsearch parse_time debug case registered init_plugin reference_value at_ Hat
                name is_dir attribute d Hd ranges Nr Fr) as (A & G & Ne & V).
    fold vo in G, V.
    pose proof (proj2 (proj2 (alts_mono no_empty last_nonempty no_empty_last)) _ _ A) as [A' NA].
    pose proof (no_empty_last _ NA Ne) as LA.
    assert (Same : forall ess, Alts last_nonempty ts ess -> denote_alts v ess = denote_alts vo ess).
    { intros ess Ha. apply denote_alts_ext. intros t H.
      apply (proj2 (proj2 (grammar_tests last_nonempty)) _ _ Ha) in H as [H1 H2].
      apply (truth_value R rcompile rsearch parse_time debug case registered init_plugin reference_value). now apply Ht. }
    assert (NT : forall t, t = $"{{" \/ t = $"}}" -> ~ is_test t).
    { intros t [->| ->] (H1 & H2 & _); [apply H1; now right|apply H2; now right]. }
    change (ranges_tests ranges) with (ranges_tests ranges) in *.
    match goal with |- matcher _ _ _ ?w = _ <-> _ => set (whole := w) end.
    assert (Ew : whole = $"{{" :: ranges_tests ranges ++ $"}}" :: $"{{" :: ts ++ [$"}}"]).
    { unfold whole, depth_expression. reflexivity. }
    assert (Good : forall t, In t whole -> is_test t -> exists x, parse t = Ok x /\ truth (run_test name is_dir attribute x) (vo t)).
    { rewrite Ew. intros t Hin Hi. destruct Hin as [<-|Hin]; [exfalso; apply (NT ($"{{")); auto|].
      apply in_app_iff in Hin as [Hin|[<-|[<-|Hin]]];
        [now apply G|exfalso; apply (NT ($"}}")); auto|exfalso; apply (NT ($"{{")); auto|].
      apply in_app_iff in Hin as [Hin|[<-|[]]]; [|exfalso; apply (NT ($"}}")); auto].
      destruct (Ht t Hin Hi) as (x & E & T). exists x. split; [exact E|].
      unfold vo. rewrite <- (truth_value R rcompile rsearch parse_time debug case registered init_plugin reference_value
                  name is_dir attribute t (v t)); eauto. }
    rewrite (accepted_language _ parse score (run_test name is_dir attribute) whole vo b Good). rewrite Ew.
    assert (D : forall ess, Alts last_nonempty ts ess ->
      (denote_alts vo [[BGroup false (map range_exps ranges); BGroup false ess]] = true <->
       in_ranges ranges d /\ denote_alts v ess = true)).
    { intros ess Ha. rewrite (Same ess Ha). unfold denote_alts at 1. cbn [existsb forallb denote].
      rewrite !xorb_false_l, orb_false_r, andb_true_r, andb_true_iff.
      fold (denote_alts vo (map range_exps ranges)). fold (denote_alts vo ess). now rewrite V. }
    split.
    - intros (ess & [Ha He] & <-).
      destruct (alts_group _ _ _ _ _ _ open_tok close_tok (proj2 (proj2 (grammar_neutral _)) _ _ A') Ha)
        as (g & es & ess' & -> & Ag & Og & Ha').
      destruct (alts_group _ _ _ _ _ _ open_tok close_tok (balanced_neutral _ Bt) Ha')
        as (g' & es' & ess'' & E & Ag' & Og' & Ha'').
      apply alts_nil in Ha''. injection Ha'' as -> ->. injection E as -> ->.
      rewrite (alts_det last_nonempty (fun _ _ H => H) _ _ _ Ag A') in *.
      exists g'. split; [exact Ag'|]. split; [exact Og'|]. now apply D.
    - intros (ess & Ha & Hl & Hb). exists [[BGroup false (map range_exps ranges); BGroup false ess]].
      split.
      + split; [|now left]. apply Alts_one.
        change (Run last_nonempty (($"{{" :: ranges_tests ranges ++ [$"}}"] ++ ($"{{" :: ts ++ [$"}}"])))
                  [BGroup false (map range_exps ranges); BGroup false ess]).
        rewrite app_assoc.
        apply (Run_op last_nonempty ($"{{" :: ranges_tests ranges ++ [$"}}"])).
        * apply Op_group; [exact open_tok|exact close_tok|exact A'|exact LA].
        * rewrite <- (app_nil_r ($"{{" :: ts ++ [$"}}"])). apply Run_op; [|constructor].
          apply Op_group; [exact open_tok|exact close_tok|exact Ha|exact Hl].
      + apply eq_true_iff_eq. rewrite (D ess Ha). now rewrite Hb.
  Qed.

  Lemma depth_within a ranges at_ name is_dir attribute d v :
    a_depth a = Some ranges -> ranges <> [] -> Forall natural_range ranges ->
    resolves ($"depth") at_ TNumber -> attribute at_ = Some (VInt d) ->
    Balanced 0 (a_tests a) ->
    (forall t, In t (a_tests a) -> is_test t ->
       exists x, parse t = Ok x /\ truth (run_test name is_dir attribute x) (v t)) ->
    matcher parse score (run_test name is_dir attribute) (a_tests (process_arguments a)) = Ok true ->
    in_ranges ranges d.
  Proof.
    intros Ed Nr Fr Hat Hd Bt Ht M. destruct (a_tests a) as [|t0 ts0] eqn:Et.
    - assert (X : Expression (a_tests a) [[]]).
      { rewrite Et. split; [repeat constructor|now left]. }
      destruct (depth_selected R rcompile rsearch parse_time debug case registered init_plugin reference_value score
                  a ranges at_ name is_dir attribute d [[]] v Ed Nr Fr Hat Hd X (or_introl Et)) as (b & Mb & B).
      { rewrite Et. exact Ht. }
      rewrite M in Mb. injection Mb as <-. now apply B.
    - assert (N : a_tests a <> []) by (rewrite Et; discriminate).
      rewrite <- Et in Bt. rewrite <- Et in Ht.
      apply (proj1 (depth_language a ranges at_ name is_dir attribute d v true Ed Nr Fr Hat Hd N Bt Ht)) in M
        as (ess & _ & _ & B). now apply B.
  Qed.
  Lemma depth_conjunction a ranges at_ name is_dir attribute d v b :
    a_depth a = Some ranges -> ranges <> [] -> Forall natural_range ranges ->
    resolves ($"depth") at_ TNumber -> attribute at_ = Some (VInt d) ->
    a_tests a = [] \/ ~ Forall is_AND (a_tests a) ->
    (forall t, In t (a_tests a) -> is_test t ->
       exists x, parse t = Ok x /\ truth (run_test name is_dir attribute x) (v t)) ->
    matcher parse score (run_test name is_dir attribute) (a_tests a) = Ok b ->
    exists b', matcher parse score (run_test name is_dir attribute) (a_tests (process_arguments a)) = Ok b' /\
      (b' = true <-> in_ranges ranges d /\ b = true).
  Proof.
    intros Ed Nr Fr Hat Hd Na Ht M.
    apply (accepted_language _ parse score (run_test name is_dir attribute) _ v b Ht) in M as (ess & [Ha He] & <-).
    destruct (a_tests a) as [|t0 ts0] eqn:Et.
    - apply alts_nil in Ha as ->.
      assert (X : Expression (a_tests a) [[]]).
      { rewrite Et. split; [repeat constructor|now left]. }
      apply (depth_selected R rcompile rsearch parse_time debug case registered init_plugin reference_value score
                  a ranges at_ name is_dir attribute d [[]] v Ed Nr Fr Hat Hd X (or_introl Et)).
      rewrite Et. exact Ht.
    - assert (N : a_tests a <> []) by (rewrite Et; discriminate).
      destruct Na as [Na|Na]; [discriminate|]. rewrite <- Et in *.
      assert (L : last_nonempty ess).
      { destruct He as [He|He].
        - destruct ess as [|es [|]]; try discriminate. unfold last_nonempty. cbn [last]. intros ->.
          apply Na. inversion Ha; subst; [eapply run_ands; eassumption|].
          match goal with H : Alts _ _ [] |- _ => inversion H end.
        - apply no_empty_last; [|exact He]. inversion Ha; discriminate. }
      destruct (ranges_ok R rcompile rsearch parse_time debug case registered init_plugin reference_value at_ Hat
                name is_dir attribute d Hd ranges Nr Fr) as (_ & _ & _ & V).
      match type of V with ?w = true <-> _ => exists (w && denote_alts v ess) end.
      rewrite andb_true_iff, V. split; [|reflexivity].
      apply (depth_language a ranges at_ name is_dir attribute d v _ Ed Nr Fr Hat Hd N (alts_balanced _ _ _ Ha) Ht).
      exists ess. split; [exact Ha|]. split; [exact L|]. now rewrite andb_true_iff, V.
  Qed.
End Env.
