(** Proofs about --count: what is printed. *)
From Coq Require Import List NArith ZArith Bool Lia Permutation.
From Verif Require Import Py TypeModel FieldModel SortModel SortSpec SortProofs NaturalProofs CountModel CountSpec CountProofs CountLoopProofs.
Import ListNotations.

Lemma dict_set_fresh {V} k (v : V) d : ~ In k (map fst d) -> dict_set str_eqb k v d = d ++ [(k, v)].
Proof.
  induction d as [|[q w] d IH]; cbn [dict_set map fst In app]; auto. intros H.
  destruct (str_eqb k q) eqn:E; [apply str_eqb_eq in E; subst; exfalso; auto|]. rewrite IH; auto.
Qed.
Lemma output_ok human t m v : conforms t v = true -> exists s, output human t m v = Ok s.
Proof. destruct t, v; cbn [conforms output py_str]; try discriminate; eauto. Qed.

Lemma nodup_inj {X Y} (h : X -> Y) l x y : NoDup (map h l) -> In x l -> In y l -> h x = h y -> x = y.
Proof.
  induction l as [|z l IH]; intros N Hx Hy E; [destruct Hx|]. cbn [map] in N. inversion N as [|? ? N1 N2]; subst.
  destruct Hx as [->|Hx], Hy as [->|Hy]; auto.
  - exfalso. apply N1. rewrite E. now apply in_map.
  - exfalso. apply N1. rewrite <- E. now apply in_map.
Qed.

Section Printed.
  Context {A : Type}.
  Variable get : A -> str * str -> res value.
  Variable human : ty -> Z -> str.
  Variable fields : list field.
  Variable entries : list A.
  Hypothesis different : NoDup (map ident fields).
  Hypothesis countable : forall f, In f fields -> count_of (f_type f) <> UNCOUNTABLE.
  Hypothesis names : NoDup ($"_total" :: map f_alias fields).
  Hypothesis typed : well_typed get fields entries.
  Hypothesis clear_ : distinguishable get human fields entries.

  Notation Texts f := (Texts get human f entries).
  Notation Item := (Item get human fields entries).
  Lemma per_texts f l : In f fields -> count_of (f_type f) = COUNT -> per get f entries l ->
    exists p, prepare_per human f l = Ok p /\ Texts f p.
  Proof.
    intros Hf CT (N & P1 & P2).
    assert (CONF : forall v, occurs get f v entries <> 0%nat -> conforms (f_type f) v = true).
    { intros v. apply occurs_conforms. intros e He. apply typed; auto. }
    assert (G : forall l2 l1 d, l = l1 ++ l2 ->
      map fst d = map (fun v => match output human (f_type f) (f_modifier f) v with Ok s => s | Err _ => [] end) (map fst l1) ->
      map snd d = map snd l1 ->
      exists d', foldr_res (fun d kv => do key <- output human (f_type f) (f_modifier f) (fst kv); Ok (dict_set str_eqb key (snd kv) d)) d l2 = Ok d' /\
        map fst d' = map (fun v => match output human (f_type f) (f_modifier f) v with Ok s => s | Err _ => [] end) (map fst l) /\
        map snd d' = map snd l).
    { induction l2 as [|[v n] l2 IH]; intros l1 d E H1 H2; cbn [foldr_res fst snd].
      - exists d. rewrite app_nil_r in E. subst l1. auto.
      - assert (Iv : In (v, n) l) by (rewrite E; apply in_or_app; right; now left).
        destruct (P1 _ _ Iv) as [Ov _]. destruct (output_ok human (f_type f) (f_modifier f) v (CONF v Ov)) as [s Es].
        rewrite Es. cbn [bindr]. rewrite dict_set_fresh.
        + apply (IH (l1 ++ [(v, n)])); [now rewrite <- app_assoc| |]; rewrite !map_app; cbn [map fst snd]; [now rewrite H1, Es|now rewrite H2].
        + rewrite H1. intros I. apply in_map_iff in I. destruct I as (w & Ew & Iw).
          apply in_map_iff in Iw. destruct Iw as ([w' n'] & F & Iw). cbn [fst] in F. subst w'.
          assert (Iw' : In (w, n') l) by (rewrite E; apply in_or_app; now left). destruct (P1 _ _ Iw') as [Ow _].
          destruct (output_ok human (f_type f) (f_modifier f) w (CONF w Ow)) as [s' Es']. rewrite Es' in Ew. subst s'.
          assert (w = v) by (apply (clear_ f); auto; congruence). subst w.
          rewrite E, !map_app in N. cbn [map fst] in N. apply NoDup_remove_2 in N. apply N. apply in_or_app. left.
          apply in_map. change v with (fst (v, n')). now apply in_map. }
    destruct (G l [] [] eq_refl eq_refl eq_refl) as (p & E & E1 & E2). exists p. split; [exact E|].
    set (o := fun v => match output human (f_type f) (f_modifier f) v with Ok s => s | Err _ => [] end) in *.
    assert (EP : p = map (fun t => (o (fst t), snd t)) l).
    { clear -E1 E2. revert l E1 E2. induction p as [|[s n] p IH]; intros [|[v m] l] E1 E2; cbn [map fst snd] in *; try discriminate; auto.
      injection E1 as -> E1. injection E2 as -> E2. f_equal. auto. }
    split.
    - rewrite E1. clear -N P1 CONF clear_ Hf CT.
      assert (K : forall l' : list (value * Z), incl l' l -> NoDup (map norm (map fst l')) -> NoDup (map o (map fst l'))).
      { induction l' as [|[v n] l' IH]; intros I N'; cbn [map fst] in *; [constructor|]. inversion N' as [|? ? N1 N2]; subst. constructor.
        - intros X. apply N1. apply in_map_iff in X. destruct X as (w & Ew & Iw). apply in_map.
          replace v with w; auto. apply in_map_iff in Iw. destruct Iw as ([w' m] & F & Iw). cbn [fst] in F. subst w'.
          destruct (P1 v n (I _ (or_introl eq_refl))) as [Ov _]. destruct (P1 w m (I _ (or_intror Iw))) as [Ow _].
          apply (clear_ f); auto. unfold o in Ew.
          destruct (output_ok human (f_type f) (f_modifier f) v (CONF v Ov)) as [s Es]. destruct (output_ok human (f_type f) (f_modifier f) w (CONF w Ow)) as [s' Es'].
          rewrite Es, Es' in *. congruence.
        - apply IH; auto. intros x Hx. apply I. now right. }
      apply K; auto. intros x; auto.
    - intros s n. rewrite EP, in_map_iff. split.
      + intros ([v m] & [= <- <-] & I). destruct (P1 v m I) as [Ov ->]. exists v. split; [auto|]. split; [|auto].
        unfold o. cbn [fst]. destruct (output_ok human (f_type f) (f_modifier f) v (CONF v Ov)) as [s Es]. now rewrite Es.
      + intros (v & Ov & Es & ->). assert (I := P2 v Ov). apply in_map_iff in I. destruct I as ([v' m] & F & I). cbn [fst] in F. subst v'.
        destruct (P1 v m I) as [_ ->]. exists (v, Z.of_nat (occurs get f v entries)). split; [|exact I]. cbn [fst snd]. unfold o. now rewrite Es.
  Qed.

  Definition key_name (k : ckey) : str := match k with KTotal => $"_total" | KField f => f_alias f end.
  Definition key_item (k : ckey) (x : pcell) : Prop :=
    match k with KTotal => x = PNumber (Z.of_nat (length entries)) /\ entries <> []
    | KField f => In f fields /\ Item (f_alias f) x /\
        match x with
        | PNumber z => count_of (f_type f) = TOTAL /\ f_modifier f = None
        | PText s => count_of (f_type f) = TOTAL /\ f_modifier f <> None
        | PPer l => count_of (f_type f) = COUNT /\ Texts f l
        end end.

  Lemma alias_inj f g : In f fields -> In g fields -> f_alias f = f_alias g -> f = g.
  Proof. apply nodup_inj. inversion names; assumption. Qed.
  Lemma alias_total f : In f fields -> f_alias f <> $"_total".
  Proof. intros Hf E. inversion names as [|? ? N1 N2]; subst. apply N1. exact (eq_ind _ (fun x => In x (map f_alias fields)) (in_map f_alias fields f Hf) _ E). Qed.

  Lemma prepare_step c k x d : Inv get fields entries c -> In (k, x) c -> ~ In (key_name k) (map fst d) ->
    exists y, prepare_cell human d (k, x) = Ok (d ++ [(key_name k, y)]) /\ key_item k y.
  Proof.
    intros (N & K & T & G) I D. assert (E := dict_in_get _ _ ckey_eqb_iff _ _ _ N I).
    destruct (K k) as [->|(f & Hf & ->)]; [change k with (fst (k, x)); now apply in_map| |].
    - rewrite E in T. unfold total in T. destruct x as [z|l]; [|destruct T]. destruct T as [T ->]. cbn [prepare_cell].
      rewrite dict_set_fresh by exact D. eexists. split; [reflexivity|]. cbn [key_item]. auto.
    - assert (Gf := G f Hf). rewrite E in Gf. cbn [good] in Gf. destruct x as [z|l]; cbn [prepare_cell].
      + destruct Gf as (G1 & G2 & ->). destruct (f_modifier f) as [m|] eqn:M.
        * destruct (output_ok human (f_type f) (Some m) (VInt (sum_of get f entries))) as [s Es].
          { destruct (f_type f); try discriminate G1; reflexivity. }
          rewrite Es. cbn [bindr]. rewrite dict_set_fresh by exact D. eexists. split; [reflexivity|]. cbn [key_item].
          split; [auto|]. split; [eapply item_formatted; eauto|]. split; [auto|congruence].
        * rewrite dict_set_fresh by exact D. eexists. split; [reflexivity|]. cbn [key_item].
          split; [auto|]. split; [eapply item_sum; eauto|auto].
      + destruct Gf as (G1 & G2 & G3). destruct (per_texts f l Hf G1 G3) as (p & -> & TP). cbn [bindr].
        rewrite dict_set_fresh by exact D. eexists. split; [reflexivity|]. cbn [key_item].
        split; [auto|]. split; [eapply item_values; eauto|auto].
  Qed.
  Lemma name_inj k k' : (k = KTotal \/ exists f, In f fields /\ k = KField f) -> (k' = KTotal \/ exists f, In f fields /\ k' = KField f) ->
    key_name k = key_name k' -> k = k'.
  Proof.
    intros [->|(f & Hf & ->)] [->|(g & Hg & ->)]; cbn [key_name]; intros E; auto.
    - exfalso. now apply (alias_total g).
    - exfalso. now apply (alias_total f).
    - f_equal. now apply alias_inj.
  Qed.
  Lemma prepare_all c : Inv get fields entries c -> exists d, prepare_count human c = Ok d /\ NoDup (map fst d) /\
    (forall n x, In (n, x) d -> exists k, In k (map fst c) /\ n = key_name k /\ key_item k x) /\
    (forall k, In k (map fst c) -> exists x, In (key_name k, x) d).
  Proof.
    intros INV. assert (H : forall c2 c1 d, c = c1 ++ c2 -> map fst d = map key_name (map fst c1) ->
      (forall n x, In (n, x) d -> exists k, In k (map fst c) /\ n = key_name k /\ key_item k x) ->
      exists d', foldr_res (prepare_cell human) d c2 = Ok d' /\ map fst d' = map key_name (map fst c) /\
        (forall n x, In (n, x) d' -> exists k, In k (map fst c) /\ n = key_name k /\ key_item k x)).
    { destruct INV as (N & K & T & G).
      induction c2 as [|[k x] c2 IH]; intros c1 d E H1 H2; cbn [foldr_res].
      - exists d. rewrite app_nil_r in E. subst c1. auto.
      - assert (I : In (k, x) c) by (rewrite E; apply in_or_app; right; now left).
        assert (Ik : In k (map fst c)) by (change k with (fst (k, x)); now apply in_map).
        destruct (prepare_step c k x d) as (y & E1 & S1); auto.
        + split; auto.
        + rewrite H1. intros X. apply in_map_iff in X. destruct X as (k' & Ek & X).
          assert (Ik' : In k' (map fst c)) by (rewrite E, map_app; apply in_or_app; now left).
          assert (k' = k) by (apply name_inj; auto). subst k'.
          rewrite E, !map_app in N. cbn [map fst] in N. apply NoDup_remove_2 in N. apply N. apply in_or_app. left. now apply in_map.
        + rewrite E1. cbn [bindr]. apply (IH (c1 ++ [(k, x)])).
          * now rewrite <- app_assoc.
          * rewrite !map_app. cbn [map fst]. now rewrite H1.
          * intros n z Hz. apply in_app_or in Hz. destruct Hz as [Hz|[[= <- <-]|[]]]; auto. exists k. auto. }
    destruct (H c [] [] eq_refl eq_refl) as (d & E & E1 & E2); [intros ? ? []|].
    exists d. split; [exact E|]. destruct INV as (N & K & _). split; [|split].
    - rewrite E1. clear -N K names. assert (X : forall l, incl l (map fst c) -> NoDup (map cid l) -> NoDup (map key_name l)).
      { induction l as [|k l IH]; intros I N'; cbn [map] in *; [constructor|]. inversion N' as [|? ? N1 N2]; subst. constructor.
        - intros X. apply N1. apply in_map_iff in X. destruct X as (k' & Ek & X). replace k with k'; [now apply in_map|].
          apply name_inj; auto; apply K; apply I; [now right|now left].
        - apply IH; auto. intros x Hx. apply I. now right. }
      apply X; auto. intros x; auto.
    - exact E2.
    - intros k Hk. assert (I : In (key_name k) (map fst d)) by (rewrite E1; now apply in_map).
      apply in_map_iff in I. destruct I as ([n x] & F & I). cbn [fst] in F. subst n. eauto.
  Qed.

  Lemma json_items c : Inv get fields entries c -> exists d, prepare_count human c = Ok d /\ NoDup (map fst d) /\
    (forall n x, In (n, x) d -> Item n x) /\ (forall n x, Item n x -> exists y, In (n, y) d).
  Proof.
    intros INV. destruct (prepare_all c INV) as (d & E & N & H1 & H2). exists d. split; [exact E|]. split; [exact N|]. split.
    - intros n x I. destruct (H1 n x I) as (k & _ & -> & KI). destruct k as [|f]; cbn [key_item key_name] in *.
      + destruct KI as [-> KI]. now constructor.
      + apply KI.
    - destruct INV as (_ & K & T & G). intros n x I.
      assert (F : forall f, In f fields -> present_in get f entries <> 0%nat -> exists y, In (f_alias f, y) d).
      { intros f Hf P. assert (Gf := G f Hf). destruct (dict_get ckey_eqb (KField f) c) eqn:D.
        - destruct (dict_get_in _ _ ckey_eqb_iff _ _ _ D) as (k & Ek & Ik).
          assert (In k (map fst c)) by (change k with (fst (k, c0)); now apply in_map).
          destruct (H2 k) as [y Iy]; auto. destruct k as [|g]; [discriminate Ek|]. cbn [key_name] in Iy.
          exists y. destruct (K (KField g)) as [X|(g' & Hg & [= <-])]; [assumption|discriminate X|].
          replace f with g; auto. apply (nodup_inj ident fields); auto. cbn [cid] in Ek. injection Ek. unfold ident. congruence.
        - cbn [good] in Gf. contradiction. }
      destruct I as [NE|f Hf _ P _|f m s Hf _ P _ _|f l Hf _ P _]; eauto.
      destruct (dict_get ckey_eqb KTotal c) eqn:D; cbn [total] in T; [|contradiction].
      destruct (dict_get_in _ _ ckey_eqb_iff _ _ _ D) as (k & Ek & Ik). destruct k as [|g]; [|discriminate Ek].
      destruct (H2 KTotal) as [y Iy]; [change KTotal with (fst (KTotal, c0)); now apply in_map|]. eauto.
  Qed.
End Printed.
