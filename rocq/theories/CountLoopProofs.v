(** Proofs about --count: the whole collection. *)
From Coq Require Import List NArith ZArith Bool Lia Permutation.
From Verif Require Import Py TypeModel FieldModel SortModel SortSpec CountModel CountSpec CountProofs.
Import ListNotations.

Section Loop.
  Context {A : Type}.
  Variable get : A -> str * str -> res value.
  Variable fields : list field.
  Hypothesis different : NoDup (map ident fields).
  Hypothesis countable : forall f, In f fields -> count_of (f_type f) <> UNCOUNTABLE.

  Definition Inv (entries : list A) (c : counts) : Prop :=
    NoDup (map cid (map fst c)) /\
    (forall k, In k (map fst c) -> k = KTotal \/ exists f, In f fields /\ k = KField f) /\
    total entries (dict_get ckey_eqb KTotal c) /\
    (forall f, In f fields -> good get f entries (dict_get ckey_eqb (KField f) c)).

  Lemma fields_step e entries fs2 : forall fs1 c, fields = fs1 ++ fs2 -> well_typed get fields (entries ++ [e]) ->
    NoDup (map cid (map fst c)) -> (forall k, In k (map fst c) -> k = KTotal \/ exists f, In f fields /\ k = KField f) ->
    (forall f, In f fs1 -> good get f (entries ++ [e]) (dict_get ckey_eqb (KField f) c)) ->
    (forall f, In f fs2 -> good get f entries (dict_get ckey_eqb (KField f) c)) ->
    exists c', foldr_res (collect_field get e) c fs2 = Ok c' /\ NoDup (map cid (map fst c')) /\
      (forall k, In k (map fst c') -> k = KTotal \/ exists f, In f fields /\ k = KField f) /\
      (forall f, In f fields -> good get f (entries ++ [e]) (dict_get ckey_eqb (KField f) c')) /\
      dict_get ckey_eqb KTotal c' = dict_get ckey_eqb KTotal c.
  Proof.
    induction fs2 as [|f fs2 IH]; intros fs1 c E W N K G1 G2; cbn [foldr_res].
    - exists c. split; [reflexivity|]. split; [auto|]. split; [auto|]. split; [|auto]. intros f Hf. rewrite E, app_nil_r in Hf. auto.
    - assert (Hf : In f fields) by (rewrite E; apply in_or_app; right; now left).
      destruct (field_step get f e c entries) as (c1 & E1 & S1 & S2 & S3 & S4).
      + intros e' He'. apply W; auto.
      + auto.
      + apply G2. now left.
      + rewrite E1. cbn [bindr].
        assert (D : forall g, In g fields -> g <> f -> cid (KField g) <> cid (KField f)).
        { intros g Hg Ng. cbn [cid]. intros [= X]. apply Ng.
          assert (NI : forall (l : list field), NoDup (map ident l) -> forall x y, In x l -> In y l -> ident x = ident y -> x = y).
          { clear. induction l as [|z l IH]; intros N x y Hx Hy Exy; [destruct Hx|]. cbn [map] in N. inversion N; subst.
            destruct Hx as [->|Hx], Hy as [->|Hy]; auto.
            - exfalso. match goal with H : ~ In _ _ |- _ => apply H end. rewrite Exy. now apply in_map.
            - exfalso. match goal with H : ~ In _ _ |- _ => apply H end. rewrite <- Exy. now apply in_map. }
          apply (NI fields different); auto. unfold ident. congruence. }
        destruct (IH (fs1 ++ [f]) c1) as (c' & E' & R1 & R2 & R3 & R4); auto.
        * now rewrite <- app_assoc.
        * intros k Hk. destruct (S4 k Hk) as [->|Hk']; eauto.
        * intros g Hg. apply in_app_or in Hg. destruct Hg as [Hg|[<-|[]]]; auto.
          rewrite S2; auto. apply D; [rewrite E; apply in_or_app; auto|]. intros ->. rewrite E, map_app in different.
          apply NoDup_remove_2 in different. apply different. apply in_or_app. left. now apply in_map.
        * intros g Hg. rewrite S2; [apply G2; now right|]. apply D; [rewrite E; apply in_or_app; right; now right|]. intros ->.
          rewrite E, map_app in different. apply NoDup_remove_2 in different. apply different. apply in_or_app. right. now apply in_map.
        * exists c'. split; [exact E'|]. split; [auto|]. split; [auto|]. split; [auto|]. rewrite R4. apply S2. cbn [cid]. discriminate.
  Qed.
  Lemma entry_step e entries c : well_typed get fields (entries ++ [e]) -> Inv entries c ->
    exists c', collect_entry get fields c e = Ok c' /\ Inv (entries ++ [e]) c'.
  Proof.
    intros W (N & K & T & G). unfold collect_entry.
    assert (H : exists c1, add_sum KTotal 1 c = Ok c1 /\ NoDup (map cid (map fst c1)) /\
      (forall k, In k (map fst c1) -> k = KTotal \/ In k (map fst c)) /\
      total (entries ++ [e]) (dict_get ckey_eqb KTotal c1) /\
      forall f, dict_get ckey_eqb (KField f) c1 = dict_get ckey_eqb (KField f) c).
    { unfold add_sum, total in *. destruct (dict_get ckey_eqb KTotal c) as [[z|l]|]; [| destruct T|].
      all: eexists; (split; [reflexivity|]); (split; [now apply (dict_set_nodup _ _ ckey_eqb_iff)|]);
        (split; [intros k; apply dict_set_keys|]); (split; [|intros f; now rewrite (dict_get_set _ _ ckey_eqb_iff)]);
        rewrite (dict_get_set _ _ ckey_eqb_iff); cbn [ckey_eqb]; (split; [destruct entries; discriminate|]); rewrite app_length; cbn [length].
      - lia.
      - subst entries. reflexivity. }
    destruct H as (c1 & -> & N1 & K1 & T1 & G1). cbn [bindr].
    destruct (fields_step e entries fields [] c1) as (c' & E & R1 & R2 & R3 & R4); auto.
    - intros k Hk. destruct (K1 k Hk) as [->|Hk']; auto.
    - intros f [].
    - intros f Hf. rewrite G1. auto.
    - exists c'. split; [exact E|]. split; [auto|]. split; [auto|]. rewrite R4. auto.
  Qed.
  Lemma entries_step es : forall entries c, well_typed get fields (entries ++ es) -> Inv entries c ->
    exists c', collect_count get fields c es = Ok c' /\ Inv (entries ++ es) c'.
  Proof.
    induction es as [|e es IH]; intros entries c W I; cbn [collect_count foldr_res].
    - exists c. rewrite app_nil_r. auto.
    - destruct (entry_step e entries c) as (c1 & -> & I1); auto.
      { intros a f Ha. apply W. rewrite in_app_iff in *. cbn [In] in *. tauto. }
      cbn [bindr]. destruct (IH (entries ++ [e]) c1) as (c' & E & I'); auto.
      { rewrite <- app_assoc. exact W. }
      exists c'. rewrite <- app_assoc in I'. auto.
  Qed.
  Lemma chunks_step chunks : forall entries c, well_typed get fields (entries ++ concat chunks) -> Inv entries c ->
    exists c', foldr_res (collect_chunk get fields) (c, entries) chunks = Ok (c', entries ++ concat chunks) /\ Inv (entries ++ concat chunks) c'.
  Proof.
    induction chunks as [|es chunks IH]; intros entries c W I; cbn [foldr_res concat].
    - exists c. rewrite app_nil_r. auto.
    - cbn [concat] in W. unfold collect_chunk at 1. cbn [fst snd].
      destruct (entries_step es entries c) as (c1 & -> & I1); auto.
      { intros a f Ha. apply W. rewrite !in_app_iff in *. tauto. }
      cbn [bindr]. destruct (IH (entries ++ es) c1) as (c' & E & I'); auto.
      { rewrite <- app_assoc. exact W. }
      exists c'. rewrite <- app_assoc in *. auto.
  Qed.
  Lemma loop_inv chunks : well_typed get fields (concat chunks) ->
    exists c, count_loop get fields chunks = Ok (c, concat chunks) /\ Inv (concat chunks) c.
  Proof.
    intros W. apply (chunks_step chunks [] []); auto. split; [constructor|]. split; [intros k []|]. split; [reflexivity|]. intros f Hf. reflexivity.
  Qed.
End Loop.
