(** What entries are compared by. *)
From Coq Require Import List NArith ZArith Bool Lia.
From Verif Require Import Py TypeModel FieldModel SortModel SortSpec SortProofs.
Import ListNotations.

Lemma cons_mid {T} (x : T) l p z q : x :: l = p ++ z :: q -> (p = [] /\ x = z /\ l = q) \/ exists p', p = x :: p' /\ l = p' ++ z :: q.
Proof.
  destruct p as [|w p']; cbn [app]; intros E; injection E; intros; subst; [left|right]; eauto.
Qed.
Lemma list_before u v : Before (PList u) (PList v) ->
  (exists p x y a b, u = p ++ x :: a /\ v = p ++ y :: b /\ Before x y) \/ exists y b, v = u ++ y :: b.
Proof.
  intros B. remember (PList u) as k1. remember (PList v) as k2. destruct B as [| |p x y a b B|p y b]; try discriminate.
  - injection Heqk1 as <-. injection Heqk2 as <-. left. exists p, x, y, a, b. auto.
  - injection Heqk1 as <-. injection Heqk2 as <-. right. eauto.
Qed.
Lemma cons_before x l y m : Before (PList (x :: l)) (PList (y :: m)) <-> Before x y \/ (x = y /\ Before (PList l) (PList m)).
Proof.
  split.
  - intros B. destruct (list_before _ _ B) as [(p & x' & y' & a & b & E1 & E2 & B')|(y' & b & E2)].
    + destruct (cons_mid _ _ _ _ _ E1) as [(-> & -> & ->)|(p' & -> & ->)].
      * cbn [app] in E2. injection E2 as -> ->. now left.
      * cbn [app] in E2. injection E2 as -> ->. right. split; auto. now constructor.
    + cbn [app] in E2. injection E2 as -> ->. right. split; auto. constructor.
  - intros [B|[-> B]].
    + apply (before_item []). exact B.
    + destruct (list_before _ _ B) as [(p & x' & y' & a & b & -> & -> & B')|(y' & b & ->)].
      * rewrite !app_comm_cons. now constructor.
      * rewrite app_comm_cons. constructor.
Qed.
Lemma single_before x y : Before (PList [x]) (PList [y]) <-> Before x y.
Proof.
  rewrite cons_before. split; [|auto]. intros [B|[_ B]]; auto.
  destruct (list_before _ _ B) as [(p & ? & ? & ? & ? & E & _)|(? & ? & E)]; [destruct p|]; discriminate E.
Qed.

Section Keys.
  Context {A : Type}.
  Variable get : A -> str * str -> res value.

  Lemma render_cons f fields a k : render get (f :: fields) a = Ok k ->
    exists x l, k = PList (x :: l) /\ render get [f] a = Ok (PList [x]) /\ render get fields a = Ok (PList l).
  Proof.
    unfold render. cbn [mapr]. destruct (render_key get a f) as [x|e]; cbn [bindr]; [|discriminate].
    destruct (mapr (render_key get a) fields) as [l|e]; cbn [bindr]; [|discriminate].
    intros [= <-]. exists x, l. auto.
  Qed.
  Lemma lexicographic f fields a b k1 k2 : render get (f :: fields) a = Ok k1 -> render get (f :: fields) b = Ok k2 ->
    exists x1 x2 r1 r2, render get [f] a = Ok x1 /\ render get [f] b = Ok x2 /\ render get fields a = Ok r1 /\ render get fields b = Ok r2 /\
      (Before k1 k2 <-> Before x1 x2 \/ (x1 = x2 /\ Before r1 r2)) /\ (k1 = k2 <-> x1 = x2 /\ r1 = r2).
  Proof.
    intros E1 E2. destruct (render_cons _ _ _ _ E1) as (x1 & l1 & -> & H1 & H2). destruct (render_cons _ _ _ _ E2) as (x2 & l2 & -> & H3 & H4).
    exists (PList [x1]), (PList [x2]), (PList l1), (PList l2). do 4 (split; [assumption|]). split.
    - rewrite cons_before, single_before. split; intros [B|[E B]]; auto; right; split; auto; congruence.
    - split; [intros [= -> ->]; auto|]. intros [[= ->] [= ->]]; auto.
  Qed.

  (** one attribute *)
  Lemma render_single f a v k : f_modifier f <> Some ($"v") -> get a (f_attribute f) = Ok v -> sort_key (f_type f) v = Ok k ->
    render get [f] a = Ok (PList [k]).
  Proof.
    intros M G K. unfold render. cbn [mapr]. unfold render_key. rewrite G, K. cbn [bindr].
    replace (has_modifier f ($"v")) with false; [reflexivity|]. unfold has_modifier. symmetry.
    destruct (f_modifier f) as [m|]; auto. apply not_true_is_false. intros E. apply M. f_equal. now apply str_eqb_eq.
  Qed.
  Lemma by_number f a b x y : f_modifier f <> Some ($"v") -> In (f_type f) [TNumber; TMode; TSize; TTime; TDuration] ->
    get a (f_attribute f) = Ok (VInt x) -> get b (f_attribute f) = Ok (VInt y) ->
    exists k1 k2, render get [f] a = Ok k1 /\ render get [f] b = Ok k2 /\ (Before k1 k2 <-> (x < y)%Z) /\ (k1 = k2 <-> x = y).
  Proof.
    intros M T G1 G2. exists (PList [PInt x]), (PList [PInt y]).
    assert (K : forall z, sort_key (f_type f) (VInt z) = Ok (PInt z)) by (intros z; cbn [In] in T; intuition (subst; try contradiction); match goal with H : _ = f_type f |- _ => rewrite <- H end; reflexivity).
    split; [eapply render_single; eauto|]. split; [eapply render_single; eauto|]. split.
    - rewrite single_before. split; [intros B; now inversion B|now constructor].
    - split; [now intros [= ->]|now intros ->].
  Qed.
  Lemma by_text f a b x y : f_modifier f <> Some ($"v") -> f_type f = TString ->
    get a (f_attribute f) = Ok (VStr x) -> get b (f_attribute f) = Ok (VStr y) ->
    exists k1 k2, render get [f] a = Ok k1 /\ render get [f] b = Ok k2 /\ (Before k1 k2 <-> StrBefore (lower x) (lower y)) /\
      (k1 = k2 <-> lower x = lower y).
  Proof.
    intros M T G1 G2. exists (PList [PStr (lower x)]), (PList [PStr (lower y)]).
    split; [eapply render_single; eauto; now rewrite T|]. split; [eapply render_single; eauto; now rewrite T|]. split.
    - rewrite single_before. split; [intros B; now inversion B|now constructor].
    - split; [now intros [= ->]|now intros ->].
  Qed.
  Lemma by_truth f a b x y : f_modifier f <> Some ($"v") -> f_type f = TBoolean ->
    get a (f_attribute f) = Ok (VBool x) -> get b (f_attribute f) = Ok (VBool y) ->
    exists k1 k2, render get [f] a = Ok k1 /\ render get [f] b = Ok k2 /\ (Before k1 k2 <-> x = false /\ y = true) /\
      (k1 = k2 <-> x = y).
  Proof.
    intros M T G1 G2. exists (PList [PInt (if x then 1 else 0)%Z]), (PList [PInt (if y then 1 else 0)%Z]).
    split; [eapply render_single; eauto; now rewrite T|]. split; [eapply render_single; eauto; now rewrite T|]. split.
    - rewrite single_before. split; [intros B; inversion B; subst; destruct x, y; auto; lia|]. intros [-> ->]. constructor. lia.
    - split; [destruct x, y; auto; discriminate|now intros ->].
  Qed.
  (** a missing attribute *)
  Lemma by_missing f a b v : f_modifier f <> Some ($"v") -> get a (f_attribute f) = Err KeyErr -> get b (f_attribute f) = Ok v ->
    In (f_type f, v) ([(TBoolean, VBool false); (TString, VStr []); (TPath, VStr []); (TFileType, VStr []); (TListOfStrings, VList [])] ++
      map (fun t => (t, VInt 0)) [TNumber; TMode; TSize; TTime; TDuration]) ->
    exists k, render get [f] a = Ok k /\ render get [f] b = Ok k.
  Proof.
    intros M G1 G2 T. exists (PList [sort_none (f_type f)]). split.
    - unfold render. cbn [mapr]. unfold render_key. now rewrite G1.
    - apply (render_single f b v); auto. cbn [In map app] in T.
      destruct f as [? ? t ? ?]. cbn [f_type] in *. repeat (destruct T as [T|T]; [injection T as <- <-; reflexivity|]). destruct T.
  Qed.
End Keys.
