(** Sort keys: when they can be computed and compared, and how numbers are
    ordered by natural sorting. *)
From Coq Require Import List NArith ZArith Bool Lia Permutation Sorting.Sorted.
From Verif Require Import Py Re TypeModel FieldModel PathModel PathSpec PathProofs OsPath SortModel SortSpec SortProofs.
Import ListNotations.
Local Open Scope nat_scope.

Fixpoint zipc (l k : list pv) : Prop :=
  match l, k with
  | x :: l', y :: k' => comparable x y = true /\ (x = y -> zipc l' k')
  | _, _ => True
  end.
Lemma zipc_comparable l k : zipc l k -> comparable (PList l) (PList k) = true.
Proof.
  unfold comparable. rewrite !pv_lt_list. revert k; induction l as [|x l IH]; intros [|y k]; cbn; try easy.
  intros [C H]. destruct (pv_eqb x y) eqn:E.
  - apply pv_eqb_eq in E as ->. rewrite pv_eqb_refl. now apply IH, H.
  - assert (E' : pv_eqb y x = false) by (apply pv_eqb_neq; apply pv_eqb_neq in E; congruence).
    now rewrite E'.
Qed.
Lemma zipc_forall2 l k : Forall2 (fun x y => comparable x y = true) l k -> zipc l k.
Proof. induction 1; cbn; auto. Qed.

(** Keys of one type *)
Definition kind (t : ty) (v : pv) : Prop :=
  match t with
  | TString | TPath | TFileType => exists s, v = PStr s
  | TListOfStrings => exists l, v = PList (map PStr l)
  | _ => exists z, v = PInt z
  end.
Lemma texts_comparable l k : comparable (PList (map PStr l)) (PList (map PStr k)) = true.
Proof.
  apply zipc_comparable. revert k; induction l as [|x l IH]; intros [|y k]; cbn; auto.
Qed.
Lemma kind_comparable t a b : kind t a -> kind t b -> comparable a b = true.
Proof.
  destruct t; cbn; intros [x ->] [y ->]; try reflexivity. apply texts_comparable.
Qed.
Lemma kind_none t : kind t (sort_none t).
Proof. destruct t; cbn; eauto. now exists []. Qed.
Lemma kind_key t v : conforms t v = true -> exists k, sort_key t v = Ok k /\ kind t k.
Proof. destruct t, v; cbn; try discriminate; eauto. Qed.

(** * Digits *)
Lemma is_d_iff c : is_d c = true <-> (48 <= c <= 57)%N.
Proof. unfold is_d, between. rewrite andb_true_iff, !N.leb_le. reflexivity. Qed.
Definition nodigit (s : str) : Prop := Forall (fun c => is_d c = false) s.
Definition dcls := Cls false false [CDigit false].
Lemma mem_dcls c : mem dcls c = is_d c.
Proof. unfold dcls. rewrite mem_pos. cbn. now rewrite orb_false_r; destruct (is_d c). Qed.
Lemma mem_dcls_all s : forallb (mem dcls) s = forallb is_d s.
Proof. induction s; cbn [forallb]; [reflexivity|]. now rewrite mem_dcls, IHs. Qed.
Notation first := (fun (s' : str) (cs : caps) => Some (s', cs)).
Lemma match_digits n0 ds rest : ds <> [] -> forallb is_d ds = true -> stops is_d rest ->
  m n0 digits_re (ds ++ rest) [] first = Some (rest, [(1, ds)]).
Proof.
  intros Hn Hd Hs. destruct ds as [|c ds]; [easy|]. cbn [forallb] in Hd.
  apply andb_true_iff in Hd as [Hc Hd].
  unfold digits_re. cbn [m app].
  change {| c_icase := false; c_neg := false; c_items := [CDigit false] |} with dcls.
  rewrite mem_dcls, Hc. apply star_g_run.
  - now rewrite mem_dcls_all.
  - destruct rest; [exact I|]. cbn [stops]. now rewrite mem_dcls.
  - replace (firstn _ (c :: ds ++ rest)) with (c :: ds) by (symmetry; apply (firstn_sub (c :: ds) rest)).
    reflexivity.
Qed.
Lemma match_nodigit n0 s : stops is_d s -> m n0 digits_re s [] first = None.
Proof.
  intros Hs. unfold digits_re. cbn [m].
  change {| c_icase := false; c_neg := false; c_items := [CDigit false] |} with dcls.
  destruct s as [|c t]; [reflexivity|]. rewrite mem_dcls. cbn in Hs. now rewrite Hs.
Qed.

Definition sp (n0 fuel : nat) (sk s : str) : list str :=
  let '(l, t) := scan_from n0 fuel digits_re sk s in split_list l t.
Lemma sp_skip n0 p : nodigit p -> forall fuel sk s, sp n0 (length p + fuel) sk (p ++ s) = sp n0 fuel (rev p ++ sk) s.
Proof.
  induction 1 as [|c p Hc _ IH]; intros fuel sk s; [reflexivity|]. cbn [length Nat.add app rev].
  rewrite <- app_assoc. cbn [app]. rewrite <- IH. unfold sp. cbn [scan_from].
  now rewrite match_nodigit.
Qed.
Lemma sp_end n0 fuel sk : sp n0 fuel sk [] = [rev sk].
Proof. destruct fuel; cbn; [|reflexivity]. unfold sp. cbn. now rewrite app_nil_r. Qed.
Lemma sp_match n0 fuel sk d rest : d <> [] -> forallb is_d d = true -> stops is_d rest ->
  sp n0 (S fuel) sk (d ++ rest) = rev sk :: d :: sp n0 fuel [] rest.
Proof.
  intros Hn Hd Hs. unfold sp. destruct d as [|c d]; [easy|]. cbn [app scan_from].
  change (c :: d ++ rest) with ((c :: d) ++ rest). rewrite match_digits by assumption.
  rewrite (proj2 (Nat.ltb_lt _ _)) by (rewrite app_length; cbn; lia).
  destruct (scan_from n0 fuel digits_re [] rest). unfold str, char in *. now rewrite firstn_sub.
Qed.

(** A text as alternating sequence of text without digits and numbers *)
Inductive Parts : str -> list str -> Prop :=
| parts_end s : nodigit s -> Parts s [s]
| parts_more p d rest l : nodigit p -> d <> [] -> forallb is_d d = true -> stops is_d rest -> Parts rest l ->
    Parts (p ++ d ++ rest) (p :: d :: l).
Lemma parts_sp s l : Parts s l -> forall n0 fuel, length s <= fuel -> sp n0 fuel [] s = l.
Proof.
  induction 1 as [s Hs|p d rest l Hp Hn Hd Hr _ IH]; intros n0 fuel L.
  - replace fuel with (length s + (fuel - length s)) by lia.
    assert (E := sp_skip n0 s Hs (fuel - length s) [] []). rewrite app_nil_r in E. rewrite E, app_nil_r, sp_end.
    now rewrite rev_involutive.
  - rewrite !app_length in L. assert (length d <> 0) by now destruct d.
    replace fuel with (length p + S (fuel - length p - 1)) by lia.
    rewrite sp_skip by assumption. rewrite sp_match by assumption. rewrite app_nil_r, rev_involutive.
    do 2 f_equal. apply IH. lia.
Qed.
Lemma parts_split s l : Parts s l -> re_split digits_re s = l.
Proof. intros H. apply (parts_sp s l H (length s) (length s)). lia. Qed.
Lemma span p (s : str) : exists a b, s = a ++ b /\ forallb p a = true /\ stops p b.
Proof.
  induction s as [|c t IH]; [now exists [], []|].
  destruct (p c) eqn:E; [|now exists [], (c :: t)].
  destruct IH as (a & b & -> & H1 & H2). exists (c :: a), b. cbn. now rewrite E.
Qed.
Lemma parts_exist s : exists l, Parts s l.
Proof.
  induction s as [s IH] using (well_founded_induction (Wf_nat.well_founded_ltof _ (@length char))).
  destruct (span (fun c => negb (is_d c)) s) as (p & s1 & -> & Hp & Hs).
  assert (Np : nodigit p).
  { apply Forall_forall. intros c Hc. rewrite forallb_forall in Hp. now apply negb_true_iff, Hp. }
  destruct s1 as [|c s1]; [exists [p]; rewrite app_nil_r; now constructor|]. cbn in Hs. apply negb_false_iff in Hs.
  destruct (span is_d (c :: s1)) as (d & rest & E & Hd & Hr). rewrite E.
  assert (d <> []) by (intros ->; cbn in E; subst rest; cbn in Hr; congruence).
  destruct (IH rest) as [l Hl].
  { unfold Wf_nat.ltof. unfold str, char in *. rewrite E, !app_length. destruct d; [easy|cbn; lia]. }
  exists (p :: d :: l). now constructor.
Qed.
Lemma parts_app p l d rest k : Parts p l -> no_digit_last p -> d <> [] -> forallb is_d d = true -> stops is_d rest -> Parts rest k ->
  Parts (p ++ d ++ rest) (l ++ d :: k).
Proof.
  intros H Hl Hd Fd Sr Hk. induction H as [s Hs|p d' rest' l' Hp Hn' Hd' Hr' H' IH].
  - cbn. now constructor.
  - cbn [app]. rewrite <- !app_assoc. constructor; auto.
    + destruct rest' as [|c r']; [|exact Hr']. exfalso.
      rewrite app_nil_r in Hl. unfold no_digit_last in Hl. rewrite rev_app_distr in Hl.
      destruct (rev d') as [|c t] eqn:E; [apply Hn'; rewrite <- (rev_involutive d'), E; reflexivity|].
      cbn in Hl. apply Hl. apply is_d_iff. rewrite forallb_forall in Hd'. apply Hd'. rewrite in_rev, E. now left.
    + apply IH. unfold no_digit_last in *. rewrite !rev_app_distr in Hl.
      destruct (rev rest'); [exact I|]. exact Hl.
Qed.

(** * Tokens *)
Definition plain (s : str) : Prop := ~ Exists superscript s.
Lemma plain_app a b : plain (a ++ b) <-> plain a /\ plain b.
Proof. unfold plain. rewrite Exists_app. tauto. Qed.
Lemma isdigit_plain c : ~ superscript c -> is_isdigit c = is_d c.
Proof.
  unfold superscript, is_isdigit. intros H.
  destruct (N.eqb_spec c 178), (N.eqb_spec c 179), (N.eqb_spec c 185); subst; try tauto. now rewrite !orb_false_r.
Qed.
Lemma isdigit_nodigit p : nodigit p -> plain p -> isdigit p = false.
Proof.
  intros H P. destruct p as [|c p]; [reflexivity|]. cbn. inversion H; subst.
  rewrite isdigit_plain; [|intros K; apply P; now constructor].
  now replace (is_d c) with false.
Qed.
Lemma isdigit_digits d : d <> [] -> forallb is_d d = true -> isdigit d = true.
Proof.
  destruct d as [|c d]; [easy|]. intros _. unfold isdigit. apply forallb_impl. intros x Hx.
  unfold is_isdigit. now rewrite Hx.
Qed.
Lemma number_val d : number d = digits_val d.
Proof. reflexivity. Qed.
Inductive Tokens : list str -> list pv -> Prop :=
| tokens_end s : Tokens [s] [PStr s]
| tokens_more p d l k : Tokens l k -> Tokens (p :: d :: l) (PStr p :: PInt (Z.of_N (number d)) :: k).
Lemma tokens_of s l : Parts s l -> plain s -> exists k, mapr token l = Ok k /\ Tokens l k.
Proof.
  induction 1 as [s Hs|p d rest l Hp Hn Hd Hr _ IH]; intros P.
  - exists [PStr s]. split; [|constructor]. cbn. unfold token. now rewrite isdigit_nodigit.
  - apply plain_app in P as [P1 P]. apply plain_app in P as [P2 P3]. destruct (IH P3) as (k & E & T).
    exists (PStr p :: PInt (Z.of_N (number d)) :: k). split; [|now constructor].
    cbn [mapr]. unfold token at 1. rewrite isdigit_nodigit by assumption. cbn [bindr].
    unfold token at 1. rewrite isdigit_digits by assumption. rewrite py_int_digits by assumption. cbn [bindr].
    rewrite E. cbn [bindr]. reflexivity.
Qed.
Lemma tokens_app l k d l' k' : Tokens l k -> Tokens l' k' -> Tokens (l ++ d :: l') (k ++ PInt (Z.of_N (number d)) :: k').
Proof. intros H H'. induction H; cbn; constructor; auto. Qed.

(** Lists of tokens can be compared. *)
Inductive alternating : list pv -> Prop :=
| alternating_end s : alternating [PStr s]
| alternating_more p n k : alternating k -> alternating (PStr p :: PInt n :: k).
Lemma tokens_alternating l k : Tokens l k -> alternating k.
Proof. induction 1; constructor; auto. Qed.
Lemma alternating_zipc l k : alternating l -> alternating k -> zipc l k.
Proof.
  intros H. revert k. induction H as [s|p n l H IH]; intros k K; destruct K as [t|q n' k K]; cbn; auto.
Qed.

(** * Components *)
Lemma strip_prefix fuel : forall c e c' e', strip_extensions fuel c e = (c', e') -> exists x, c = c' ++ x.
Proof.
  induction fuel as [|fuel IH]; intros c e c' e'; cbn.
  - intros [= -> ->]. exists []. now rewrite app_nil_r.
  - destruct c as [|a c]; [intros [= <- <-]; now exists []|].
    destruct (splitext (a :: c)) as [comp ext] eqn:E.
    assert (S := splitext_spec (a :: c)). rewrite E in S. cbn [fst snd] in S.
    destruct (lstrip_p (N.eqb DOT) ext) as [|b ext'] eqn:L; [intros [= <- <-]; exists []; now rewrite app_nil_r|].
    destruct (is_isdigit b && true); [intros [= <- <-]; exists []; now rewrite app_nil_r|].
    intros H. apply IH in H as [x ->].
    destruct S as [[S _]|(S & -> & _)]; [|discriminate L]. exists (x ++ ext). now rewrite S, app_assoc.
Qed.
(** What comes before the first dot is kept. *)
Definition dotted (x : str) : Prop := match x with [] => True | c :: _ => c = DOT end.
Lemma strip_stem fuel : forall s x e c' e', s <> [] -> ~ In DOT s -> ~ In SLASH s -> dotted x -> ~ In SLASH x ->
  strip_extensions fuel (s ++ x) e = (c', e') -> exists x', c' = s ++ x' /\ dotted x'.
Proof.
  induction fuel as [|fuel IH]; intros s x e c' e' Hs Hd Hsl Hx Hxs; cbn.
  - intros [= <- <-]. eauto.
  - destruct (s ++ x) as [|a c] eqn:Esx; [exfalso; destruct s; [easy|discriminate Esx]|]. rewrite <- Esx.
    destruct (splitext (s ++ x)) as [comp ext] eqn:E.
    assert (S := splitext_spec (s ++ x)). rewrite E in S. cbn [fst snd] in S.
    destruct (lstrip_p (N.eqb DOT) ext) as [|b ext'] eqn:L; [intros [= <- <-]; eauto|].
    destruct (is_isdigit b && true); [intros [= <- <-]; eauto|].
    destruct S as [[S (y & d & k & -> & _)]|(_ & -> & _)]; [|discriminate L].
    assert (K : exists x1, comp = s ++ x1 /\ dotted x1 /\ ~ In SLASH x1).
    { clear IH L E Esx. revert comp S. induction s as [|u s IHs]; intros comp S; [easy|].
      destruct comp as [|v comp].
      { cbn in S. injection S as -> _. exfalso. apply Hd. now left. }
      cbn in S. injection S as <- S. destruct s as [|w s].
      - cbn in S. exists comp. split; [reflexivity|]. subst x. split.
        + destruct comp; [exact I|]. cbn in Hx. exact Hx.
        + intros K. apply Hxs. apply in_app_iff. now left.
      - destruct (IHs ltac:(easy) (fun K => Hd (or_intror K)) (fun K => Hsl (or_intror K)) comp S) as (x1 & -> & H1 & H2).
        now exists x1. }
    destruct K as (x1 & -> & H1 & H2). apply IH; auto.
Qed.

Lemma splitext_dot c comp ext : splitext c = (comp, ext) -> lstrip_p (N.eqb DOT) ext <> [] ->
  exists y, c = comp ++ DOT :: y.
Proof.
  intros E L. assert (S := splitext_spec c). rewrite E in S. cbn [fst snd] in S.
  destruct S as [[S (y & _ & _ & -> & _)]|(_ & -> & _)]; [eauto|easy].
Qed.
Lemma strip_count fuel : forall c e c' e', strip_extensions fuel c e = (c', e') ->
  length e' <= length e + count_occ N.eq_dec c DOT.
Proof.
  induction fuel as [|fuel IH]; intros c e c' e'; cbn [strip_extensions].
  - intros [= <- <-]. lia.
  - destruct c as [|a c]; [intros [= <- <-]; cbn; lia|].
    destruct (splitext (a :: c)) as [comp ext] eqn:E.
    destruct (lstrip_p (N.eqb DOT) ext) as [|b ext'] eqn:L; [intros [= <- <-]; lia|].
    destruct (isdigit [b]); [intros [= <- <-]; lia|].
    intros H. apply IH in H. cbn [length] in H.
    destruct (splitext_dot _ _ _ E ltac:(rewrite L; discriminate)) as [y ->].
    rewrite count_occ_app. cbn [count_occ]. destruct (N.eq_dec DOT DOT); [|easy]. unfold str, char in *. lia.
Qed.

(** The keys of one component *)
Lemma component_keys c : plain c -> exists k e, prepare_component c = Ok (PList k :: match e with [] => [] | _ => [PList (map PStr e)] end) /\
  alternating k /\ length e <= count_occ N.eq_dec c DOT /\
  (forall c' e', strip_extensions (length c) c [] = (c', e') -> forall l, Parts c' l -> Tokens l k).
Proof.
  intros P. unfold prepare_component. destruct (strip_extensions (length c) c []) as [c' e] eqn:S.
  assert (Pc : plain c') by (apply strip_prefix in S as [x ->]; now apply plain_app in P).
  destruct (parts_exist c') as [l Hl]. destruct (tokens_of _ _ Hl Pc) as (k & M & T).
  rewrite (parts_split _ _ Hl).
  assert (F : match l with p :: _ => if isdigit p then [] :: l else l | [] => l end = l).
  { destruct Hl as [s Hs|p d rest l Hp _ _ _ _].
    - now rewrite isdigit_nodigit.
    - apply plain_app in Pc as [Pc _]. now rewrite isdigit_nodigit. }
  rewrite F, M. cbn [bindr]. exists k, e. split; [reflexivity|]. split; [now apply tokens_alternating in T|].
  split; [apply strip_count in S; exact S|].
  intros c'' e'' [= <- <-] l' Hl'. apply parts_split in Hl, Hl'. congruence.
Qed.

(** * Texts *)
Lemma split_on_chars c s x y : In x (split_on c s) -> In y x -> In y s.
Proof.
  intros Hx Hy. rewrite <- (join_split c s). revert Hx. generalize (split_on c s). induction l as [|z l IH]; [easy|].
  intros [-> | Hx]; cbn [join_with]; destruct l; try (now destruct Hx); auto.
  - rewrite !in_app_iff. now left.
  - rewrite !in_app_iff. right; right. now apply IH.
Qed.
Lemma plain_split c s x : plain s -> In x (split_on c s) -> plain x.
Proof.
  intros P Hx K. apply Exists_exists in K as (y & Hy & Sy). apply P, Exists_exists. exists y.
  split; [eapply split_on_chars; eauto|exact Sy].
Qed.
Lemma norm_step_in r acc c x : In x (norm_step r acc c) -> In x acc \/ x = c.
Proof.
  unfold norm_step. destruct (str_eqb c [] || str_eqb c ($".")); auto.
  destruct (negb (str_eqb c ($".."))); [intros [<-|H]; auto|].
  destruct acc as [|y acc]; [destruct r; [easy|intros [<-|[]]; auto]|].
  destruct (str_eqb y ($"..")); [intros [<-|H]; auto|]. intros H. left. now right.
Qed.
Lemma norm_comps_in r l x : In x (norm_comps r l) -> In x l.
Proof.
  unfold norm_comps. intros H. apply in_rev in H.
  assert (G : forall l acc, In x (fold_left (norm_step r) l acc) -> In x acc \/ In x l).
  { clear. induction l as [|c l IH]; cbn; auto. intros acc H. apply IH in H as [H|H]; auto.
    apply norm_step_in in H as [H| ->]; auto. }
  apply G in H as [[]|H]. exact H.
Qed.
Lemma normpath_comps s x : In x (split_on SLASH (normpath s)) -> In x (split_on SLASH s) \/ x = [] \/ x = $".".
Proof.
  unfold normpath. destruct s as [|c s0]; [intros [<-|[]]; auto|]. remember (c :: s0) as s eqn:Es.
  set (r := starts_with ($"/") s). set (comps := norm_comps r (split_on SLASH s)).
  assert (C : forall x, In x comps -> In x (split_on SLASH s) /\ ~ In SLASH x).
  { intros y Hy. apply norm_comps_in in Hy. split; [exact Hy|]. eapply split_on_parts; exact Hy. }
  assert (J : forall x, In x (split_on SLASH (join_with ($"/") comps)) -> In x (split_on SLASH s) \/ x = []).
  { intros y. destruct comps as [|z l] eqn:E; [intros [<-|[]]; auto|].
    change ($"/") with [SLASH]. rewrite split_join; [|discriminate|intros w Hw; now apply C].
    intros Hy. left. now apply C. }
  match goal with |- context [?sl ++ join_with _ _] => set (slashes := sl) end.
  assert (Sl : slashes = [] \/ slashes = $"/" \/ slashes = $"//").
  { subst slashes. destruct r; auto. destruct (_ && _); auto. }
  destruct (slashes ++ join_with ($"/") comps) as [|a t] eqn:E.
  - intros [<-|[]]. auto.
  - rewrite <- E. destruct Sl as [-> | [-> | ->]]; cbn [app lit].
    + intros H. apply J in H as [H|H]; auto.
    + intros [<-|H]; auto. apply J in H as [H|H]; auto.
    + intros [<- | [<- | H]]; auto. apply J in H as [H|H]; auto.
Qed.
Lemma plain_nil : plain [].
Proof. intros H. inversion H. Qed.
Lemma plain_dot : plain ($".").
Proof. intros H. inversion H as [? ? K|? ? K]; subst; [|inversion K]. destruct K as [K|[K|K]]; discriminate. Qed.

(** Keys of texts *)
Definition item (x : pv) : Prop := exists k, x = PList k /\ (alternating k \/ exists e, k = [PStr e]).
Lemma item_comparable x y : item x -> item y -> comparable x y = true.
Proof.
  intros (k & -> & Hk) (l & -> & Hl). apply zipc_comparable.
  destruct Hk as [Hk|[e ->]], Hl as [Hl|[e' ->]].
  - now apply alternating_zipc.
  - destruct Hk; cbn; auto.
  - destruct Hl; cbn; auto.
  - cbn. auto.
Qed.
Lemma items_zipc l k : Forall item l -> Forall item k -> zipc l k.
Proof.
  intros H. revert k. induction H as [|x l Hx _ IH]; intros k K; [exact I|].
  destruct K as [|y k Hy K]; [exact I|]. cbn. split; [now apply item_comparable|]. intros _. now apply IH.
Qed.
(** paths *)
Definition path_key (v : pv) : Prop := exists l, v = PList l /\ Forall item l.
Lemma path_keys t : plain t -> Forall one_dot (split_on SLASH t) -> exists v, prepare_sort_key (PStr t) = Ok v /\ path_key v.
Proof.
  intros P D. unfold prepare_sort_key.
  assert (C : forall c, In c (split_on SLASH (normpath t)) -> exists k, prepare_component c = Ok k /\ Forall item k).
  { intros c Hc.
    assert (K : plain c /\ one_dot c).
    { apply normpath_comps in Hc as [Hc | [-> | ->]].
      - split; [eapply plain_split; eauto|]. rewrite Forall_forall in D. auto.
      - split; [apply plain_nil|]. unfold one_dot. cbn. lia.
      - split; [apply plain_dot|]. unfold one_dot. cbn. lia. }
    destruct K as [Pc Oc]. destruct (component_keys c Pc) as (k & e & E & A & L & _). rewrite E. eexists. split; [reflexivity|].
    constructor; [exists k; auto|]. unfold one_dot in Oc. destruct e as [|x [|y e]]; [constructor| |cbn in L; lia].
    constructor; [|constructor]. exists [PStr x]. eauto. }
  assert (M : exists ks, mapr prepare_component (split_on SLASH (normpath t)) = Ok ks /\ Forall (Forall item) ks).
  { revert C. generalize (split_on SLASH (normpath t)). induction l as [|c l IH]; intros C; [exists []; auto|].
    destruct (C c (or_introl eq_refl)) as (k & E & F). destruct IH as (ks & E' & F'); [intros; apply C; now right|].
    exists (k :: ks). cbn. rewrite E. cbn. rewrite E'. cbn. auto. }
  destruct M as (ks & -> & F). cbn [bindr]. eexists. split; [reflexivity|]. eexists. split; [reflexivity|].
  now apply Forall_concat.
Qed.
Lemma path_key_comparable x y : path_key x -> path_key y -> comparable x y = true.
Proof. intros (l & -> & H) (k & -> & K). now apply zipc_comparable, items_zipc. Qed.
(** names *)
Definition name_key (v : pv) : Prop := exists k e, alternating k /\ v = PList (PList k :: match e with [] => [] | _ => [PList (map PStr e)] end).
Lemma normpath_name t : ~ In SLASH t -> exists c, split_on SLASH (normpath t) = [c] /\ (c = t \/ c = $".").
Proof.
  intros N. destruct t as [|a t]; [exists ($"."); auto|].
  assert (Nr : starts_with ($"/") (a :: t) = false).
  { destruct (starts_with ($"/") (a :: t)) eqn:K; [|reflexivity]. apply starts_with_iff in K as [u K]. injection K as -> _.
    exfalso. apply N. now left. }
  unfold normpath. rewrite Nr. cbn [app]. rewrite (split_on_nosep SLASH (a :: t) N).
  unfold norm_comps. cbn [fold_left]. unfold norm_step.
  replace (str_eqb (a :: t) []) with false by reflexivity. cbn [orb].
  destruct (str_eqb (a :: t) ($".")); [exists ($"."); auto|].
  destruct (negb (str_eqb (a :: t) ($".."))); cbn [rev app join_with]; exists (a :: t); split; auto; exact (split_on_nosep SLASH (a :: t) N).
Qed.
Lemma name_keys t : plain t -> ~ In SLASH t -> exists v, prepare_sort_key (PStr t) = Ok v /\ name_key v.
Proof.
  intros P N. unfold prepare_sort_key. destruct (normpath_name t N) as (c & -> & H).
  assert (Pc : plain c) by (destruct H as [-> | ->]; [assumption|apply plain_dot]).
  destruct (component_keys c Pc) as (k & e & E & A & _). cbn [mapr]. rewrite E. cbn [bindr concat].
  eexists. split; [reflexivity|]. exists k, e. split; [exact A|]. now rewrite app_nil_r.
Qed.
Lemma name_key_comparable x y : name_key x -> name_key y -> comparable x y = true.
Proof.
  intros (k & e & A & ->) (k' & e' & A' & ->). apply zipc_comparable. cbn. split.
  - now apply zipc_comparable, alternating_zipc.
  - intros _. destruct e as [|a e], e' as [|a' e']; cbn; auto. split; [|auto]. apply (texts_comparable (a :: e) (a' :: e')).
Qed.

(** * Lower case *)
Lemma lower_c_val c : lower_c c = c \/ (lower_c c = c + 32 /\ (65 <= c <= 90 \/ 192 <= c <= 222 /\ c <> 215))%N.
Proof.
  unfold lower_c, is_upper_AZ, between.
  destruct ((65 <=? c) && (c <=? 90) || (192 <=? c) && (c <=? 222) && negb (c =? 215))%N eqn:E; [right|now left].
  split; [reflexivity|]. lia.
Qed.
Lemma lower_c_d c : is_d (lower_c c) = is_d c.
Proof. unfold is_d, between. destruct (lower_c_val c) as [-> | [-> H]]; lia. Qed.
Lemma lower_c_eq c x : (x < 65 \/ 185 = x \/ 178 = x \/ 179 = x)%N -> lower_c c = x <-> c = x.
Proof. intros H. destruct (lower_c_val c) as [-> | [-> K]]; lia. Qed.
Lemma lower_in c s : (c < 65)%N -> In c (lower s) <-> In c s.
Proof.
  intros H. unfold lower. rewrite in_map_iff. split.
  - intros (x & E & Hx). apply (proj1 (lower_c_eq x c (or_introl H))) in E. now subst.
  - intros Hx. exists c. split; [|exact Hx]. now apply (proj2 (lower_c_eq c c (or_introl H))).
Qed.
Lemma lower_plain s : plain s -> plain (lower s).
Proof.
  intros P K. apply P. apply Exists_exists in K as (x & Hx & Sx). apply in_map_iff in Hx as (y & <- & Hy).
  apply Exists_exists. exists y. split; [exact Hy|]. unfold superscript in *.
  destruct (lower_c_val y) as [V | [V W]]; lia.
Qed.
Lemma lower_split s : split_on SLASH (lower s) = map lower (split_on SLASH s).
Proof.
  induction s as [|c s IH]; [reflexivity|]. cbn [lower map split_on]. change (map lower_c s) with (lower s).
  replace (N.eqb (lower_c c) SLASH) with (N.eqb c SLASH).
  - rewrite IH. destruct (N.eqb c SLASH); [reflexivity|]. destruct (split_on SLASH s); reflexivity.
  - destruct (N.eqb_spec c SLASH) as [-> | N]; [reflexivity|]. symmetry. apply N.eqb_neq. intros K. apply N.
    now apply (proj1 (lower_c_eq c SLASH (or_introl eq_refl))).
Qed.
Lemma lower_dots s : count_occ N.eq_dec (lower s) DOT = count_occ N.eq_dec s DOT.
Proof.
  induction s as [|c s IH]; [reflexivity|]. cbn [lower map count_occ]. change (map lower_c s) with (lower s). rewrite IH.
  destruct (N.eq_dec c DOT) as [-> | N]; [reflexivity|].
  destruct (N.eq_dec (lower_c c) DOT) as [K|]; [|reflexivity]. exfalso. apply N. now apply (proj1 (lower_c_eq c DOT (or_introl eq_refl))).
Qed.
Lemma lower_digits d : forallb is_d d = true -> lower d = d.
Proof.
  induction d as [|c d IH]; [reflexivity|]. cbn [forallb]. rewrite andb_true_iff. intros [Hc Hd].
  cbn [lower map]. change (map lower_c d) with (lower d). rewrite IH by assumption. f_equal.
  destruct (lower_c_val c) as [E | [_ E]]; [exact E|]. apply is_d_iff in Hc. lia.
Qed.

(** Path.sort_key *)
Definition nodots (s : str) : str := join_with ($"/") (map (lstrip_p (N.eqb DOT)) (split_on SLASH s)).
Lemma lstrip_suffix p s : exists a, s = a ++ lstrip_p p s.
Proof.
  induction s as [|c s [a E]]; [now exists []|]. cbn. destruct (p c); [|now exists []].
  exists (c :: a). cbn. now rewrite <- E.
Qed.
Lemma nodots_split s : split_on SLASH (nodots s) = map (lstrip_p (N.eqb DOT)) (split_on SLASH s).
Proof.
  unfold nodots. change ($"/") with [SLASH]. apply split_join.
  - intros K. apply map_eq_nil in K. now apply split_on_nonnil in K.
  - intros x Hx. apply in_map_iff in Hx as (y & <- & Hy). apply split_on_parts in Hy. intros K. apply Hy.
    destruct (lstrip_suffix (N.eqb DOT) y) as [a ->]. apply in_app_iff. now right.
Qed.
Lemma join_in c x l : In x (join_with [c] l) -> x = c \/ exists y, In y l /\ In x y.
Proof.
  induction l as [|y l IH]; [easy|]. destruct l as [|z l].
  - intros H. right. exists y. split; [now left|exact H].
  - change (join_with [c] (y :: z :: l)) with (y ++ [c] ++ join_with [c] (z :: l)). rewrite !in_app_iff.
    intros [H|[[<-|[]]|H]]; [right; exists y; split; [now left|exact H]|now left|].
    apply IH in H as [H|(w & Hw & H)]; [now left|right; exists w; split; [now right|exact H]].
Qed.
Lemma nodots_in s x : In x (nodots s) -> x = SLASH \/ In x s.
Proof.
  unfold nodots. change ($"/") with [SLASH]. intros H. apply join_in in H as [H|(y & Hy & H)]; [now left|right].
  apply in_map_iff in Hy as (z & <- & Hz). eapply split_on_chars; [exact Hz|].
  destruct (lstrip_suffix (N.eqb DOT) z) as [a ->]. apply in_app_iff. now right.
Qed.
Lemma nodots_plain s : plain s -> plain (nodots s).
Proof.
  intros P K. apply Exists_exists in K as (x & Hx & Sx). apply nodots_in in Hx as [-> | Hx].
  - destruct Sx as [E|[E|E]]; discriminate.
  - apply P, Exists_exists. eauto.
Qed.

(** The text that natural sorting sees *)
Lemma text_key t s : t = TString \/ t = TPath -> exists u, sort_key t (VStr s) = Ok (PStr u) /\
  (plain s -> plain u) /\ (~ In SLASH s -> ~ In SLASH u) /\
  (Forall one_dot (split_on SLASH s) -> Forall one_dot (split_on SLASH u)).
Proof.
  intros [-> | ->]; cbn [sort_key]; eexists; (split; [reflexivity|]).
  - split; [apply lower_plain|]. split; [intros N K; apply N; exact (proj1 (lower_in SLASH s eq_refl) K)|].
    intros F. rewrite lower_split. apply Forall_map. eapply Forall_impl; [|exact F].
    intros c Hc. unfold one_dot in *. now rewrite lower_dots.
  - fold (nodots (lower s)). split; [intros P; now apply nodots_plain, lower_plain|]. split.
    + intros N. unfold nodots. rewrite split_on_nosep by (intros K; apply N; exact (proj1 (lower_in SLASH s eq_refl) K)).
      cbn. destruct (lstrip_suffix (N.eqb DOT) (lower s)) as [a E]. intros K. apply N. apply (lower_in SLASH); [reflexivity|].
      rewrite E. apply in_app_iff. now right.
    + intros F. rewrite nodots_split, lower_split, map_map. apply Forall_map. eapply Forall_impl; [|exact F].
      intros c Hc. unfold one_dot in *. rewrite <- lower_dots in Hc.
      destruct (lstrip_suffix (N.eqb DOT) (lower c)) as [a E]. rewrite E in Hc. rewrite count_occ_app in Hc.
      unfold str, char in *. lia.
Qed.

(** * Sorting succeeds *)
Definition class (K : pv -> Prop) (f : field) (v : pv) : Prop :=
  if has_modifier f ($"v") then K v else kind (f_type f) v.
Lemma modifier_v f : has_modifier f ($"v") = true <-> f_modifier f = Some ($"v").
Proof.
  unfold has_modifier. destruct (f_modifier f) as [x|]; [|split; discriminate].
  rewrite str_eqb_eq. split; congruence.
Qed.
Section Total.
  Context {A : Type} (get : A -> str * str -> res value).
  Variable K : pv -> Prop.
  Hypothesis Kc : forall x y, K x -> K y -> comparable x y = true.
  Lemma class_sort fields reverse entries :
    (forall a f, In a entries -> In f fields -> exists k, render_key get a f = Ok k /\ class K f k) ->
    exists out, finalize get (Some fields) reverse entries = Ok out.
  Proof.
    intros H. unfold finalize.
    assert (R : forall a, In a entries -> exists l, mapr (render_key get a) fields = Ok l /\ Forall2 (class K) fields l).
    { intros a Ha. assert (H' := fun f => H a f Ha). clear H Ha. induction fields as [|f fields IH]; [exists []; auto|].
      destruct (H' f (or_introl eq_refl)) as (k & E & C). destruct IH as (l & E' & C'); [intros; apply H'; now right|].
      exists (k :: l). cbn. rewrite E. cbn. rewrite E'. cbn. auto. }
    apply (list_sort_ok _ (fun a => match render get fields a with Ok v => v | _ => PInt 0 end)).
    - intros a Ha. destruct (R a Ha) as (l & E & _). unfold render. now rewrite E.
    - intros a b Ha Hb. destruct (R a Ha) as (l & E & C), (R b Hb) as (l' & E' & C'). unfold render. rewrite E, E'. cbn.
      apply zipc_comparable, zipc_forall2. clear -Kc C C'. revert l' C'. induction C as [|f k fields l Hk _ IH]; intros l' C'.
      + inversion C'. constructor.
      + inversion C'; subst. constructor; [|now apply IH]. unfold class in *.
        destruct (has_modifier f ($"v")); [now apply Kc|]. eapply kind_comparable; eauto.
  Qed.
  Lemma plain_class a f : has_modifier f ($"v") = false ->
    get a (f_attribute f) = Err KeyErr \/ (exists v, get a (f_attribute f) = Ok v /\ conforms (f_type f) v = true) ->
    exists k, render_key get a f = Ok k /\ class K f k.
  Proof.
    intros V H. unfold render_key, class. rewrite V. destruct H as [-> | (v & -> & C)].
    - eexists. split; [reflexivity|apply kind_none].
    - destruct (kind_key _ _ C) as (k & -> & Hk). cbn. eauto.
  Qed.
End Total.

Lemma typed_sort A (get : A -> str * str -> res value) fields reverse entries :
  well_typed get fields entries -> (forall f, In f fields -> f_modifier f <> Some ($"v")) ->
  exists out, finalize get (Some fields) reverse entries = Ok out.
Proof.
  intros W V. apply (class_sort get (fun _ => False)); [easy|]. intros a f Ha Hf. apply plain_class; [|now apply W].
  destruct (has_modifier f ($"v")) eqn:E; [|reflexivity]. apply modifier_v in E. now apply V in E.
Qed.
Lemma natural_sort A (get : A -> str * str -> res value) (good : str -> Prop) (K : pv -> Prop) fields reverse entries :
  (forall x y, K x -> K y -> comparable x y = true) ->
  (forall t s, (t = TString \/ t = TPath) -> good s -> plain s -> exists u v, sort_key t (VStr s) = Ok (PStr u) /\ prepare_sort_key (PStr u) = Ok v /\ K v) ->
  natural good get fields entries -> exists out, finalize get (Some fields) reverse entries = Ok out.
Proof.
  intros KC KG [W V]. apply (class_sort get K KC). intros a f Ha Hf. destruct (has_modifier f ($"v")) eqn:E; [|now apply plain_class; auto].
  destruct (V a f Ha Hf) as (T & s & G & Gs & P); [now apply modifier_v|].
  destruct (KG _ s T Gs P) as (u & v & E1 & E2 & Kv).
  unfold render_key, class. rewrite G, E1, E. cbn [bindr]. eauto.
Qed.
Lemma names_sort A (get : A -> str * str -> res value) fields reverse entries :
  natural (fun s => ~ In SLASH s) get fields entries -> exists out, finalize get (Some fields) reverse entries = Ok out.
Proof.
  apply natural_sort with (K := name_key); [apply name_key_comparable|]. intros t s T G P.
  destruct (text_key t s T) as (u & E & Pu & Nu & _). destruct (name_keys u (Pu P) (Nu G)) as (v & E' & Kv). eauto.
Qed.
Lemma paths_sort A (get : A -> str * str -> res value) fields reverse entries :
  natural (fun s => Forall one_dot (split_on SLASH s)) get fields entries -> exists out, finalize get (Some fields) reverse entries = Ok out.
Proof.
  apply natural_sort with (K := path_key); [apply path_key_comparable|]. intros t s T G P.
  destruct (text_key t s T) as (u & E & Pu & _ & Du). destruct (path_keys u (Pu P) (Du G)) as (v & E' & Kv). eauto.
Qed.

(** * Numbers *)
Lemma tokens_fun l k k' : Tokens l k -> Tokens l k' -> k = k'.
Proof.
  intros H. revert k'. induction H as [s|p d l k H IH]; intros k' K.
  - now inversion K.
  - inversion K; subst. do 2 f_equal. now apply IH.
Qed.
Lemma digits_d d : digits d -> d <> [] /\ forallb is_d d = true.
Proof.
  intros [N F]. split; [exact N|]. apply forallb_forall. intros c Hc. apply is_d_iff. rewrite Forall_forall in F. auto.
Qed.
Lemma stops_first s : no_digit_first s -> stops is_d s.
Proof.
  destruct s as [|c s]; [easy|]. cbn. intros H. destruct (is_d c) eqn:E; [|reflexivity]. now apply is_d_iff in E.
Qed.
Lemma first_dot s : exists a x, s = a ++ x /\ ~ In DOT a /\ dotted x.
Proof.
  induction s as [|c s (a & x & -> & Ha & Hx)]; [exists [], []; easy|].
  destruct (N.eq_dec c DOT) as [-> | N]; [exists [], (DOT :: a ++ x); easy|].
  exists (c :: a), x. split; [reflexivity|]. split; [|exact Hx]. intros [E|H]; auto.
Qed.
Definition dotfree_key (p d r : str) : Prop :=
  exists kp kr e, (forall lp, Parts p lp -> Tokens lp kp) /\
    prepare_sort_key (PStr (p ++ d ++ r)) =
      Ok (PList (PList (kp ++ PInt (Z.of_N (number d)) :: kr) :: match e with [] => [] | _ => [PList (map PStr e)] end)).
Lemma number_key p d r : plain (p ++ d ++ r) -> ~ In SLASH (p ++ d ++ r) -> ~ In DOT p -> digits d -> no_digit_last p -> stops is_d r ->
  dotfree_key p d r.
Proof.
  intros P N Dp D Lp Sr. destruct (digits_d _ D) as [Nd Fd].
  assert (Dd : ~ In DOT d).
  { intros K. rewrite forallb_forall in Fd. apply Fd in K. discriminate. }
  destruct (normpath_name _ N) as (c & Ec & Hc).
  assert (c = p ++ d ++ r) as ->.
  { destruct Hc as [Hc | ->]; [exact Hc|]. exfalso. revert Ec. unfold normpath.
    destruct (p ++ d ++ r) as [|a t] eqn:E; [destruct p, d; easy|].
    assert (A : a <> DOT).
    { destruct p as [|b p]; cbn in E.
      - destruct d as [|b d]; [easy|]. injection E as -> _. intros ->. apply Dd. now left.
      - injection E as -> _. intros ->. apply Dp. now left. }
    assert (Nr : starts_with ($"/") (a :: t) = false).
    { destruct (starts_with ($"/") (a :: t)) eqn:K; [|reflexivity]. apply starts_with_iff in K as [u K]. injection K as -> _.
      exfalso. apply N. now left. }
    rewrite Nr. cbn [app]. rewrite (split_on_nosep SLASH (a :: t) N). unfold norm_comps. cbn [fold_left]. unfold norm_step.
    assert (X : forall u, str_eqb (a :: t) (DOT :: u) = false).
    { intros u. apply str_eqb_neq. congruence. }
    change ($".") with (DOT :: []). change ($"..") with (DOT :: [DOT]). rewrite !X.
    change (str_eqb (a :: t) []) with false. cbn [orb negb rev app join_with]. rewrite (split_on_nosep SLASH (a :: t) N). congruence. }
  destruct (component_keys _ P) as (k & e & E & _ & _ & T).
  destruct (strip_extensions (length (p ++ d ++ r)) (p ++ d ++ r) []) as [c' e'] eqn:S.
  destruct (first_dot r) as (a & x & -> & Ha & Hx).
  assert (S' : strip_extensions (length (p ++ d ++ a ++ x)) ((p ++ d ++ a) ++ x) [] = (c', e')) by (rewrite <- !app_assoc; exact S).
  apply strip_stem in S' as (x' & -> & Hx').
  - destruct (parts_exist p) as [lp Hlp], (parts_exist (a ++ x')) as [lr Hlr].
    assert (Pp : plain p) by now apply plain_app in P.
    assert (Pr : plain (a ++ x')).
    { apply strip_prefix in S as [y S]. rewrite S in P. rewrite !plain_app in P. apply plain_app. tauto. }
    destruct (tokens_of _ _ Hlp Pp) as (kp & _ & Tp). destruct (tokens_of _ _ Hlr Pr) as (kr & _ & Tr).
    exists kp, kr, e. split.
    + intros lp' H'. apply parts_split in H', Hlp. now rewrite <- H', Hlp.
    + unfold prepare_sort_key. rewrite Ec. cbn [mapr]. rewrite E. cbn [bindr concat]. rewrite app_nil_r.
      do 3 f_equal. f_equal. eapply tokens_fun; [|apply tokens_app; [exact Tp|exact Tr]].
      apply (T _ _ eq_refl). rewrite <- !app_assoc. apply parts_app; auto.
      destruct a as [|b a]; [|exact Sr]. destruct x' as [|b x']; [exact I|]. cbn in Hx'. now subst b.
  - destruct p, d; easy.
  - rewrite !in_app_iff. tauto.
  - intros K. apply N. rewrite !in_app_iff in *. tauto.
  - exact Hx.
  - intros K. apply N. rewrite !in_app_iff in *. tauto.
Qed.

Lemma text_dotfree t s : t = TString \/ t = TPath -> ~ In SLASH s -> starts_with [DOT] s = false -> sort_key t (VStr s) = Ok (PStr (lower s)).
Proof.
  intros [-> | ->] N D; [reflexivity|]. cbn [sort_key]. do 2 f_equal.
  rewrite split_on_nosep by (intros K; exact (N (proj1 (lower_in SLASH s eq_refl) K))). cbn [map join_with].
  apply lstrip_p_id. destruct s as [|c s]; [exact I|]. cbn [lower map]. apply N.eqb_neq. intros K. symmetry in K.
  apply (proj1 (lower_c_eq c DOT (or_introl eq_refl))) in K. subst c. discriminate.
Qed.

Section Numbers.
  Context {A : Type} (get : A -> str * str -> res value) (f : field).
  Hypothesis V : f_modifier f = Some ($"v").
  Hypothesis T : f_type f = TString \/ f_type f = TPath.

  Lemma numbered_key a n p d r : get a (f_attribute f) = Ok (VStr n) -> numbered n p d r ->
    exists kp kr e, (forall lp, Parts (lower p) lp -> Tokens lp kp) /\
      render get [f] a = Ok (PList [PList (PList (kp ++ PInt (Z.of_N (number d)) :: kr) :: match e with [] => [] | _ => [PList (map PStr e)] end)]).
  Proof.
    intros G (-> & N & P & Dp & Lp & D & Fr). destruct (digits_d _ D) as [Nd Fd].
    assert (Ns : starts_with [DOT] (p ++ d ++ r) = false).
    { destruct (starts_with [DOT] (p ++ d ++ r)) eqn:K; [|reflexivity]. apply starts_with_iff in K as [u K]. exfalso.
      destruct p as [|c p]; [|injection K as -> _; apply Dp; now left]. destruct d as [|c d]; [easy|].
      injection K as -> _. discriminate. }
    destruct (number_key (lower p) d (lower r)) as (kp & kr & e & H1 & H2).
    - rewrite <- (lower_digits d Fd), <- !lower_app. now apply lower_plain.
    - rewrite <- (lower_digits d Fd), <- !lower_app. intros K. exact (N (proj1 (lower_in SLASH _ eq_refl) K)).
    - intros K. exact (Dp (proj1 (lower_in DOT _ eq_refl) K)).
    - exact D.
    - unfold no_digit_last in *. unfold lower. rewrite <- map_rev. destruct (rev p) as [|c t]; [exact I|]. cbn in *.
      rewrite <- is_d_iff in *. now rewrite lower_c_d.
    - apply stops_first in Fr. destruct r as [|c r]; [exact I|]. cbn in *. now rewrite lower_c_d.
    - exists kp, kr, e. split; [exact H1|]. unfold render. cbn [mapr]. unfold render_key. rewrite G, (text_dotfree _ _ T N Ns). cbn [bindr].
      replace (has_modifier f ($"v")) with true by (symmetry; now apply modifier_v).
      rewrite !lower_app, (lower_digits d Fd), H2. reflexivity.
  Qed.
  Lemma numbers_before a b n1 n2 p d1 r1 d2 r2 : get a (f_attribute f) = Ok (VStr n1) -> get b (f_attribute f) = Ok (VStr n2) ->
    numbered n1 p d1 r1 -> numbered n2 p d2 r2 -> (number d1 < number d2)%N ->
    exists k1 k2, render get [f] a = Ok k1 /\ render get [f] b = Ok k2 /\ Before k1 k2.
  Proof.
    intros G1 G2 N1 N2 L. destruct (numbered_key a _ _ _ _ G1 N1) as (kp & kr & e & H & ->), (numbered_key b _ _ _ _ G2 N2) as (kp' & kr' & e' & H' & ->).
    destruct (parts_exist (lower p)) as [lp Hlp]. rewrite <- (tokens_fun _ _ _ (H _ Hlp) (H' _ Hlp)).
    eexists _, _. split; [reflexivity|split; [reflexivity|]].
    apply (before_item []). apply (before_item []). apply before_item. constructor. lia.
  Qed.
  Lemma numbers_sorted a b n1 n2 p d1 r1 d2 r2 : get a (f_attribute f) = Ok (VStr n1) -> get b (f_attribute f) = Ok (VStr n2) ->
    numbered n1 p d1 r1 -> numbered n2 p d2 r2 -> (number d1 < number d2)%N ->
    finalize get (Some [f]) false [b; a] = Ok [a; b] /\ finalize get (Some [f]) true [a; b] = Ok [b; a].
  Proof.
    intros G1 G2 N1 N2 L. destruct (numbers_before a b _ _ _ _ _ _ _ G1 G2 N1 N2 L) as (k1 & k2 & E1 & E2 & B).
    assert (X : forall reverse l, (forall x, In x l -> x = a \/ x = b) -> exists out, finalize get (Some [f]) reverse l = Ok out).
    { intros reverse l Hl. apply names_sort. split.
      - intros x g Hx [<-|[]]. right. apply Hl in Hx as [-> | ->]; eexists; (split; [eassumption|]); destruct T as [-> | ->]; reflexivity.
      - intros x g Hx [<-|[]] _. split; [exact T|]. apply Hl in Hx as [-> | ->]; eexists; (split; [eassumption|]).
        + destruct N1 as (-> & ? & ? & _). auto.
        + destruct N2 as (-> & ? & ? & _). auto. }
    assert (Ne : forall k, render get [f] a = Ok k -> render get [f] b = Ok k -> False).
    { intros k K1 K2. rewrite E1 in K1. rewrite E2 in K2. assert (k1 = k2) as -> by congruence. now apply before_irrefl in B. }
    split.
    - destruct (X false [b; a]) as [out E]; [intros x [<-|[<-|[]]]; auto|]. rewrite E. f_equal. cbn [finalize] in E.
      destruct (list_sort_spec (render get [f]) _ _ _ E) as (k & K & P & S & _).
      apply Permutation_length_2_inv in P as [-> | ->]; [|reflexivity]. exfalso.
      apply StronglySorted_inv in S as [_ S]. inversion S as [|? ? [S'|S'] _]; subst.
      + rewrite (K a) in E1 by (right; now left). rewrite (K b) in E2 by now left.
        injection E1 as <-. injection E2 as <-. exact (before_asym _ _ B S').
      + apply (Ne (k a)); [apply K; right; now left|rewrite K by (now left); now rewrite S'].
    - destruct (X true [a; b]) as [out E]; [intros x [<-|[<-|[]]]; auto|]. rewrite E. f_equal. cbn [finalize] in E.
      destruct (list_sort_spec (render get [f]) _ _ _ E) as (k & K & P & S & _).
      apply Permutation_length_2_inv in P as [-> | ->]; [|reflexivity]. exfalso.
      apply StronglySorted_inv in S as [_ S]. inversion S as [|? ? [S'|S'] _]; subst.
      + rewrite (K a) in E1 by now left. rewrite (K b) in E2 by (right; now left).
        injection E1 as <-. injection E2 as <-. exact (before_asym _ _ B S').
      + apply (Ne (k a)); [apply K; now left|rewrite K by (right; now left); now rewrite S'].
  Qed.
End Numbers.
