(** The entries of a directory tree, and what a search finds among them. *)
From Coq Require Import List NArith ZArith Bool Lia.
From Verif Require Import Py WalkModel WalkSpec PathSpec EntrySpec.
From Verif Require Import PathModel PathProofs EntryModel EntryProofs TypeModel ArgumentsModel SearchModel SearchSpec.
Import ListNotations.
Local Open Scope nat_scope.
Notation node_entry := WalkModel.entry.

Definition dir_status (st : status) : bool := str_eqb (type_of_mode (st_mode st)) ($"directory").
Lemma dir_status_iff st : dir_status st = true <-> directory st.
Proof. unfold dir_status, directory. now rewrite str_eqb_eq, type_of_mode_spec. Qed.
Lemma file_rect' (P : file -> Prop) : (forall n st l, Forall P l -> P (File n st l)) -> forall f, P f.
Proof.
  intros H. fix IH 1. intros [n st l]. apply H. induction l as [|k l IHl]; constructor; [apply IH|exact IHl].
Qed.
Lemma valid_inv l : valid l -> NoDup (map f_name l) /\ Forall (fun f => name_ok (f_name f)) l /\ forall f, In f l -> valid (f_kids f).
Proof. now intros []. Qed.
Lemma relpath_snoc names n : join (walk_relpath names) n = walk_relpath (names ++ [n]).
Proof. unfold walk_relpath. now rewrite fold_left_app. Qed.

Section Scan.
  Variable sd : start.
  Hypothesis Hroot : root sd <> [].
  (** n is the node of f, in the directory given by names. *)
  Inductive Scanned : list str -> file -> node entry -> Prop :=
  | scanned names f e l : mk_entry sd (walk_relpath (names ++ [f_name f])) (f_status f) = Ok e ->
      (dir_status (f_status f) = true -> Forall2 (Scanned (names ++ [f_name f])) (f_kids f) l) ->
      (dir_status (f_status f) = false -> l = []) ->
      Scanned names f (Node e (dir_status (f_status f)) l).
  Lemma scanned_inv names f n : Scanned names f n -> exists e l, n = Node e (dir_status (f_status f)) l /\
    mk_entry sd (walk_relpath (names ++ [f_name f])) (f_status f) = Ok e /\
    if dir_status (f_status f) then Forall2 (Scanned (names ++ [f_name f])) (f_kids f) l else l = [].
  Proof. intros [names' f' e l E1 E2 E3]. exists e, l. split; [reflexivity|]. split; [exact E1|]. destruct (dir_status (f_status f')); auto. Qed.
  Lemma entry_ok names st : names <> [] -> Forall name_ok names -> exists e, mk_entry sd (walk_relpath names) st = Ok e.
  Proof. intros H1 H2. eexists. now apply mk_entry_ok. Qed.

  Lemma scan_kids (names : list str) l : (fix scan (l : list file) : res (list (node entry)) :=
       match l with
       | [] => Ok []
       | k :: l => do x <- scan_file sd (walk_relpath names) k; do r <- scan l; Ok (x :: r)
       end) l = scan_files sd (walk_relpath names) l.
  Proof. induction l as [|k l IH]; [reflexivity|]. cbn [scan_files]. now rewrite IH. Qed.
  Lemma scan_file_ok f : forall names, Forall name_ok names -> name_ok (f_name f) -> valid (f_kids f) ->
    exists n, scan_file sd (walk_relpath names) f = Ok n /\ Scanned names f n.
  Proof.
    induction f as [n st l IH] using file_rect'. intros names Hn Hf Hv. cbn [f_name f_kids] in *.
    assert (F : Forall name_ok (names ++ [n])) by (apply Forall_app; split; [exact Hn|now constructor]).
    destruct (entry_ok (names ++ [n]) st) as [e Ee]; [intros E; apply app_eq_nil in E as [_ E]; discriminate|exact F|].
    cbn [scan_file]. rewrite relpath_snoc, Ee. cbn [bindr]. fold (dir_status st).
    assert (S : exists k, (if dir_status st then Forall2 (Scanned (names ++ [n])) l k else k = []) /\
      (if dir_status st then scan_files sd (walk_relpath (names ++ [n])) l = Ok k else True)).
    { destruct (dir_status st) eqn:E; [|exists []; auto].
      destruct (valid_inv _ Hv) as (_ & V1 & V2). clear Hv. induction l as [|x l IHl].
      - exists []. split; [constructor|reflexivity].
      - apply Forall_inv in IH as Hx. apply Forall_inv in V1 as Hy.
        destruct (Hx (names ++ [n]) F Hy) as (y & Ey & Sy); [apply V2; now left|].
        destruct IHl as (k & Sk & Ek); [now apply Forall_inv_tail in IH|now apply Forall_inv_tail in V1|intros; apply V2; now right|].
        exists (y :: k). split; [now constructor|]. cbn [scan_files]. rewrite Ey. cbn [bindr]. rewrite Ek. reflexivity. }
    destruct S as (k & Sk & Ek). exists (Node e (dir_status st) k). split.
    - rewrite scan_kids. destruct (dir_status st); [now rewrite Ek|]. now subst k.
    - apply (scanned names (File n st l)); [exact Ee| |]; cbn [f_status]; intros E; rewrite E in Sk; exact Sk.
  Qed.
  Lemma scan_files_ok l names : valid l -> Forall name_ok names ->
    exists k, scan_files sd (walk_relpath names) l = Ok k /\ Forall2 (Scanned names) l k.
  Proof.
    intros Hv Hn. destruct (valid_inv _ Hv) as (_ & V1 & V2). clear Hv. induction l as [|x l IHl].
    - exists []. split; [reflexivity|constructor].
    - destruct (scan_file_ok x names Hn) as (y & Ey & Sy); [now apply Forall_inv in V1|apply V2; now left|].
      destruct IHl as (k & Ek & Sk); [now apply Forall_inv_tail in V1|intros; apply V2; now right|].
      exists (y :: k). split; [|now constructor]. cbn [scan_files]. rewrite Ey. cbn [bindr]. rewrite Ek. reflexivity.
  Qed.

  (** *** Places *)
  Lemma Forall2_in {A B} (P : A -> B -> Prop) l k y : Forall2 P l k -> In y k -> exists x, In x l /\ P x y.
  Proof.
    induction 1 as [|a b l k H F IH]; intros []; [subst; eauto using in_eq|].
    destruct IH as (x & Hx & Hp); [assumption|]. eauto using in_cons.
  Qed.
  Lemma Forall2_in_l {A B} (P : A -> B -> Prop) l k x : Forall2 P l k -> In x l -> exists y, In y k /\ P x y.
  Proof.
    induction 1 as [|a b l k H F IH]; intros []; [subst; eauto using in_eq|].
    destruct IH as (y & Hy & Hp); [assumption|]. eauto using in_cons.
  Qed.
  Lemma place_nonempty l names f : Place l names f -> names <> [].
  Proof. intros []; [discriminate|]. intros E. apply app_eq_nil in E as [_ E]. discriminate. Qed.
  Lemma place_last l names f : Place l names f -> exists init, names = init ++ [f_name f].
  Proof. intros []; [now exists []|eauto]. Qed.
  Lemma place_valid l names f : valid l -> Place l names f -> name_ok (f_name f) /\ valid (f_kids f) /\ Forall name_ok names.
  Proof.
    intros Hv H. induction H as [f Hf|names d f Hd IH D Hf].
    - destruct (valid_inv _ Hv) as (_ & V1 & V2). rewrite Forall_forall in V1. specialize (V1 f Hf).
      split; [exact V1|]. split; [now apply V2|now constructor].
    - destruct IH as (_ & V & F). destruct (valid_inv _ V) as (_ & V1 & V2). rewrite Forall_forall in V1. specialize (V1 f Hf).
      split; [exact V1|]. split; [now apply V2|]. apply Forall_app. split; [exact F|now constructor].
  Qed.
  Lemma NoDup_map_inj {A B} (f : A -> B) l x y : NoDup (map f l) -> In x l -> In y l -> f x = f y -> x = y.
  Proof.
    induction l as [|a l IH]; cbn [map]; intros H Hx Hy E; [destruct Hx|]. inversion H as [|? ? N D]; subst.
    destruct Hx as [<-|Hx], Hy as [<-|Hy]; auto.
    - exfalso. apply N. rewrite E. now apply in_map.
    - exfalso. apply N. rewrite <- E. now apply in_map.
  Qed.
  Lemma place_unique l names f : valid l -> Place l names f -> forall g, Place l names g -> f = g.
  Proof.
    intros Hv H. induction H as [f Hf|names d f Hd IH D Hf]; intros g Hg.
    - destruct (valid_inv _ Hv) as (V & _). inversion Hg as [? K E|? ? ? K ? ? E]; subst.
      + eapply NoDup_map_inj; eauto.
      + exfalso. change [f_name f] with ([] ++ [f_name f]) in E. apply app_inj_tail in E as [E _]. subst. now apply place_nonempty in K.
    - inversion Hg as [? K E|? d' ? K D' Hk E]; subst.
      + exfalso. change [f_name g] with ([] ++ [f_name g]) in E. apply app_inj_tail in E as [E _]. subst. now apply place_nonempty in Hd.
      + apply app_inj_tail in E as [-> E]. assert (d = d') by (apply IH; exact K). subst d'.
        destruct (place_valid _ _ _ Hv Hd) as (_ & V & _). destruct (valid_inv _ V) as (V1 & _).
        eapply NoDup_map_inj; eauto.
  Qed.
  Lemma place_snoc l names n f : Place l (names ++ [n]) f -> names <> [] ->
    exists d, Place l names d /\ directory (f_status d) /\ In f (f_kids d) /\ n = f_name f.
  Proof.
    intros H N. inversion H as [? K E|? d ? K D Hk E]; subst.
    - exfalso. change [f_name f] with ([] ++ [f_name f]) in E. apply app_inj_tail in E as [E _]. now destruct N.
    - apply app_inj_tail in E as [-> ->]. eauto.
  Qed.

  Variable excluded : entry -> res bool.
  Notation Below := (Below entry excluded).
  (** No entry on the way is excluded. *)
  Definition Clear (l : list file) (names : list str) : Prop :=
    forall k m g e, names = k ++ m -> k <> [] -> Place l k g -> mk_entry sd (walk_relpath k) (f_status g) = Ok e ->
      excluded e = Ok false.
  Lemma clear_snoc l names f e : valid l -> Place l (names ++ [f_name f]) f ->
    mk_entry sd (walk_relpath (names ++ [f_name f])) (f_status f) = Ok e ->
    (names = [] \/ Clear l names) -> excluded e = Ok false -> Clear l (names ++ [f_name f]).
  Proof.
    intros Hv Hp He Hc Hx k m g e' E N Hk Hg.
    destruct m as [|y m _] using rev_ind.
    - rewrite app_nil_r in E. subst k. assert (f = g) by (eapply place_unique; eauto). subst g. congruence.
    - rewrite app_assoc in E. apply app_inj_tail in E as [E _].
      destruct Hc as [Hc|Hc].
      + subst names. symmetry in E. apply app_eq_nil in E as [E _]. now destruct N.
      + eapply Hc; eauto.
  Qed.
  Lemma below_place l d : valid l -> Forall2 (Scanned []) l (kids d) ->
    forall n, Below d n -> exists names f, Place l (names ++ [f_name f]) f /\ Scanned names f n /\ Clear l (names ++ [f_name f]).
  Proof.
    intros Hv Hs n H. induction H as [n Hn Hx|m n Hm IH D Hn Hx].
    - destruct (Forall2_in _ _ _ _ Hs Hn) as (f & Hf & Sf). exists [], f.
      assert (P : Place l ([] ++ [f_name f]) f) by now constructor.
      split; [exact P|]. split; [exact Sf|]. apply scanned_inv in Sf as H_Sf; destruct H_Sf as (e & k & -> & Ee & Kk). cbn [node_entry] in Hx.
      eapply clear_snoc; eauto.
    - destruct IH as (names & g & Pg & Sg & Cg). apply scanned_inv in Sg as H_Sg; destruct H_Sg as (e & k & -> & Ee & Kk). cbn [is_dir] in D. cbn [kids] in Hn.
      rewrite D in Kk. destruct (Forall2_in _ _ _ _ Kk Hn) as (f & Hf & Sf).
      exists (names ++ [f_name g]), f.
      assert (P : Place l ((names ++ [f_name g]) ++ [f_name f]) f).
      { apply (place_below l _ g); [exact Pg|now apply dir_status_iff|exact Hf]. }
      split; [exact P|]. split; [exact Sf|]. apply scanned_inv in Sf as H_Sf; destruct H_Sf as (e' & k' & -> & Ee' & Kk'). cbn [node_entry] in Hx.
      eapply clear_snoc; eauto.
  Qed.
  Lemma place_to_below l d : valid l -> Forall2 (Scanned []) l (kids d) ->
    forall names f, Place l names f -> Clear l names -> exists n init, names = init ++ [f_name f] /\ Below d n /\ Scanned init f n.
  Proof.
    intros Hv Hs names f H. induction H as [f Hf|names g f Hg IH D Hf]; intros C.
    - destruct (Forall2_in_l _ _ _ _ Hs Hf) as (n & Hn & Sn). exists n, []. split; [reflexivity|]. split; [|exact Sn].
      apply below_kid; [exact Hn|]. apply scanned_inv in Sn as H_Sn; destruct H_Sn as (e & k & -> & Ee & Kk). cbn [node_entry].
      apply (C [f_name f] [] f e); [reflexivity|discriminate|now constructor|exact Ee].
    - destruct IH as (m & init & -> & Bm & Sm).
      { intros k k' g' e E N Pg Eg. apply (C k (k' ++ [f_name f]) g' e); auto. rewrite E. now rewrite <- app_assoc. }
      apply scanned_inv in Sm as H_Sm; destruct H_Sm as (e & k & -> & Ee & Kk). assert (Dm := proj2 (dir_status_iff _) D). rewrite Dm in *.
      destruct (Forall2_in_l _ _ _ _ Kk Hf) as (n & Hn & Sn). exists n, (init ++ [f_name g]). split; [reflexivity|]. split; [|exact Sn].
      apply (below_deep _ _ d (Node e true k)); [exact Bm|reflexivity|exact Hn|].
      apply scanned_inv in Sn as H_Sn; destruct H_Sn as (e' & k' & -> & Ee' & Kk'). cbn [node_entry].
      apply (C ((init ++ [f_name g]) ++ [f_name f]) [] f e'); [now rewrite app_nil_r|intros E; apply app_eq_nil in E as [_ E]; discriminate| |exact Ee'].
      apply (place_below l _ g); [exact Hg|exact D|exact Hf].
  Qed.

  (** *** No entry twice *)
  Lemma entry_fields names st e : names <> [] -> Forall name_ok names -> mk_entry sd (walk_relpath names) st = Ok e ->
    e_start e = sd /\ e_relpath e = join_with [SLASH] names /\ e_depth e = length names - 1 /\ (e_hide e = true <-> dotted (last names [])) /\
    e_status e = st.
  Proof.
    intros N F E. rewrite mk_entry_ok in E by assumption. injection E as <-. cbn.
    split; [reflexivity|]. split; [reflexivity|]. split; [|split; [|reflexivity]].
    - unfold e_depth. cbn. now apply count_slash_join.
    - apply dotted_iff.
  Qed.
  Definition inner (n : node entry) : list entry := node_entry n :: below_all n.
  Lemma below_all_kids e l : below_all (Node e true l) = flat_map inner l.
  Proof.
    cbn [below_all]. induction l as [|k l IH]; [reflexivity|]. cbn [flat_map]. unfold inner at 1. cbn [app]. now rewrite IH.
  Qed.
  (** The entries of a node come from places below it. *)
  Lemma inner_names f : forall names n, Scanned names f n -> Forall name_ok names -> name_ok (f_name f) -> valid (f_kids f) ->
    forall e, In e (inner n) -> exists rest, e_start e = sd /\ Forall name_ok rest /\ e_relpath e = join_with [SLASH] (names ++ f_name f :: rest) /\
      (rest = [] -> e = node_entry n).
  Proof.
    induction f as [fn st l IH] using file_rect'. intros names n S Fn Hf Hv e He.
    assert (F : Forall name_ok (names ++ [fn])) by (apply Forall_app; split; [exact Fn|now constructor]).
    apply scanned_inv in S as H_S; destruct H_S as (e0 & k & -> & Ee & Kk). cbn [f_name f_status f_kids] in *.
    assert (N : names ++ [fn] <> []) by (intros E; apply app_eq_nil in E as [_ E]; discriminate).
    destruct He as [<-|He].
    - exists []. destruct (entry_fields _ _ _ N F Ee) as (A & B & _). cbn [node_entry]. auto.
    - destruct (dir_status st); [|destruct He]. rewrite below_all_kids in He. apply in_flat_map in He as (x & Hx & He).
      destruct (Forall2_in _ _ _ _ Kk Hx) as (g & Hg & Sg). rewrite Forall_forall in IH.
      destruct (valid_inv _ Hv) as (_ & V1 & V2). rewrite Forall_forall in V1.
      destruct (IH g Hg (names ++ [fn]) x Sg F (V1 g Hg) (V2 g Hg) e He) as (rest & A & B & C & _).
      exists (f_name g :: rest). split; [exact A|]. split; [constructor; [apply V1, Hg|exact B]|]. split; [|discriminate].
      rewrite C, <- app_assoc. reflexivity.
  Qed.
  Lemma join_inj l k : l <> [] -> k <> [] -> Forall name_ok l -> Forall name_ok k -> join_with [SLASH] l = join_with [SLASH] k -> l = k.
  Proof. intros N1 N2 F1 F2 E. rewrite <- (names_split l), <- (names_split k) by assumption. now rewrite E. Qed.
  Lemma NoDup_app {A} (l k : list A) : NoDup l -> NoDup k -> (forall x, In x l -> In x k -> False) -> NoDup (l ++ k).
  Proof.
    induction 1 as [|x l H D IH]; intros K N; [exact K|]. cbn [app]. constructor.
    - rewrite in_app_iff. intros [Hx|Hx]; [auto|]. eapply N; [now left|exact Hx].
    - apply IH; [exact K|]. intros y Hy. apply N. now right.
  Qed.
  Lemma inner_kids l : valid l -> forall names k, Forall name_ok names -> Forall2 (Scanned names) l k ->
    Forall (fun f => forall names n, Scanned names f n -> Forall name_ok names -> name_ok (f_name f) -> valid (f_kids f) -> NoDup (inner n)) l ->
    NoDup (flat_map inner k).
  Proof.
    intros Hv names k Fn S H. destruct (valid_inv _ Hv) as (V0 & V1 & V2). clear Hv.
    induction S as [|f n l k Sf S IH]; cbn [flat_map]; [constructor|].
    inversion V0 as [|? ? N0 D0]; subst. apply Forall_inv in V1 as Hf. apply Forall_inv in H as H1.
    apply NoDup_app.
    - apply (H1 names); auto. apply V2. now left.
    - apply IH; [now apply Forall_inv_tail in H|exact D0|now apply Forall_inv_tail in V1|intros; apply V2; now right].
    - intros e He He'. apply in_flat_map in He' as (x & Hx & He'). destruct (Forall2_in _ _ _ _ S Hx) as (g & Hg & Sg).
      assert (Og : name_ok (f_name g)) by (apply Forall_inv_tail in V1; rewrite Forall_forall in V1; now apply V1).
      destruct (inner_names f names n Sf Fn Hf (V2 f (or_introl eq_refl)) e He) as (r1 & _ & F1 & E1 & _).
      destruct (inner_names g names x Sg Fn Og (V2 g (or_intror Hg)) e He') as (r2 & _ & F2 & E2 & _).
      rewrite E1 in E2. apply join_inj in E2.
      + apply app_inv_head in E2. injection E2 as E2 _. apply N0. rewrite E2. now apply in_map.
      + intros E. apply app_eq_nil in E as [_ E]. discriminate.
      + intros E. apply app_eq_nil in E as [_ E]. discriminate.
      + apply Forall_app. split; [exact Fn|now constructor].
      + apply Forall_app. split; [exact Fn|now constructor].
  Qed.
  Lemma inner_nodup f : forall names n, Scanned names f n -> Forall name_ok names -> name_ok (f_name f) -> valid (f_kids f) -> NoDup (inner n).
  Proof.
    induction f as [fn st l IH] using file_rect'. intros names n S Fn Hf Hv.
    assert (F : Forall name_ok (names ++ [fn])) by (apply Forall_app; split; [exact Fn|now constructor]).
    apply scanned_inv in S as H_S; destruct H_S as (e0 & k & -> & Ee & Kk). cbn [f_name f_status f_kids] in *. unfold inner.
    destruct (dir_status st) eqn:D; [|cbn; constructor; [intros []|constructor]].
    rewrite below_all_kids. cbn [node_entry]. constructor.
    - intros Hin. apply in_flat_map in Hin as (x & Hx & He).
      destruct (Forall2_in _ _ _ _ Kk Hx) as (g & Hg & Sg). destruct (valid_inv _ Hv) as (_ & V1 & V2). rewrite Forall_forall in V1.
      destruct (inner_names g _ _ Sg F (V1 g Hg) (V2 g Hg) e0 He) as (rest & _ & B & C & _).
      assert (N : names ++ [fn] <> []) by (intros E; apply app_eq_nil in E as [_ E]; discriminate).
      destruct (entry_fields _ _ _ N F Ee) as (_ & E & _). rewrite E in C. apply join_inj in C.
      + apply (f_equal (@length str)) in C. rewrite (app_length (names ++ [fn])) in C. cbn [length] in C. lia.
      + exact N.
      + intros K. apply app_eq_nil in K as [_ K]. discriminate.
      + exact F.
      + apply Forall_app. split; [exact F|constructor; [apply V1, Hg|exact B]].
    - eapply inner_kids; eauto.
  Qed.
  Lemma tree_nodup l k : valid l -> Forall2 (Scanned []) l k -> NoDup (flat_map inner k) /\ forall e, In e (flat_map inner k) -> e_start e = sd.
  Proof.
    intros Hv S. split.
    - apply (inner_kids l Hv [] k); [constructor|exact S|]. apply Forall_forall. intros f _. apply inner_nodup.
    - intros e He. apply in_flat_map in He as (x & Hx & He). destruct (Forall2_in _ _ _ _ S Hx) as (g & Hg & Sg).
      destruct (valid_inv _ Hv) as (_ & V1 & V2). rewrite Forall_forall in V1.
      destruct (inner_names g [] x Sg ltac:(constructor) (V1 g Hg) (V2 g Hg) e He) as (rest & A & _). exact A.
  Qed.
End Scan.
