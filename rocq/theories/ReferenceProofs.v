From Coq Require Import List NArith ZArith Bool Lia.
From Verif Require Import Py OsPath PathModel PathSpec PathProofs EntryModel EntrySpec EntryProofs ArgumentsSpec DirectoryProofs IgnoreTreeProofs.
From Verif Require Import SearchModel SearchTreeProofs ReferenceModel ReferenceSpec.
Import ListNotations.

Definition clean (l : list str) : Prop := Forall plain l /\ Forall (fun c => ~ In 47%N c) l.
Lemma clean_name l : clean l -> Forall name_ok l.
Proof.
  intros [P N]. rewrite Forall_forall in *. intros c H. split; [apply (P c H)|apply (N c H)].
Qed.
Lemma clean_app a b : clean (a ++ b) <-> clean a /\ clean b.
Proof. unfold clean. rewrite !Forall_app. tauto. Qed.
Lemma place_clean cwd p : clean (place cwd p).
Proof. split; apply place_plain. Qed.
Lemma go_clean l at_ : Forall plain l -> go at_ l = at_ ++ l.
Proof.
  intros P. revert at_; induction P as [|c l (H1 & H2 & H3) _ IH]; intros at_; cbn [go]; [now rewrite app_nil_r|].
  apply str_eqb_neq in H1, H2, H3.
  replace (str_eqb c [] || str_eqb c ($".")) with false by (symmetry; apply orb_false_iff; split; assumption).
  replace (str_eqb c ($"..")) with false by (symmetry; assumption).
  rewrite IH, <- app_assoc. reflexivity.
Qed.
Lemma split_clean l : clean l -> l <> [] -> split_on 47%N (join_with ($"/") l) = l.
Proof. intros [_ N] H. apply (split_join SLASH); [exact H|now apply Forall_forall]. Qed.
Lemma go_join_names l at_ : clean l -> go at_ (split_on 47%N (join_with ($"/") l)) = at_ ++ l.
Proof.
  intros C. destruct l as [|c l]; [cbn; now rewrite app_nil_r|].
  rewrite split_clean; [|exact C|discriminate]. apply go_clean, C.
Qed.
Lemma join_head l : clean l -> absolute (join_with ($"/") l) = false.
Proof.
  intros [P N]. destruct l as [|c l]; [reflexivity|]. inversion P as [|? ? (H & _) _]; inversion N as [|? ? H' _]; subst.
  destruct c as [|x c]; [contradiction|].
  assert (X : x <> 47%N) by (intros ->; apply H'; now left).
  destruct l; cbn; now apply N.eqb_neq.
Qed.
Lemma join_names_app a b : a <> [] -> b <> [] -> join_with ($"/") (a ++ b) = join_with ($"/") a ++ 47%N :: join_with ($"/") b.
Proof. intros A B. exact (join_with_app a b A B). Qed.

(** ** Joining *)
Lemma place_join cwd a b : a <> [] -> place cwd (join a b) = go (place cwd a) (split_on 47%N b).
Proof.
  intros A. destruct a as [|x a]; [contradiction|]. destruct b as [|y b].
  { cbn [join]. cbn. reflexivity. }
  unfold join. destruct (str_eqb (x :: a) [SLASH]) eqn:E.
  - apply str_eqb_eq in E. injection E as -> ->. unfold place. cbn [app absolute]. change SLASH with 47%N.
    rewrite N.eqb_refl. change (47%N :: y :: b) with ([] ++ 47%N :: y :: b). rewrite split_on_app_any. reflexivity.
  - unfold place. change SLASH with 47%N. rewrite split_on_app_any. cbn [app absolute].
    destruct (N.eqb x 47); rewrite !go_app; reflexivity.
Qed.
Lemma place_split cwd p d r : split p = (d, r) -> d <> [] -> place cwd p = place cwd (join d r).
Proof.
  intros E D. rewrite place_join by exact D. destruct (last_occ SLASH p) as [H|(a & b & -> & H)].
  - rewrite split_noslash in E by exact H. injection E as <- <-. contradiction.
  - rewrite split_slash in E by exact H. destruct a as [|x a].
    + injection E as <- <-. unfold place at 1. cbn [app absolute]. change SLASH with 47%N. rewrite N.eqb_refl.
      change (47%N :: b) with ([] ++ 47%N :: b). rewrite split_on_app_any, go_app. reflexivity.
    + injection E as <- <-. unfold place. change SLASH with 47%N. rewrite split_on_app_any. cbn [app absolute].
      destruct (N.eqb x 47); rewrite !go_app; reflexivity.
Qed.
Lemma place_abspath cwd p : absolute cwd = true -> place cwd (abspath cwd p) = place cwd p.
Proof.
  intros A. destruct (abspath_place cwd p A) as (sl & S & ->).
  assert (E : go [] (split_on 47%N (join_with ($"/") (place cwd p))) = place cwd p)
    by (apply (go_join_names (place cwd p) []), place_clean).
  destruct S as [->|[-> _]]; unfold place at 1; cbn [absolute app];
    [change ($"/" ++ join_with ($"/") (place cwd p)) with ([] ++ 47%N :: join_with ($"/") (place cwd p))
    |change ($"//" ++ join_with ($"/") (place cwd p)) with ([47%N] ++ 47%N :: join_with ($"/") (place cwd p))];
    rewrite split_on_app_any, go_app; exact E.
Qed.
Lemma place_dot cwd : place cwd ($".") = place cwd [].
Proof. reflexivity. Qed.

(** ** Prefixes *)
Lemma clean_prefix l k rest : clean l -> clean k -> k <> [] -> join_with ($"/") l = join_with ($"/") k ++ 47%N :: rest ->
  exists names, clean names /\ names <> [] /\ rest = join_with ($"/") names /\ l = k ++ names.
Proof.
  intros L K N E. destruct l as [|c l].
  { symmetry in E. apply app_eq_nil in E as [_ E]. discriminate. }
  apply (f_equal (split_on 47%N)) in E. rewrite split_on_app_any in E.
  rewrite !split_clean in E by (assumption || discriminate).
  exists (split_on 47%N rest). rewrite E in L. apply clean_app in L as [_ L].
  split; [exact L|]. split; [apply split_on_nonnil|]. split; [|exact E].
  symmetry. exact (join_split SLASH rest).
Qed.
Lemma abspath_prefix cwd d p : absolute cwd = true -> starts_with (abspath cwd d ++ [SLASH]) (abspath cwd p) = true ->
  exists names, clean names /\ skipn (length (abspath cwd d ++ [SLASH])) (abspath cwd p) = join_with ($"/") names /\
    place cwd p = place cwd d ++ names.
Proof.
  intros A H. apply starts_with_iff in H as [rest E]. rewrite E.
  rewrite skipn_app, skipn_all, Nat.sub_diag. cbn [app skipn].
  destruct (abspath_place cwd d A) as (sd & Sd & Ed). destruct (abspath_place cwd p A) as (sp & Sp & Ep).
  rewrite Ed, Ep in E. pose proof (place_clean cwd d) as Cd. pose proof (place_clean cwd p) as Cp.
  pose proof (join_head _ Cp) as Hp. pose proof (join_head _ Cd) as Hd.
  rewrite <- !app_assoc in E. change ([SLASH] ++ rest) with (47%N :: rest) in E.
  assert (Dd : place cwd d = [] \/ place cwd d <> []) by (destruct (place cwd d); [now left|right; discriminate]).
  destruct Dd as [D|D].
  - rewrite D in *. change (join_with ($"/") []) with (@nil N) in *.
    exists (place cwd p). split; [exact Cp|]. split; [|reflexivity].
    remember (join_with ($"/") (place cwd p)) as jp eqn:J. clear J.
    destruct Sd as [->|[-> _]], Sp as [->|[-> _]]; cbn in E.
    + injection E as E. rewrite E in Hp. discriminate.
    + injection E as E. now symmetry.
    + injection E as E. rewrite E in Hp. discriminate.
    + injection E as E. rewrite E in Hp. discriminate.
  - assert (join_with ($"/") (place cwd p) = join_with ($"/") (place cwd d) ++ 47%N :: rest).
    { assert (Nd : exists x t, join_with ($"/") (place cwd d) = x :: t).
      { destruct (join_with ($"/") (place cwd d)) eqn:X; [|eauto]. exfalso.
        revert X. apply (join_with_nonnil (place cwd d)); [exact D|]. now apply clean_name. }
      destruct Nd as (x & t & X). rewrite X in *.
      remember (join_with ($"/") (place cwd p)) as jp eqn:J. clear J.
      destruct Sd as [->|[-> _]], Sp as [->|[-> _]]; cbn in E.
      - injection E as E. exact E.
      - injection E as E1 E. subst x. discriminate.
      - injection E as E. rewrite E in Hp. discriminate.
      - injection E as E. exact E. }
    destruct (clean_prefix _ _ _ Cp Cd D H) as (names & Cn & _ & R & P). eauto.
Qed.

Section Reference.
  Variable cwd : str.
  Variable stat : str -> option status.
  Hypothesis at_root : absolute cwd = true.
  Notation as_reference := (as_reference cwd stat).

  Lemma found p dirs d rest : find_directory cwd (abspath cwd p) dirs = Some (d, rest) ->
    In d dirs /\ exists names, clean names /\ rest = join_with ($"/") names /\ place cwd p = place cwd d ++ names.
  Proof.
    induction dirs as [|x dirs IH]; cbn [find_directory]; [discriminate|].
    destruct (starts_with (abspath cwd x ++ [SLASH]) (abspath cwd p)) eqn:E.
    - intros H. injection H as <- <-. split; [now left|].
      destruct (abspath_prefix cwd x p at_root E) as (names & C & R & P). eauto.
    - intros H. destruct (IH H) as [I J]. split; [now right|exact J].
  Qed.
  Lemma mk_entry_paths sd rel st e : mk_entry sd rel st = Ok e ->
    e_path e = (if negb (str_eqb (root sd) [DOT]) then join (root sd) rel else rel) /\
    e_abspath e = join (absroot sd) rel /\ e_status e = st /\ e_start e = sd /\ e_relpath e = rel.
  Proof.
    unfold mk_entry. destruct (split _) as [d n]. destruct n; [discriminate|]. intros H. injection H as <-. repeat split.
  Qed.
  Lemma abspath_nonempty p : abspath cwd p <> [].
  Proof. destruct (abspath_place cwd p at_root) as (sl & [->|[-> _]] & ->); discriminate. Qed.
  Lemma place_cwd : place cwd ($".") = place cwd [].
  Proof. reflexivity. Qed.

  Lemma reference_names dirs p e : stat [] = None -> as_reference dirs p = Ok e ->
    place cwd (e_path e) = place cwd p /\ place cwd (e_abspath e) = place cwd p /\ stat p = Some (e_status e).
  Proof.
    intros S0. unfold ReferenceModel.as_reference.
    destruct (match find_directory cwd (abspath cwd p) dirs with Some x => x | None => split p end) as [d rel] eqn:E.
    unfold new_start. destruct (stat d) as [std|] eqn:Sd; [|discriminate]. cbn [bindr].
    destruct (stat p) as [st|] eqn:Sp; [|discriminate]. intros H.
    assert (D : d <> []) by congruence.
    apply mk_entry_paths in H as (-> & -> & -> & _ & _). cbn [root absroot].
    rewrite !place_join by (exact D || apply abspath_nonempty). rewrite place_abspath by exact at_root.
    assert (Go : go (place cwd d) (split_on 47%N rel) = place cwd p /\ absolute rel = false).
    { destruct (find_directory cwd (abspath cwd p) dirs) as [[d' rest]|] eqn:F.
      - injection E as -> ->. apply found in F as (_ & names & C & -> & P).
        rewrite go_join_names by exact C. split; [now symmetry|now apply join_head].
      - rewrite (place_split cwd p d rel E D), place_join by exact D. split; [reflexivity|].
        destruct (last_occ SLASH p) as [N|(a & b & -> & N)].
        + rewrite split_noslash in E by exact N. congruence.
        + rewrite split_slash in E by exact N. assert (rel = b) by (destruct a; congruence). subst b.
          destruct rel as [|x r]; [reflexivity|]. cbn. apply N.eqb_neq. intros ->. apply N. now left. }
    destruct Go as [Go Rel]. split; [|split; [exact Go|reflexivity]].
    destruct (str_eqb d [DOT]) eqn:Dot; cbn [negb]; [|now rewrite place_join].
    apply str_eqb_eq in Dot. rewrite Dot in Go. unfold place at 1. rewrite Rel.
    rewrite <- Go. reflexivity.
  Qed.

  Lemma abspath_single p : ~ two_slashes cwd -> ~ two_slashes p -> abspath cwd p = ($"/") ++ join_with ($"/") (place cwd p).
  Proof.
    intros C P. destruct (abspath_place cwd p at_root) as (sl & [->|[-> T]] & E); [exact E|].
    exfalso. now apply (whole_two cwd p).
  Qed.
  Lemma not_found p dirs : (forall d names, In d dirs -> ~ leads cwd d names p) -> ~ two_slashes cwd -> ~ two_slashes p ->
    find_directory cwd (abspath cwd p) dirs = None.
  Proof.
    intros H C P. induction dirs as [|d dirs IH]; [reflexivity|]. cbn [find_directory].
    destruct (starts_with (abspath cwd d ++ [SLASH]) (abspath cwd p)) eqn:E.
    - exfalso. pose proof E as E2. destruct (abspath_prefix cwd d p at_root E) as (names & Cn & R & Pl).
      apply (H d names (or_introl eq_refl)). split; [|exact Pl]. intros ->. rewrite app_nil_r in Pl.
      apply starts_with_iff in E2 as [t E2]. rewrite (abspath_single p C P), Pl in E2.
      destruct (abspath_place cwd d at_root) as (sl & S & Ed). rewrite Ed in E2.
      apply (f_equal (@length N)) in E2. rewrite !app_length in E2.
      destruct S as [->|[-> _]]; cbn [length] in E2; change (length ($"/")) with 1%nat in E2; try change (length ($"//")) with 2%nat in E2; lia.
    - apply IH. intros d' names I. apply H. now right.
  Qed.
  Lemma find_first p dirs d names : ~ two_slashes cwd -> ~ two_slashes p -> ~ two_slashes d -> place cwd d <> [] ->
    first_above cwd dirs d names p ->
    find_directory cwd (abspath cwd p) dirs = Some (d, walk_relpath names).
  Proof.
    intros C P Dd R (before & after & -> & (Nn & Pl) & Nb).
    assert (Cn : clean names) by (pose proof (place_clean cwd p) as X; rewrite Pl in X; apply clean_app in X; tauto).
    induction before as [|b before IH]; cbn [app find_directory].
    - rewrite (abspath_single p C P), (abspath_single d C Dd), Pl, join_names_app by assumption.
      assert (E : ($"/") ++ join_with ($"/") (place cwd d) ++ 47%N :: join_with ($"/") names =
                  ((($"/") ++ join_with ($"/") (place cwd d)) ++ [SLASH]) ++ join_with ($"/") names)
        by (rewrite <- !app_assoc; reflexivity).
      rewrite E. clear E.
      replace (starts_with _ _) with true by (symmetry; apply starts_with_iff; eauto).
      rewrite skipn_app, skipn_all, Nat.sub_diag. cbn [app skipn].
      rewrite walk_relpath_names; [reflexivity|exact Nn|now apply clean_name].
    - assert (F : find_directory cwd (abspath cwd p) [b] = None).
      { apply not_found; auto. intros d' n [<-|[]]. apply Nb. now left. }
      cbn [find_directory] in F. destruct (starts_with (abspath cwd b ++ [SLASH]) (abspath cwd p)); [discriminate|].
      apply IH. intros d' n I. apply Nb. now right.
  Qed.
  Lemma reference_walk dirs p d names sd st : ~ two_slashes cwd -> ~ two_slashes p -> ~ two_slashes d -> place cwd d <> [] ->
    first_above cwd dirs d names p -> stat d = Some sd -> stat p = Some st ->
    as_reference dirs p = mk_entry (Start d (abspath cwd d) (st_dev sd)) (walk_relpath names) st /\
    exists e, as_reference dirs p = Ok e.
  Proof.
    intros C P Dd R F Sd Sp. unfold ReferenceModel.as_reference, new_start. rewrite (find_first p dirs d names) by assumption.
    rewrite Sd. cbn [bindr]. rewrite Sp. split; [reflexivity|].
    destruct F as (before & after & _ & (Nn & Pl) & _).
    assert (Cn : clean names) by (pose proof (place_clean cwd p) as X; rewrite Pl in X; apply clean_app in X; tauto).
    assert (Dn : d <> [] \/ d = []) by (destruct d; [now right|left; discriminate]).
    assert (Nk : Forall name_ok names) by now apply clean_name.
    destruct Dn as [Dn| ->].
    - rewrite mk_entry_ok by assumption. eauto.
    - unfold mk_entry. cbn [root absroot]. change (negb (str_eqb [] [DOT])) with true. cbn iota. cbn [join].
      rewrite walk_relpath_names by assumption.
      destruct (exists_last Nn) as (init & x & ->). apply Forall_app in Nk as [Ni Nx]. inversion Nx as [|? ? [X1 X2] _]; subst.
      destruct init as [|i init].
      + cbn [app join_with]. rewrite split_noslash by exact X2. destruct x; [contradiction|]. eauto.
      + rewrite join_with_snoc by discriminate. rewrite split_slash by exact X2.
        destruct (join_with [SLASH] (i :: init)); destruct x; try contradiction; eauto.
  Qed.
  (** Files outside of the search directories *)
  Lemma reference_outside dirs p d n sd st : ~ two_slashes cwd -> ~ two_slashes p ->
    (forall d' names, In d' dirs -> ~ leads cwd d' names p) -> d <> [] -> inside d n p -> name_ok n ->
    stat d = Some sd -> stat p = Some st ->
    exists e, as_reference dirs p = Ok e /\ e_depth e = 0%nat /\ e_name e = n /\
      e_samedev e = Z.eqb (st_dev st) (st_dev sd) /\ root (e_start e) = d.
  Proof.
    intros C P H Dn I N Sd Sp. unfold ReferenceModel.as_reference, new_start. rewrite (not_found p dirs H C P).
    rewrite (split_inside d n p I N). rewrite Sd. cbn [bindr]. rewrite Sp.
    pose proof (mk_entry_ok (Start d (abspath cwd d) (st_dev sd)) [n] st Dn) as M.
    change (walk_relpath [n]) with (join [] n) in M. cbn [join] in M.
    rewrite M; [|discriminate|now constructor].
    eexists. split; [reflexivity|]. cbn [e_depth e_relpath e_name e_samedev e_status e_start root join_with last].
    split; [|split; [reflexivity|split; reflexivity]].
    unfold e_depth. cbn [e_relpath]. rewrite count_slash_noslash by apply N. reflexivity.
  Qed.
  Lemma reference_bare dirs p : stat [] = None -> ~ two_slashes cwd -> ~ In SLASH p ->
    (forall d' names, In d' dirs -> ~ leads cwd d' names p) -> as_reference dirs p = Err OSErr.
  Proof.
    intros S0 C N H. unfold ReferenceModel.as_reference, new_start. rewrite (not_found p dirs H C).
    - rewrite split_noslash by exact N. now rewrite S0.
    - intros (r & -> & _). apply N. now left.
  Qed.
End Reference.
