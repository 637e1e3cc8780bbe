(** What the outcome of a test depends on. *)
From Coq Require Import List NArith ZArith Bool Lia.
From Verif Require Import Py Re GlobModel TypeModel RegistryModel ExprModel TestModel.
Import ListNotations.
Local Open Scope nat_scope.

Definition inner_slash (s : str) : Prop := exists x y, s = x ++ SLASH :: y /\ y <> [].
Lemma index_inner s : inner_slash s -> exists i, index_c SLASH s = Some i /\ i < length s - 1.
Proof.
  intros (x & y & -> & H). induction x as [|c x IH]; cbn [app index_c].
  - rewrite N.eqb_refl. exists 0. split; [reflexivity|]. destruct y; [now elim H|]. cbn. lia.
  - destruct (N.eqb c SLASH).
    + exists 0. split; [reflexivity|]. cbn [length]. rewrite app_length. cbn. lia.
    + destruct IH as (i & -> & L). exists (S i). split; [reflexivity|]. cbn [length]. lia.
Qed.
Lemma inner_tl c s : c <> SLASH -> inner_slash (c :: s) -> inner_slash s.
Proof. intros N (x & y & E & H). destruct x as [|d x]; injection E as E1 E2; [now elim N|]. exists x, y. auto. Qed.
Lemma starts_cons c p s : starts_with (c :: p) s = true -> exists t, s = c :: t.
Proof.
  destruct s as [|d s]; cbn; [discriminate|]. intros H. destruct (N.eqb_spec c d) as [->|]; [eauto|]. discriminate H.
Qed.
Lemma inner_strip lit c p s : lit = c :: p -> c <> SLASH -> inner_slash s -> inner_slash (if starts_with lit s then tl s else s).
Proof.
  intros -> N H. destruct (starts_with (c :: p) s) eqn:E; [|exact H]. apply starts_cons in E as [t ->]. cbn [tl]. exact (inner_tl c t N H).
Qed.
Lemma inner_anchored s : inner_slash s -> g_anchored (translate s true) = true.
Proof.
  intros H. unfold translate.
  assert (H1 := inner_strip ($"\#") 92%N ($"#") s eq_refl ltac:(discriminate) H). clear H.
  set (s1 := if starts_with ($"\#") s then tl s else s) . change (inner_slash s1) in H1. clearbody s1. clear s. cbv zeta.
  assert (H2 := inner_strip ($"!") 33%N [] s1 eq_refl ltac:(discriminate) H1). clear H1.
  destruct (starts_with ($"!") s1) eqn:E; cbv beta iota.
  - assert (H3 := inner_strip ($"\!") 92%N ($"!") _ eq_refl ltac:(discriminate) H2).
    match goal with |- context [index_c SLASH ?x] => set (p := x) end. change (inner_slash p) in H3. clearbody p.
    destruct (index_inner _ H3) as (i & -> & L). apply Nat.ltb_lt in L. rewrite L. destruct (ends_with _ _); reflexivity.
  - assert (H3 := inner_strip ($"\!") 92%N ($"!") _ eq_refl ltac:(discriminate) H2).
    match goal with |- context [index_c SLASH ?x] => set (p := x) end. change (inner_slash p) in H3. clearbody p.
    destruct (index_inner _ H3) as (i & -> & L). apply Nat.ltb_lt in L. rewrite L. destruct (ends_with _ _); reflexivity.
Qed.
Lemma inner_lower s : inner_slash s -> inner_slash (lower s).
Proof.
  intros (x & y & -> & H). exists (lower x), (lower y). split; [unfold lower; now rewrite map_app|]. destruct y; [now elim H|discriminate].
Qed.

Section Value.
  Variable R : Type.
  Variable rcompile : str -> res R.
  Variable rsearch : R -> str -> bool.
  Variable parse_time : str -> res Z.
  Variable debug : bool.
  Variable case : case_mode.
  Variable registered : list plugin.
  Variable init_plugin : str -> res unit.
  Variable reference_value : str * str -> str -> res value.
  Notation parse_test := (parse_test R rcompile parse_time debug case registered init_plugin reference_value).
  Notation run := (run rsearch).

  Lemma run_plain t n1 n2 d1 d2 v : ~ (t_type t = TPath /\ t_operator t = $"%") -> run t n1 d1 v = run t n2 d2 v.
  Proof.
    intros H. unfold TestModel.run, type_test. destruct (t_type t), v; try reflexivity. unfold path_test.
    destruct (str_eqb (t_operator t) ($"%")) eqn:E; [|reflexivity]. apply str_eqb_eq in E. elim H. auto.
  Qed.
  Lemma run_anchored t n1 n2 d v g : t_value t = TGlob g -> g_anchored g = true -> run t n1 d v = run t n2 d v.
  Proof.
    intros H A. unfold TestModel.run, type_test. destruct (t_type t), v; try reflexivity. unfold path_test. rewrite H.
    destruct (str_eqb (t_operator t) ($"%")); [|reflexivity]. unfold glob_test, glob_match. rewrite A. reflexivity.
  Qed.
  Lemma parse_glob a o s text t : split_test text = Some (a, o, None, s) -> parse_test text = Ok t -> t_type t = TPath -> t_operator t = $"%" ->
    inner_slash s -> exists g, t_value t = TGlob g /\ g_anchored g = true.
  Proof.
    intros S P T O I. unfold TestModel.parse_test in P. rewrite S in P. destruct (setup_attribute registered init_plugin a) as [at_|]; [|discriminate P].
    cbn [bindr] in P. unfold create_test in P. destruct (get_attribute_type registered at_) as [ty|]; [|discriminate P]. cbn [bindr] in P.
    destruct (negb (str_in o (operators ty))) eqn:Eo; [discriminate P|]. destruct (input parse_time debug ty s) as [v|] eqn:Ei; [|discriminate P].
    cbn [bindr] in P. match type of P with (if ?c then _ else _) = _ => destruct c; [discriminate P|] end. destruct (string_type ty) eqn:Est.
    - destruct (prepare R rcompile case ty o v) as [[tv ic]|] eqn:Ep; [|discriminate P]. cbn [bindr fst snd] in P. injection P as <-.
      cbn [t_type t_operator t_value] in *. subst ty o. injection Ei as <-. unfold prepare in Ep.
      assert (G : forall (ic' : bool) (v' : value), (if ic' then do l <- py_lower (VStr s); Ok (VStr l) else Ok (VStr s)) = Ok v' -> exists s', v' = VStr s' /\ inner_slash s').
      { intros [] v' K; cbn [py_lower bindr] in K; injection K as <-; eexists; (split; [reflexivity|]); [now apply inner_lower|exact I]. }
      match type of Ep with bindr ?m _ = _ => destruct m as [ic'|] eqn:Em; [|discriminate Ep] end. cbn [bindr] in Ep.
      match type of Ep with bindr ?m _ = _ => destruct m as [v'|] eqn:Ev; [|discriminate Ep] end. cbn [bindr] in Ep.
      destruct (G ic' v' Ev) as (s' & -> & I'). change (str_eqb ($"%") ($"~")) with false in Ep. change (str_eqb ($"%") ($"%")) with true in Ep.
      cbv iota in Ep. injection Ep as <- _. eexists. split; [reflexivity|now apply inner_anchored].
    - injection P as <-. cbn [t_type] in T. subst ty. discriminate Est.
  Qed.
  (** Only a pattern without slashes inside, for an attribute that is a path,
      looks at the name; and only patterns for paths look at the kind of file. *)
  Lemma test_value a o s text t n1 n2 d v : split_test text = Some (a, o, None, s) -> parse_test text = Ok t ->
    (t_type t = TPath -> t_operator t = $"%" -> inner_slash s \/ n1 = n2) -> run t n1 d v = run t n2 d v.
  Proof.
    intros S P C. destruct (ty_eqb (t_type t) TPath) eqn:T.
    - destruct (str_eqb (t_operator t) ($"%")) eqn:O.
      + assert (T' : t_type t = TPath) by (clear - T; destruct (t_type t); (reflexivity || discriminate T)). apply str_eqb_eq in O.
        destruct (C T' O) as [I| ->]; [|reflexivity]. destruct (parse_glob _ _ _ _ _ S P T' O I) as (g & G1 & G2). now apply (run_anchored t n1 n2 d v g).
      + apply run_plain. intros [_ K]. rewrite K in O. discriminate O.
    - apply run_plain. intros [K _]. rewrite K in T. discriminate T.
  Qed.
End Value.
