(** Which colours names get; the separator of fields. *)
From Coq Require Import List NArith ZArith Bool Lia.
From Verif Require Import Py PathSpec EntrySpec PathModel PathProofs EntryModel EntryProofs CountModel CountProofs ConsoleModel ConsoleSpec ConsoleProofs ColourSpec.
Import ListNotations.
Local Open Scope nat_scope.

(** * Items *)
Lemma str_eqb_id a b : str_eqb a b = true <-> (fun x : str => x) a = (fun x => x) b.
Proof. apply str_eqb_eq. Qed.
Lemma get_set {V} k k' (v : V) d : dict_get str_eqb k (dict_set str_eqb k' v d) = if str_eqb k k' then Some v else dict_get str_eqb k d.
Proof. exact (dict_get_set str_eqb (fun x => x) str_eqb_id k k' v d). Qed.
Lemma item_unique k v k' v' p : item k v p -> item k' v' p -> k = k' /\ v = v'.
Proof.
  intros [-> N] [E N']. revert k' E N'. induction k as [|x k IH]; intros [|x' k'] E N'; cbn [app] in E.
  - injection E as ->. auto.
  - injection E as <- _. destruct N'. now left.
  - injection E as -> _. destruct N. now left.
  - injection E as -> E. destruct (IH (fun H => N (or_intror H)) k' E (fun H => N' (or_intror H))) as [-> ->]. auto.
Qed.
Lemma once_item p k v : split_once 61%N p = Some (k, v) <-> item k v p.
Proof.
  split.
  - intros E. split; [now apply split_once_some|]. revert k E. induction p as [|x p IH]; intros k; cbn [split_once]; [discriminate|].
    destruct (N.eqb_spec x 61) as [->|Nx]; [intros [= <- _]; intros []|].
    destruct (split_once 61%N p) as [[a b]|]; [|discriminate]. intros [= <- <-] [K|K]; [congruence|]. now apply (IH a eq_refl).
  - intros [-> N]. induction k as [|x k IH]; cbn [app split_once].
    + rewrite N.eqb_refl. reflexivity.
    + destruct (N.eqb_spec x 61) as [->|Nx]; [destruct N; now left|]. rewrite IH; [reflexivity|]. intros H. apply N. now right.
Qed.
Lemma last_snoc l p k v : LastItem (l ++ [p]) k v <-> item k v p \/ ((forall v', ~ item k v' p) /\ LastItem l k v).
Proof.
  split.
  - intros (l1 & q & l2 & E & I & N). destruct l2 as [|y l2 _] using rev_ind.
    + apply app_inj_tail in E as [_ ->]. now left.
    + rewrite app_comm_cons, app_assoc in E. apply app_inj_tail in E as [-> ->]. right. split.
      * intros v'. apply N. apply in_or_app. right. now left.
      * exists l1, q, l2. split; [reflexivity|]. split; [exact I|]. intros r v' H. apply N. apply in_or_app. now left.
  - intros [I|[N (l1 & q & l2 & -> & I & N')]].
    + exists l, p, []. split; [reflexivity|]. split; [exact I|]. intros q v' [].
    + exists l1, q, (l2 ++ [p]). split; [now rewrite <- app_assoc|]. split; [exact I|].
      intros r v' H. apply in_app_iff in H as [H|[<-|[]]]; auto.
Qed.
Lemma last_nil k v : ~ LastItem [] k v.
Proof. intros (l1 & q & l2 & E & _). now destruct l1. Qed.
Lemma last_unique l k v v' : LastItem l k v -> LastItem l k v' -> v = v'.
Proof.
  induction l as [|p l IH] using rev_ind; intros H H'; [now apply last_nil in H|].
  apply last_snoc in H as [H|[N H]], H' as [H'|[N' H']]; auto.
  - now apply (item_unique _ _ _ _ _ H H').
  - now destruct (N' v).
  - now destruct (N v').
Qed.

Lemma slice_rest (c : char) x : slice (c :: x) (Some 1%Z) None = x.
Proof. exact (slice_from [c] x). Qed.
Lemma suffix_ext x : ~ In DOT x -> ~ In SLASH x -> slice (snd (splitext (suffix x))) (Some 1%Z) None = x.
Proof.
  intros D S. pose proof (splitext_spec (suffix x)) as H.
  assert (K : ExtSplit (suffix x) [42%N] (DOT :: x)).
  { left. split; [reflexivity|]. exists x, [], [42%N]. split; [reflexivity|]. split; [exact D|]. split; [exact S|]. split; [reflexivity|].
    split; [intros [E|[]]; discriminate E|]. split; [now left|]. exists 42%N. split; [now left|discriminate]. }
  destruct (ExtSplit_unique _ _ _ _ _ H K) as [_ ->]. apply slice_rest.
Qed.
Lemma suffix_inj x y : suffix x = suffix y -> x = y.
Proof. unfold suffix. congruence. Qed.

Lemma last_dot b x b' x' : ~ In DOT x -> ~ In DOT x' -> b ++ DOT :: x = b' ++ DOT :: x' -> b = b' /\ x = x'.
Proof.
  intros D D'. revert b'. induction b as [|c b IH]; intros [|c' b'] E; cbn [app] in E.
  - injection E as ->. auto.
  - injection E as _ ->. destruct D. apply in_or_app. right. now left.
  - injection E as _ <-. destruct D'. apply in_or_app. right. now left.
  - injection E as -> E. destruct (IH b' E) as [-> ->]. auto.
Qed.
(** The last slash is determined. *)
Lemma slash_split d d' n n' : (d = [] \/ exists x, d = x ++ [SLASH]) -> (d' = [] \/ exists x, d' = x ++ [SLASH]) ->
  ~ In SLASH n -> ~ In SLASH n' -> d ++ n = d' ++ n' -> d = d' /\ n = n'.
Proof.
  intros H H' S S'. revert d' H'. induction d as [|c d IH]; intros d' H' E.
  - destruct H' as [->|[x ->]]; [now split|]. exfalso. apply S. cbn [app] in E. rewrite E. apply in_or_app. left. apply in_or_app. right. now left.
  - destruct d' as [|c' d'].
    + exfalso. apply S'. change (@nil char ++ n') with n' in E. rewrite <- E. destruct H as [H|[x ->]]; [discriminate H|].
      apply in_or_app. left. apply in_or_app. right. now left.
    + cbn [app] in E. injection E as <- E.
      assert (T : forall e : str, c :: e = [] \/ (exists x, c :: e = x ++ [SLASH]) -> e = [] \/ exists x, e = x ++ [SLASH]).
      { intros e [K|[x K]]; [discriminate K|]. destruct x as [|y x]; cbn [app] in K; injection K as _ ->; [now left|right; eauto]. }
      destruct (IH (T d H) d' (T d' H') E) as [-> ->]. auto.
Qed.

(** * Reading the rules *)
Lemma rules_read l k v : length k = 2 -> dict_get str_eqb k (fst (fold_left read_rule l ([], []))) = Some v <-> LastItem l k v.
Proof.
  intros L. induction l as [|p l IH] using rev_ind.
  - cbn. split; [discriminate|]. intros H. now apply last_nil in H.
  - rewrite fold_left_app, last_snoc. cbn [fold_left]. set (acc := fold_left read_rule l ([], [])) in *. clearbody acc. unfold read_rule.
    destruct (split_once 61%N p) as [[key w]|] eqn:E.
    + apply once_item in E. destruct (Nat.eqb_spec (length key) 2) as [L2|L2].
      * cbn [fst]. rewrite get_set. destruct (str_eqb k key) eqn:Q.
        -- apply str_eqb_eq in Q as <-. split; [intros [= <-]; now left|].
           intros [H|[N _]]; [destruct (item_unique _ _ _ _ _ E H) as [_ ->]; reflexivity|now destruct (N w)].
        -- apply str_eqb_neq in Q. rewrite IH. split; [intros H; right; split; [|exact H]|].
           ++ intros v' H'. destruct (item_unique _ _ _ _ _ E H') as [K _]. congruence.
           ++ intros [H|[_ H]]; [destruct (item_unique _ _ _ _ _ E H) as [K _]; congruence|exact H].
      * assert (X : forall v', ~ item k v' p) by (intros v' H; destruct (item_unique _ _ _ _ _ E H) as [K _]; congruence).
        assert (G : dict_get str_eqb k (fst acc) = Some v <-> item k v p \/ ((forall v', ~ item k v' p) /\ LastItem l k v)).
        { rewrite IH. split; [intros H; right; now split|]. intros [H|[_ H]]; [now destruct (X v)|exact H]. }
        destruct (slice (snd (splitext key)) (Some 1%Z) None); exact G.
    + assert (X : forall v', ~ item k v' p) by (intros v' H; apply once_item in H; congruence).
      rewrite IH. split; [intros H; right; now split|]. intros [H|[_ H]]; [now destruct (X v)|exact H].
Qed.
Definition tidy_items (l : list str) : Prop := forall p k v, In p l -> item k v p ->
  length k = 2 \/ exists x, k = suffix x /\ x <> [] /\ ~ In DOT x /\ ~ In SLASH x.
Lemma suffixes_read l x a : tidy_items l -> x <> [] ->
  dict_get str_eqb x (snd (fold_left read_rule l ([], []))) = Some a <-> exists v, a = esc v /\ LastItem l (suffix x) v.
Proof.
  intros T Nx. induction l as [|p l IH] using rev_ind.
  - cbn. split; [discriminate|]. intros (v & _ & H). now apply last_nil in H.
  - assert (T' : tidy_items l) by (intros q k v H; apply T, in_or_app; now left). specialize (IH T').
    rewrite fold_left_app. cbn [fold_left]. set (acc := fold_left read_rule l ([], [])) in *. clearbody acc. unfold read_rule.
    assert (SK : (forall v', ~ item (suffix x) v' p) ->
      (exists v, a = esc v /\ LastItem (l ++ [p]) (suffix x) v) <-> exists v, a = esc v /\ LastItem l (suffix x) v).
    { intros N. split; intros (v & E & H); exists v; (split; [exact E|]); [|apply last_snoc; right; now split].
      apply last_snoc in H as [H|[_ H]]; [now destruct (N v)|exact H]. }
    destruct (split_once 61%N p) as [[key w]|] eqn:E.
    + apply once_item in E. destruct (Nat.eqb_spec (length key) 2) as [L2|L2].
      * cbn [snd]. rewrite IH, SK; [reflexivity|]. intros v' H. destruct (item_unique _ _ _ _ _ E H) as [-> _].
        cbn in L2. destruct x; [now apply Nx|discriminate].
      * destruct (T p key w) as [K|(y & -> & Ny & D & S)]; [apply in_or_app; right; now left|exact E|contradiction|].
        rewrite (suffix_ext y D S). destruct y as [|c z] eqn:Ey; [now destruct Ny|]. rewrite <- Ey in *. clear Ey c z.
        cbn [snd]. rewrite get_set. destruct (str_eqb x y) eqn:Q.
        -- apply str_eqb_eq in Q as <-. split.
           ++ intros [= <-]. exists w. split; [reflexivity|]. apply last_snoc. now left.
           ++ intros (v & -> & H). apply last_snoc in H as [H|[N _]]; [|now destruct (N w)].
              destruct (item_unique _ _ _ _ _ E H) as [_ ->]. reflexivity.
        -- apply str_eqb_neq in Q. rewrite IH, SK; [reflexivity|]. intros v' H. destruct (item_unique _ _ _ _ _ E H) as [K _].
           apply suffix_inj in K. congruence.
    + rewrite IH, SK; [reflexivity|]. intros v' H. apply once_item in H. congruence.
Qed.

Section Env.
  Variable env : str.
  Hypothesis NE : env <> [].
  Notation st := (Coloured (read_colours env)).
  Lemma esc_sequence v : esc v = sequence v.
  Proof. destruct v; reflexivity. Qed.
  Lemma rule_cases k : length k = 2 ->
    match dict_get str_eqb k (fst (fold_left read_rule (split_on 58%N env) ([], []))) with
    | Some v => Rule env k v
    | None => forall v, ~ Rule env k v
    end.
  Proof.
    intros L. destruct (dict_get _ _ _) as [v|] eqn:E; [now apply rules_read|].
    intros v H. unfold Rule in H. rewrite <- (rules_read _ _ _ L) in H. congruence.
  Qed.
  Lemma reset_ok : exists r, co_reset (read_colours env) = sequence r /\ Ending env r.
  Proof.
    unfold read_colours. destruct env as [|c0 env0] eqn:EE; [easy|]. rewrite <- EE in *. clear EE c0 env0.
    pose proof (rule_cases ($"rs") eq_refl) as H.
    destruct (fold_left read_rule (split_on 58%N env) ([], [])) as [rules exts]. cbn [fst] in H. cbn [co_reset].
    destruct (dict_get str_eqb ($"rs") rules) as [v|].
    - exists v. split; [apply esc_sequence|now left].
    - exists ($"0"). split; [apply esc_sequence|right; now split].
  Qed.
  Lemma rule_of k : In k [$"di"; $"ex"; $"ln"; $"or"] ->
    dict_get str_eqb k (co_rules (read_colours env)) =
      Some (match dict_get str_eqb k (fst (fold_left read_rule (split_on 58%N env) ([], []))) with
            | Some v => Some (esc v, co_reset (read_colours env)) | None => None end).
  Proof.
    intros Hk. unfold read_colours. destruct env as [|c0 env0] eqn:EE; [easy|]. rewrite <- EE in *. clear EE c0 env0.
    destruct (fold_left read_rule (split_on 58%N env) ([], [])) as [rules exts]. cbn [fst co_rules co_reset].
    cbn [In] in Hk. destruct Hk as [<-|[<-|[<-|[<-|[]]]]]; reflexivity.
  Qed.
  Lemma colorize_colour k text : In k [$"di"; $"ex"; $"ln"; $"or"] -> exists s, colorize st k text = Ok s /\ InColour env k text (s_value s).
  Proof.
    intros Hk. cbn [colorize]. rewrite (rule_of k Hk).
    assert (L : length k = 2) by (cbn [In] in Hk; destruct Hk as [<-|[<-|[<-|[<-|[]]]]]; reflexivity).
    pose proof (rule_cases k L) as H. destruct (dict_get str_eqb k _) as [v|].
    - eexists. split; [reflexivity|]. cbn [s_value]. destruct reset_ok as (r & -> & E). rewrite esc_sequence. now apply in_colour.
    - eexists. split; [reflexivity|]. cbn [s_value plain]. now apply no_colour.
  Qed.
  Lemma exts_of : co_exts (read_colours env) = snd (fold_left read_rule (split_on 58%N env) ([], [])).
  Proof.
    unfold read_colours. destruct env as [|c0 env0] eqn:EE; [easy|]. rewrite <- EE in *. clear EE c0 env0.
    destruct (fold_left read_rule (split_on 58%N env) ([], [])). reflexivity.
  Qed.
  Hypothesis T : tidy env.
  Lemma file_colour x text : x <> [] -> InColour env (suffix x) text (s_value (render_file st x text)).
  Proof.
    intros Nx. cbn [render_file]. rewrite exts_of.
    pose proof (suffixes_read (split_on 58%N env) x) as H.
    destruct (dict_get str_eqb x _) as [a|].
    - destruct (proj1 (H a T Nx) eq_refl) as (v & -> & R). cbn [s_value]. destruct reset_ok as (r & -> & E). rewrite esc_sequence.
      now apply in_colour.
    - cbn [s_value plain]. apply no_colour. intros v R. specialize (proj2 (H (esc v) T Nx) (ex_intro _ v (conj eq_refl R))). discriminate.
  Qed.
  Lemma no_ext_key l : ~ exists a, dict_get str_eqb [] (snd (fold_left read_rule l ([], []))) = Some a.
  Proof.
    induction l as [|p l IH] using rev_ind; [intros [a H]; discriminate H|].
    rewrite fold_left_app. cbn [fold_left]. set (acc := fold_left read_rule l ([], [])) in *. clearbody acc. unfold read_rule.
    destruct (split_once 61%N p) as [[key w]|]; [|exact IH]. destruct (Nat.eqb (length key) 2); [exact IH|].
    destruct (slice (snd (splitext key)) (Some 1%Z) None) as [|c y]; [exact IH|]. cbn [snd]. rewrite get_set. exact IH.
  Qed.

  Lemma path_ext e : inside (e_dir e) (e_name e) (e_path e) -> ~ In SLASH (e_name e) ->
    (exists b, e_name e = b ++ DOT :: e_ext e /\ ~ In DOT (e_ext e) /\ exists c, In c b /\ c <> DOT) \/
    (e_ext e = [] /\ forall b x, e_name e = b ++ DOT :: x -> ~ In DOT x -> forall c, In c b -> c = DOT).
  Proof.
    intros I S. unfold e_ext.
    assert (Q : exists d, e_path e = d ++ e_name e /\ (d = [] \/ exists d', d = d' ++ [SLASH])).
    { destruct I as [[_ ->]|[[_ ->]|(_ & _ & ->)]]; [exists []; auto|exists [SLASH]; split; [reflexivity|right; now exists []]|].
      exists (e_dir e ++ [SLASH]). split; [now rewrite <- app_assoc|right; eauto]. }
    destruct Q as (d & -> & Hd). destruct (splitext_spec (d ++ e_name e)) as [D|(_ & -> & N)].
    - left. destruct D as (E & x & d' & k & Ee & Dx & Sx & Er & Sk & Hd' & c & Hc & Nc). rewrite Er, Ee, <- app_assoc in E.
      rewrite Ee, slice_rest. exists k.
      assert (K : d = d' /\ e_name e = k ++ DOT :: x).
      { apply slash_split; [exact Hd|exact Hd'|exact S| |exact E]. intros H. apply in_app_iff in H as [H|[H|H]]; [now apply Sk|discriminate H|now apply Sx]. }
      destruct K as [_ K]. eauto.
    - right. split; [reflexivity|]. intros b x E Dx c Hc. destruct (N.eq_dec c DOT) as [->|Nc]; [reflexivity|exfalso].
      apply (N (d ++ b) (DOT :: x)). split; [now rewrite E, <- app_assoc|]. exists x, d, b.
      assert (Sb : ~ In SLASH b /\ ~ In SLASH x).
      { rewrite E in S. split; intros H; apply S, in_or_app; [now left|right; now right]. }
      split; [reflexivity|]. split; [exact Dx|]. split; [apply Sb|]. split; [reflexivity|]. split; [apply Sb|]. split; [exact Hd|]. eauto.
  Qed.
  Variable follow : bool.
  Lemma kind_symlink e : is_symlink e = true <-> kind e = $"symlink".
  Proof. unfold is_symlink, kind. rewrite str_eqb_eq, type_of_mode_spec. reflexivity. Qed.
  Lemma kind_directory e : is_dir e = true <-> kind e = $"directory".
  Proof. unfold is_dir, kind. rewrite str_eqb_eq, type_of_mode_spec. reflexivity. Qed.
  Lemma link_iff e : is_symlink e && negb follow = true <-> shown_as_link follow e.
  Proof. unfold shown_as_link. rewrite andb_true_iff, negb_true_iff, kind_symlink. reflexivity. Qed.
  Lemma runs_iff e : executable_of (mode_of e) = true <-> runs e.
  Proof. exact (executable_spec (mode_of e)). Qed.
  Lemma name_colour e : inside (e_dir (c_entry e)) (e_name (c_entry e)) (e_path (c_entry e)) -> ~ In SLASH (e_name (c_entry e)) ->
    exists s, render_name st follow e = Ok s /\ NameColour env follow e (s_value s).
  Proof.
    intros I S. unfold render_name. destruct (is_symlink e && negb follow) eqn:L.
    - apply link_iff in L. destruct (c_broken e) eqn:B.
      + destruct (colorize_colour ($"or") (e_name (c_entry e))) as (s & E & C); [cbn [In]; tauto|]. exists s. split; [exact E|]. now apply colour_orphan.
      + destruct (colorize_colour ($"ln") (e_name (c_entry e))) as (s & E & C); [cbn [In]; tauto|]. exists s. split; [exact E|]. now apply colour_link.
    - assert (NL : ~ shown_as_link follow e) by (rewrite <- link_iff, L; discriminate). clear L. rename NL into L.
      assert (R := runs_iff e). destruct (executable_of (mode_of e)) eqn:X; [assert (Y : runs e) by (now apply R)|assert (Y : ~ runs e) by (rewrite <- R; discriminate)]; clear X R; rename Y into X.
      + destruct (colorize_colour ($"ex") (e_name (c_entry e))) as (s & E & C); [cbn [In]; tauto|]. exists s. split; [exact E|]. now apply colour_exec.
      + eexists. split; [reflexivity|]. destruct (path_ext (c_entry e) I S) as [(b & E & D & Hc)|[E N]].
        * destruct (e_ext (c_entry e)) as [|c x] eqn:Ex.
          -- assert (P : render_file st [] (e_name (c_entry e)) = plain (e_name (c_entry e))).
             { cbn [render_file]. rewrite exts_of. destruct (dict_get str_eqb [] _) as [a|] eqn:G; [|reflexivity]. destruct (no_ext_key (split_on 58%N env)). eauto. }
             rewrite P. apply colour_none; [exact L|exact X|]. intros b' x' E' D'. left.
             rewrite E in E'. apply (last_dot b [] b' x' D D') in E'. symmetry. apply E'.
          -- apply (colour_suffix env follow e b (c :: x)); auto; [discriminate|]. apply file_colour. discriminate.
        * rewrite E. 
          assert (P : render_file st [] (e_name (c_entry e)) = plain (e_name (c_entry e))).
          { cbn [render_file]. rewrite exts_of. destruct (dict_get str_eqb [] _) as [a|] eqn:G; [|reflexivity]. destruct (no_ext_key (split_on 58%N env)). eauto. }
          rewrite P. apply colour_none; [exact L|exact X|]. intros b' x' E' D'. right. exact (N b' x' E' D').
  Qed.
  Lemma path_colour e : inside (e_dir (c_entry e)) (e_name (c_entry e)) (e_path (c_entry e)) -> ~ In SLASH (e_name (c_entry e)) ->
    exists s, render_path st follow e false = Ok s /\ PathColour env follow e (s_value s).
  Proof.
    intros I S. unfold render_path. assert (R := kind_directory e).
    destruct (is_dir e) eqn:D; [assert (Y : kind e = $"directory") by (now apply R)|assert (Y : kind e <> $"directory") by (rewrite <- R; discriminate)]; clear D R; rename Y into D.
    - destruct (colorize_colour ($"di") (e_path (c_entry e))) as (s & E & C); [cbn [In]; tauto|]. exists s. split; [exact E|]. now apply path_directory.
    - destruct (name_colour e I S) as (s & -> & C). cbn [bindr]. rewrite andb_false_r.
      destruct (e_dir (c_entry e)) as [|c d] eqn:Ed.
      + exists s. split; [reflexivity|]. now apply path_bare.
      + destruct (colorize_colour ($"di") ((c :: d) ++ [SLASH])) as (t & -> & C'); [cbn [In]; tauto|]. cbn [bindr].
        eexists. split; [reflexivity|]. cbn [s_value]. apply path_inside; auto; [rewrite Ed; discriminate|now rewrite Ed].
  Qed.
End Env.

(** * The separator *)
Lemma replace2_pair a b new s : replace2 a b new (a :: b :: s) = new ++ replace2 a b new s.
Proof. cbn [replace2]. now rewrite !N.eqb_refl. Qed.
Lemma replace2_char a b new c s : (c = a -> forall s', s <> b :: s') -> replace2 a b new (c :: s) = c :: replace2 a b new s.
Proof.
  intros H. destruct s as [|d s]; [reflexivity|]. cbn [replace2].
  destruct (N.eqb_spec c a) as [->|]; [|reflexivity]. destruct (N.eqb_spec d b) as [->|]; [|reflexivity]. now destruct (H eq_refl s).
Qed.
Lemma unescaped s : forall n, length s <= n -> Unescaped s (field_separator s).
Proof.
  intros n. revert s. induction n as [|n IH]; intros s L.
  - destruct s; [|cbn in L; lia]. constructor.
  - destruct s as [|c s]; [constructor|]. cbn [length] in L. unfold field_separator.
    destruct (N.eq_dec c 92) as [->|Nc].
    + destruct s as [|d s]; [apply un_char; [discriminate|constructor]|]. cbn [length] in L.
      destruct (N.eq_dec d 116) as [->|N1]; [|destruct (N.eq_dec d 110) as [->|N2]].
      * rewrite replace2_pair. change ([9%N] ++ ?x) with (9%N :: x).
        rewrite (replace2_char 92%N 110%N [10%N] 9%N) by (intros K; discriminate K). apply un_tab. apply IH. lia.
      * rewrite (replace2_char 92%N 116%N [9%N] 92%N) by (intros _ s'; discriminate).
        rewrite (replace2_char 92%N 116%N [9%N] 110%N) by (intros K; discriminate K).
        rewrite replace2_pair. change ([10%N] ++ ?x) with (10%N :: x). apply un_line. apply IH. lia.
      * rewrite (replace2_char 92%N 116%N [9%N] 92%N) by (intros _ s'; congruence).
        assert (X : forall s', replace2 92%N 116%N [9%N] (d :: s) <> 110%N :: s').
        { intros s'. destruct s as [|e s]; cbn [replace2]; [congruence|]. destruct (d =? 92)%N, (e =? 116)%N; cbn [andb app]; congruence. }
        rewrite (replace2_char 92%N 110%N [10%N] 92%N) by (intros _ s'; apply X).
        apply un_char; [intros _ d' s' [= <- <-]; now split|]. apply IH. cbn [length]. lia.
    + rewrite (replace2_char 92%N 116%N [9%N] c) by (intros K; now destruct (Nc K)).
      rewrite (replace2_char 92%N 110%N [10%N] c) by (intros K; now destruct (Nc K)). apply un_char; [congruence|]. apply IH. lia.
Qed.
Lemma unescaped_unique s t : Unescaped s t -> forall t', Unescaped s t' -> t = t'.
Proof.
  induction 1 as [|s t H IH|s t H IH|c s t N H IH]; intros t' H'.
  - now inversion H'.
  - inversion H' as [|? u K|?|c s' u N K]; subst; [f_equal; auto|]. destruct (N eq_refl _ _ eq_refl) as [X _]. now destruct X.
  - inversion H' as [|?|? u K|c s' u N K]; subst; [f_equal; auto|]. destruct (N eq_refl _ _ eq_refl) as [_ X]. now destruct X.
  - inversion H' as [|s' u K|s' u K|c' s' u N' K]; subst.
    + destruct (N eq_refl _ _ eq_refl) as [X _]. now destruct X.
    + destruct (N eq_refl _ _ eq_refl) as [_ X]. now destruct X.
    + f_equal. auto.
Qed.
Lemma separator_spec s t : Unescaped s t <-> field_separator s = t.
Proof.
  split.
  - intros H. exact (unescaped_unique s _ (unescaped s (length s) (le_n _)) t H).
  - intros <-. exact (unescaped s (length s) (le_n _)).
Qed.

(** For the examples *)
Lemma absent c (s : str) : existsb (N.eqb c) s = false -> ~ In c s.
Proof.
  intros H K. apply Bool.not_true_iff_false in H. apply H. apply existsb_exists. exists c. split; [exact K|apply N.eqb_refl].
Qed.
Lemma is_item k v p : p = k ++ 61%N :: v -> existsb (N.eqb 61%N) k = false -> item k v p.
Proof. intros H K. split; [exact H|exact (absent _ _ K)]. Qed.
