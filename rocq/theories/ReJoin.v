(** Compiling patterns joined by [|]. *)
From Coq Require Import List NArith ZArith Bool Lia.
From Verif Require Import Py Re.
Import ListNotations.

Lemma cbind_ok {A B} (x : cres A) (f : A -> cres B) b : cbind x f = COk b ->
  exists a, x = COk a /\ f a = COk b.
Proof. destruct x; try discriminate. eauto. Qed.

Notation bar v := (124%N :: v).

Lemma set_char_app s i t u : set_char s = COk (i, t) -> set_char (s ++ u) = COk (i, t ++ u).
Proof.
  destruct s as [|c s]; [discriminate|]. cbn [set_char app]. destruct (N.eqb c 92).
  - destruct s as [|d s]; [discriminate|]. cbn [app]. intros H. apply cbind_ok in H as (x & -> & H).
    cbn [cbind]. now injection H as <- <-.
  - now intros [= <- <-].
Qed.
Lemma set_items_app u : forall f f' first acc s l t, f <= f' ->
  set_items f first acc s = COk (l, t) -> set_items f' first acc (s ++ u) = COk (l, t ++ u).
Proof.
  induction f as [|f IH]; intros f' first acc s l t L; [discriminate|].
  destruct f' as [|f']; [lia|]. apply le_S_n in L.
  cbn [set_items]. destruct s as [|c s]; [discriminate|]. cbn [app].
  destruct (N.eqb c 93 && negb first); [now intros [= <- <-]|].
  intros H. apply cbind_ok in H as ([i t1] & H1 & H).
  rewrite app_comm_cons, (set_char_app _ _ _ u H1). cbn [cbind].
  destruct t1 as [|d t2]; [discriminate|]. cbn [app]. destruct (N.eqb d 45).
  - destruct t2 as [|e t3]; [discriminate|]. cbn [app]. destruct (N.eqb e 93); [now injection H as <- <-|].
    apply cbind_ok in H as ([j t4] & H2 & H). rewrite app_comm_cons, (set_char_app _ _ _ u H2). cbn [cbind].
    destruct i; try discriminate. destruct j; try discriminate. destruct (c0 <=? c1)%N; [|discriminate].
    eapply IH; eauto.
  - rewrite app_comm_cons. eapply IH; eauto.
Qed.
Lemma parse_set_app ic s p t u : parse_set ic s = COk (p, t) -> parse_set ic (s ++ u) = COk (p, t ++ u).
Proof.
  unfold parse_set. destruct s as [|c s]; [discriminate|]. cbn [app]. destruct (N.eqb c 94).
  - intros H. apply cbind_ok in H as ([l t'] & H1 & H).
    assert (L : S (length s) <= S (length (s ++ u))) by (rewrite app_length; lia).
    rewrite (set_items_app u _ _ _ _ _ _ _ L H1).
    cbn [cbind]. now injection H as <- <-.
  - intros H. apply cbind_ok in H as ([l t'] & H1 & H). rewrite app_comm_cons.
    assert (L : S (length (c :: s)) <= S (length ((c :: s) ++ u))) by (rewrite app_length; lia).
    rewrite (set_items_app u _ _ _ _ _ _ _ L H1).
    cbn [cbind]. now injection H as <- <-.
Qed.
Lemma parse_quant_bar t q t' v : parse_quant t = COk (q, t') -> parse_quant (t ++ bar v) = COk (q, t' ++ bar v).
Proof.
  destruct t as [|c t]; [now intros [= <- <-]|]. cbn [parse_quant app].
  destruct (if N.eqb c 42 then Some QStar else if N.eqb c 43 then Some QPlus
            else if N.eqb c 63 then Some QOpt else None) as [qc|].
  - destruct t as [|d t]; [now intros [= <- <-]|]. cbn [app]. destruct (N.eqb d 63).
    + destruct t as [|e t]; [now intros [= <- <-]|]. cbn [app].
      destruct (_ || _); [discriminate|]. now intros [= <- <-].
    + destruct (N.eqb d 42); [discriminate|]. destruct (_ || _); [discriminate|]. now intros [= <- <-].
  - destruct (N.eqb c 123); [|now intros [= <- <-]].
    destruct t as [|d t]; [now intros [= <- <-]|]. cbn [app].
    destruct (_ || _); [discriminate|]. now intros [= <- <-].
Qed.
Lemma quantified_bar x t y t' v : quantified x t = COk (y, t') -> quantified x (t ++ bar v) = COk (y, t' ++ bar v).
Proof.
  unfold quantified. intros H. apply cbind_ok in H as ([q t1] & H1 & H). rewrite (parse_quant_bar _ _ _ v H1).
  cbn [cbind]. apply cbind_ok in H as (r & -> & H). cbn [cbind]. now injection H as <- <-.
Qed.
Lemma skip_name_app s t u : skip_name s = Some t -> skip_name (s ++ u) = Some (t ++ u).
Proof.
  induction s as [|c s IH]; [discriminate|]. cbn [skip_name app]. destruct (N.eqb c 62); [now intros [= <-]|exact IH].
Qed.

(** The body of a group, as a function of the recursive calls. *)
Definition group_cont (pa' : str -> nat -> option re -> re -> cres (re * str * nat))
  (alts : option re) (cur : re) (wrap : re -> re) (n' : nat) (t : str) : cres (re * str * nat) :=
  cbind (pa' t n' None Eps) (fun '(r, t', n'') =>
    match t' with
    | [] => CErr
    | _ :: t'' => cbind (quantified (wrap r) t'') (fun '(r', t3) => pa' t3 n'' alts (Cat cur r'))
    end).
Definition single_cont (pa' : str -> nat -> option re -> re -> cres (re * str * nat))
  (alts : option re) (cur : re) (n : nat) (r : re) (t : str) : cres (re * str * nat) :=
  cbind (quantified r t) (fun '(r', t') => pa' t' n alts (Cat cur r')).
Lemma pa_step ic f s n alts cur : pa ic (S f) s n alts cur =
  match s with
  | [] => COk (alt_opt alts cur, [], n)
  | c :: t =>
      if N.eqb c 41 then COk (alt_opt alts cur, s, n)
      else if N.eqb c 124 then pa ic f t n (Some (alt_opt alts cur)) Eps
      else if N.eqb c 40 then
        match t with
        | q :: t1 =>
            if N.eqb q 63 then
              match t1 with
              | a :: t2 =>
                  if N.eqb a 58 then group_cont (pa ic f) alts cur (fun r => r) n t2
                  else if N.eqb a 80 then
                    match t2 with
                    | b :: t3 =>
                        if N.eqb b 60 then
                          match skip_name t3 with
                          | Some t4 => group_cont (pa ic f) alts cur (Grp (S n)) (S n) t4
                          | None => CErr
                          end
                        else CUnmodelled
                    | [] => CErr
                    end
                  else CUnmodelled
              | [] => CErr
              end
            else group_cont (pa ic f) alts cur (Grp (S n)) (S n) t
        | [] => CErr
        end
      else if N.eqb c 91 then
        cbind (parse_set ic t) (fun '(p, t') => single_cont (pa ic f) alts cur n (Chr p) t')
      else if N.eqb c 46 then single_cont (pa ic f) alts cur n (Chr dot_cls) t
      else if N.eqb c 92 then
        match t with
        | [] => CErr
        | d :: t' => cbind (escape_item d) (fun i => single_cont (pa ic f) alts cur n (Chr (Cls ic false [i])) t')
        end
      else if N.eqb c 94 then pa ic f t n alts (Cat cur Bol)
      else if N.eqb c 36 then pa ic f t n alts (Cat cur Eol)
      else if N.eqb c 42 || N.eqb c 43 || N.eqb c 63 then CErr
      else if N.eqb c 123 && match t with d :: _ => is_d d || N.eqb d 44 | [] => false end
      then CUnmodelled
      else single_cont (pa ic f) alts cur n (Chr (char_cls ic c)) t
  end.
Proof. reflexivity. Qed.

(** Appending a bar and more text to a pattern that is complete. *)
Definition after (ic : bool) (v : str) (f : nat) (s : str) (n : nat) (alts : option re) (cur : re)
  (x : re * str * nat) : Prop :=
  let '(r, t, n') := x in
  (exists c t', t = c :: t' /\ forall f', f <= f' -> pa ic f' (s ++ bar v) n alts cur = COk (r, t ++ bar v, n'))
  \/ (t = [] /\ exists j, j <= f /\
       forall f', f <= f' -> pa ic f' (s ++ bar v) n alts cur = pa ic (f' - j) v n' (Some r) Eps).
Lemma after_step ic v f s n alts cur x s1 n1 alts1 cur1 :
  (forall f', pa ic (S f') (s ++ bar v) n alts cur = pa ic f' (s1 ++ bar v) n1 alts1 cur1) ->
  after ic v f s1 n1 alts1 cur1 x -> after ic v (S f) s n alts cur x.
Proof.
  intros E H. destruct x as [[r t] n']. destruct H as [(c & t' & -> & H)|(-> & j & L & H)].
  - left. exists c, t'. split; [reflexivity|]. intros [|f'] L; [lia|]. rewrite E. apply H. lia.
  - right. split; [reflexivity|]. exists (S j). split; [lia|]. intros [|f'] L'; [lia|]. rewrite E, H by lia.
    reflexivity.
Qed.
Lemma pa_bar ic v : forall f s n alts cur x, pa ic f s n alts cur = COk x -> after ic v f s n alts cur x.
Proof.
  induction f as [|f IH]; intros s n alts cur x H; [discriminate|]. rewrite pa_step in H.
  assert (S1 : forall r t, single_cont (pa ic f) alts cur n r t = COk x ->
     (forall f', pa ic (S f') (s ++ bar v) n alts cur = single_cont (pa ic f') alts cur n r (t ++ bar v)) ->
     after ic v (S f) s n alts cur x).
  { intros r t H1 E. unfold single_cont in H1. apply cbind_ok in H1 as ([r' t'] & H1 & H2).
    eapply after_step; [|eapply IH, H2]. intros f'. rewrite E. unfold single_cont.
    now rewrite (quantified_bar _ _ _ _ v H1). }
  assert (S2 : forall w m t, group_cont (pa ic f) alts cur w m t = COk x ->
     (forall f', pa ic (S f') (s ++ bar v) n alts cur = group_cont (pa ic f') alts cur w m (t ++ bar v)) ->
     after ic v (S f) s n alts cur x).
  { intros w m' t H1 E. unfold group_cont in H1. apply cbind_ok in H1 as ([[r1 t1] n1] & H1 & H2).
    destruct t1 as [|c1 t1]; [discriminate|]. apply cbind_ok in H2 as ([r' t'] & H2 & H3).
    apply IH in H1. destruct H1 as [(c & t'' & [= <- <-] & H1)|(? & _)]; [|discriminate].
    apply IH in H3. destruct x as [[rx tx] nx].
    assert (G : forall f', f <= f' -> pa ic (S f') (s ++ bar v) n alts cur = pa ic f' (t' ++ bar v) n1 alts (Cat cur r')).
    { intros f' L. rewrite E. unfold group_cont. rewrite H1 by exact L. cbn [cbind app].
      now rewrite (quantified_bar _ _ _ _ v H2). }
    destruct H3 as [(c & t2 & -> & H3)|(-> & j & L & H3)].
    - left. exists c, t2. split; [reflexivity|]. intros [|f'] L; [lia|]. rewrite G by lia. apply H3. lia.
    - right. split; [reflexivity|]. exists (S j). split; [lia|]. intros [|f'] L'; [lia|].
      rewrite G by lia. now rewrite H3 by lia. }
  destruct s as [|c t].
  { injection H as <-. right. split; [reflexivity|]. exists 1. split; [lia|].
    intros [|f'] L; [lia|]. cbn [app]. rewrite pa_step. change (N.eqb 124 41) with false.
    change (N.eqb 124 124) with true. cbn iota. cbn [Nat.sub]. now rewrite Nat.sub_0_r. }
  assert (E : forall f', pa ic (S f') ((c :: t) ++ bar v) n alts cur =
    pa ic (S f') (c :: (t ++ bar v)) n alts cur) by reflexivity.
  destruct (N.eqb c 41) eqn:E1.
  { injection H as <-. left. exists c, t. split; [reflexivity|]. intros [|f'] L; [lia|].
    rewrite E, pa_step, E1. reflexivity. }
  destruct (N.eqb c 124) eqn:E2.
  { eapply after_step; [|eapply IH, H]. intros f'. rewrite E, pa_step, E1, E2. reflexivity. }
  destruct (N.eqb c 40) eqn:E3.
  { destruct t as [|q t1]; [discriminate|]. destruct (N.eqb q 63) eqn:E4.
    - destruct t1 as [|a t2]; [discriminate|]. destruct (N.eqb a 58) eqn:E5.
      + eapply S2; [exact H|]. intros f'. rewrite E, pa_step, E1, E2, E3. cbn [app]. now rewrite E4, E5.
      + destruct (N.eqb a 80) eqn:E6; [|discriminate]. destruct t2 as [|b t3]; [discriminate|].
        destruct (N.eqb b 60) eqn:E7; [|discriminate]. destruct (skip_name t3) as [t4|] eqn:E8; [|discriminate].
        eapply S2; [exact H|]. intros f'. rewrite E, pa_step, E1, E2, E3. cbn [app].
        rewrite E4, E5, E6, E7. now rewrite (skip_name_app _ _ _ E8).
    - eapply S2; [exact H|]. intros f'. rewrite E, pa_step, E1, E2, E3. cbn [app]. now rewrite E4. }
  destruct (N.eqb c 91) eqn:E4.
  { apply cbind_ok in H as ([p t'] & Hp & H). eapply S1; [exact H|]. intros f'.
    rewrite E, pa_step, E1, E2, E3, E4, (parse_set_app _ _ _ _ _ Hp). reflexivity. }
  destruct (N.eqb c 46) eqn:E5.
  { eapply S1; [exact H|]. intros f'. now rewrite E, pa_step, E1, E2, E3, E4, E5. }
  destruct (N.eqb c 92) eqn:E6.
  { destruct t as [|d t']; [discriminate|]. apply cbind_ok in H as (i & Hi & H).
    eapply S1; [exact H|]. intros f'. rewrite E, pa_step, E1, E2, E3, E4, E5, E6. cbn [app]. now rewrite Hi. }
  destruct (N.eqb c 94) eqn:E7.
  { eapply after_step; [|eapply IH, H]. intros f'. now rewrite E, pa_step, E1, E2, E3, E4, E5, E6, E7. }
  destruct (N.eqb c 36) eqn:E8.
  { eapply after_step; [|eapply IH, H]. intros f'. now rewrite E, pa_step, E1, E2, E3, E4, E5, E6, E7, E8. }
  destruct (N.eqb c 42 || N.eqb c 43 || N.eqb c 63) eqn:E9; [discriminate|].
  destruct (N.eqb c 123 && match t with d :: _ => is_d d || N.eqb d 44 | [] => false end) eqn:E10; [discriminate|].
  eapply S1; [exact H|]. intros f'. rewrite E, pa_step, E1, E2, E3, E4, E5, E6, E7, E8, E9.
  replace (N.eqb c 123 && match t ++ bar v with d :: _ => is_d d || N.eqb d 44 | [] => false end) with false; [reflexivity|].
  destruct t as [|d t]; [now rewrite andb_false_r|now rewrite <- E10].
Qed.

(** Alternatives collected before do not influence the rest. *)
Definition Dalts (n0 : nat) (alts : option re) (s s' : str) : Prop :=
  match alts with Some b => D n0 b s s' | None => False end.
Lemma pa_alts ic a : forall f s n alts cur r t n' x,
  (forall n0 s s', D n0 x s s' <-> D n0 a s s' \/ Dalts n0 alts s s') ->
  pa ic f s n alts cur = COk (r, t, n') ->
  exists r', pa ic f s n (Some x) cur = COk (r', t, n') /\
    forall n0 s s', D n0 r' s s' <-> D n0 a s s' \/ D n0 r s s'.
Proof.
  induction f as [|f IH]; intros s n alts cur r t n' x Hx H; [discriminate|]. rewrite pa_step in *.
  assert (A : forall n0 s s', D n0 (alt_opt (Some x) cur) s s' <-> D n0 a s s' \/ D n0 (alt_opt alts cur) s s').
  { intros n0 s1 s2. cbn [alt_opt D]. rewrite Hx. destruct alts; cbn [alt_opt Dalts D]; tauto. }
  assert (S1 : forall r0 t0, single_cont (pa ic f) alts cur n r0 t0 = COk (r, t, n') ->
     exists r', single_cont (pa ic f) (Some x) cur n r0 t0 = COk (r', t, n') /\
       forall n0 s s', D n0 r' s s' <-> D n0 a s s' \/ D n0 r s s').
  { intros r0 t0 H1. unfold single_cont in *. apply cbind_ok in H1 as ([r1 t1] & -> & H2). cbn [cbind].
    eapply IH; eauto. }
  assert (S2 : forall w m t0, group_cont (pa ic f) alts cur w m t0 = COk (r, t, n') ->
     exists r', group_cont (pa ic f) (Some x) cur w m t0 = COk (r', t, n') /\
       forall n0 s s', D n0 r' s s' <-> D n0 a s s' \/ D n0 r s s').
  { intros w m' t0 H1. unfold group_cont in *. apply cbind_ok in H1 as ([[r1 t1] n1] & -> & H2). cbn [cbind].
    destruct t1 as [|? t1]; [discriminate|]. apply cbind_ok in H2 as ([r2 t2] & -> & H2). cbn [cbind].
    eapply IH; eauto. }
  destruct s as [|c u].
  { injection H as <- <- <-. eauto. }
  destruct (N.eqb c 41); [injection H as <- <- <-; eauto|].
  destruct (N.eqb c 124); [eapply IH; [|exact H]; exact A|].
  destruct (N.eqb c 40).
  { destruct u as [|q t1]; [discriminate|]. destruct (N.eqb q 63); [|apply S2, H].
    destruct t1 as [|b t2]; [discriminate|]. destruct (N.eqb b 58); [apply S2, H|].
    destruct (N.eqb b 80); [|discriminate]. destruct t2 as [|d t3]; [discriminate|].
    destruct (N.eqb d 60); [|discriminate]. destruct (skip_name t3); [apply S2, H|discriminate]. }
  destruct (N.eqb c 91).
  { apply cbind_ok in H as ([p t'] & -> & H). cbn [cbind]. apply S1, H. }
  destruct (N.eqb c 46); [apply S1, H|].
  destruct (N.eqb c 92).
  { destruct u as [|d t']; [discriminate|]. apply cbind_ok in H as (i & -> & H). cbn [cbind]. apply S1, H. }
  destruct (N.eqb c 94); [eapply IH; eauto|]. destruct (N.eqb c 36); [eapply IH; eauto|].
  destruct (_ || _ || _); [discriminate|]. destruct (_ && _); [discriminate|]. apply S1, H.
Qed.
(** More fuel does not change the result. *)
Lemma pa_fuel ic : forall f f' s n alts cur r, f <= f' ->
  pa ic f s n alts cur = COk r -> pa ic f' s n alts cur = COk r.
Proof.
  induction f as [|f IH]; intros f' s n alts cur r L H; [discriminate|].
  destruct f' as [|f']; [lia|]. apply le_S_n in L. rewrite pa_step in *.
  assert (S1 : forall r0 t0, single_cont (pa ic f) alts cur n r0 t0 = COk r ->
     single_cont (pa ic f') alts cur n r0 t0 = COk r).
  { intros r0 t0 H1. unfold single_cont in *. apply cbind_ok in H1 as ([r1 t1] & -> & H2). cbn [cbind].
    eapply IH; eauto. }
  assert (S2 : forall w m t0, group_cont (pa ic f) alts cur w m t0 = COk r ->
     group_cont (pa ic f') alts cur w m t0 = COk r).
  { intros w m' t0 H1. unfold group_cont in *. apply cbind_ok in H1 as ([[r1 t1] n1] & H1 & H2).
    rewrite (IH _ _ _ _ _ _ L H1). cbn [cbind].
    destruct t1 as [|? t1]; [discriminate|]. apply cbind_ok in H2 as ([r2 t2] & -> & H2). cbn [cbind].
    eapply IH; eauto. }
  destruct s as [|c u]; [exact H|].
  destruct (N.eqb c 41); [exact H|].
  destruct (N.eqb c 124); [eapply IH; eauto|].
  destruct (N.eqb c 40).
  { destruct u as [|q t1]; [discriminate|]. destruct (N.eqb q 63); [|apply S2, H].
    destruct t1 as [|b t2]; [discriminate|]. destruct (N.eqb b 58); [apply S2, H|].
    destruct (N.eqb b 80); [|discriminate]. destruct t2 as [|d t3]; [discriminate|].
    destruct (N.eqb d 60); [|discriminate]. destruct (skip_name t3); [apply S2, H|discriminate]. }
  destruct (N.eqb c 91).
  { apply cbind_ok in H as ([p t'] & -> & H). cbn [cbind]. apply S1, H. }
  destruct (N.eqb c 46); [apply S1, H|].
  destruct (N.eqb c 92).
  { destruct u as [|d t']; [discriminate|]. apply cbind_ok in H as (i & -> & H). cbn [cbind]. apply S1, H. }
  destruct (N.eqb c 94); [eapply IH; eauto|]. destruct (N.eqb c 36); [eapply IH; eauto|].
  destruct (_ || _ || _); [discriminate|]. destruct (_ && _); [discriminate|]. apply S1, H.
Qed.

(** Number of capturing groups. *)
Fixpoint ngroups (r : re) : nat :=
  match r with
  | Grp _ a => S (ngroups a)
  | Cat a b | Alt a b => ngroups a + ngroups b
  | Opt _ a => ngroups a
  | _ => 0
  end.
Definition ngroups_opt (a : option re) : nat := match a with Some r => ngroups r | None => 0 end.
Lemma ngroups_quantified x t y t' : quantified x t = COk (y, t') -> ngroups y = ngroups x.
Proof.
  unfold quantified. intros H. apply cbind_ok in H as ([q t1] & _ & H).
  apply cbind_ok in H as (r & H1 & H). injection H as <- <-.
  destruct q; cbn in H1; [injection H1 as <-; reflexivity| | |injection H1 as <-; reflexivity];
    destruct x; try discriminate; injection H1 as <-; reflexivity.
Qed.
Lemma pa_groups ic : forall f s n alts cur r t n', pa ic f s n alts cur = COk (r, t, n') ->
  n <= n' /\ ngroups r = ngroups_opt alts + ngroups cur + (n' - n).
Proof.
  induction f as [|f IH]; intros s n alts cur r t n' H; [discriminate|]. rewrite pa_step in *.
  assert (A : ngroups (alt_opt alts cur) = ngroups_opt alts + ngroups cur) by now destruct alts.
  assert (S1 : forall p t0, single_cont (pa ic f) alts cur n (Chr p) t0 = COk (r, t, n') ->
     n <= n' /\ ngroups r = ngroups_opt alts + ngroups cur + (n' - n)).
  { intros p t0 H1. unfold single_cont in *. apply cbind_ok in H1 as ([r1 t1] & Hq & H2).
    apply ngroups_quantified in Hq. apply IH in H2 as [H2 ->]. cbn [ngroups]. rewrite Hq. cbn. lia. }
  assert (S2 : forall t0, group_cont (pa ic f) alts cur (fun r => r) n t0 = COk (r, t, n') ->
     n <= n' /\ ngroups r = ngroups_opt alts + ngroups cur + (n' - n)).
  { intros t0 H1. unfold group_cont in *. apply cbind_ok in H1 as ([[r1 t1] n1] & H1 & H2).
    destruct t1 as [|? t1]; [discriminate|]. apply cbind_ok in H2 as ([r2 t2] & Hq & H2).
    apply ngroups_quantified in Hq. apply IH in H1 as [H1 E1]. apply IH in H2 as [H2 ->].
    cbn [ngroups ngroups_opt] in *. rewrite Hq, E1. lia. }
  assert (S3 : forall k t0, group_cont (pa ic f) alts cur (Grp k) (S n) t0 = COk (r, t, n') ->
     n <= n' /\ ngroups r = ngroups_opt alts + ngroups cur + (n' - n)).
  { intros k t0 H1. unfold group_cont in *. apply cbind_ok in H1 as ([[r1 t1] n1] & H1 & H2).
    destruct t1 as [|? t1]; [discriminate|]. apply cbind_ok in H2 as ([r2 t2] & Hq & H2).
    apply ngroups_quantified in Hq. apply IH in H1 as [H1 E1]. apply IH in H2 as [H2 ->].
    cbn [ngroups ngroups_opt] in *. rewrite Hq. lia. }
  destruct s as [|c u]; [injection H as <- <- <-; rewrite A; lia|].
  destruct (N.eqb c 41); [injection H as <- <- <-; rewrite A; lia|].
  destruct (N.eqb c 124).
  { apply IH in H as [H ->]. cbn [ngroups_opt ngroups]. rewrite A. lia. }
  destruct (N.eqb c 40).
  { destruct u as [|q t1]; [discriminate|]. destruct (N.eqb q 63); [|eapply S3, H].
    destruct t1 as [|b t2]; [discriminate|]. destruct (N.eqb b 58); [eapply S2, H|].
    destruct (N.eqb b 80); [|discriminate]. destruct t2 as [|d t3]; [discriminate|].
    destruct (N.eqb d 60); [|discriminate]. destruct (skip_name t3); [eapply S3, H|discriminate]. }
  destruct (N.eqb c 91).
  { apply cbind_ok in H as ([p t'] & _ & H). eapply S1, H. }
  destruct (N.eqb c 46); [eapply S1, H|].
  destruct (N.eqb c 92).
  { destruct u as [|d t']; [discriminate|]. apply cbind_ok in H as (i & _ & H). eapply S1, H. }
  destruct (N.eqb c 94); [apply IH in H as [H ->]; cbn; lia|].
  destruct (N.eqb c 36); [apply IH in H as [H ->]; cbn; lia|].
  destruct (_ || _ || _); [discriminate|]. destruct (_ && _); [discriminate|]. eapply S1, H.
Qed.

(** A pattern that compiles to [r], without capturing groups. *)
Definition compiles (ic : bool) (s : str) (r : re) : Prop := compile ic s = COk r /\ ngroups r = 0.
Lemma compiles_pa ic s r : compiles ic s r -> pa ic (S (length s)) s 0 None Eps = COk (r, [], 0).
Proof.
  intros [H Hg]. unfold compile in H. apply cbind_ok in H as ([[r' t] n] & H & E).
  destruct t; [|discriminate]. injection E as ->.
  pose proof (pa_groups _ _ _ _ _ _ _ _ _ H) as [_ G]. cbn in G. replace n with 0 in * by lia. exact H.
Qed.
Definition Dany (n0 : nat) (rs : list re) (s s' : str) : Prop := exists r, In r rs /\ D n0 r s s'.
Lemma join_alts ic ss rs : Forall2 (compiles ic) ss rs -> forall f x, 
  length (join_with ($"|") ss) < f -> ss <> [] ->
  exists r, pa ic f (join_with ($"|") ss) 0 (Some x) Eps = COk (r, [], 0) /\
    forall n0 s s', D n0 r s s' <-> D n0 x s s' \/ Dany n0 rs s s'.
Proof.
  induction 1 as [|s1 r1 ss rs H1 H2 IH]; intros f x L Hn; [easy|].
  apply compiles_pa in H1.
  assert (Hx : forall n0 s s', D n0 x s s' <-> D n0 x s s' \/ Dalts n0 None s s') by (intros; cbn; tauto).
  destruct (pa_alts ic x _ _ _ _ _ _ _ _ x Hx H1) as (r' & E & Hr').
  destruct ss as [|s2 ss].
  - inversion H2; subst. cbn [join_with] in *. exists r'. split.
    + eapply pa_fuel; [|exact E]. lia.
    + intros n0 s s'. rewrite Hr'. unfold Dany. split.
      * intros [H|H]; [now left|]. right. exists r1. split; [now left|exact H].
      * intros [H|(r & [<-|[]] & H)]; auto.
  - change (join_with ($"|") (s1 :: s2 :: ss)) with (s1 ++ bar (join_with ($"|") (s2 :: ss))) in *.
    rewrite app_length in L. cbn [length] in L.
    pose proof (pa_bar ic (join_with ($"|") (s2 :: ss)) _ _ _ _ _ _ E) as A.
    destruct A as [(? & ? & ? & _)|(_ & j & Lj & A)]; [discriminate|].
    rewrite A by lia.
    destruct (IH (f - j) r') as (r & Er & Hr); [lia|easy|].
    exists r. split; [exact Er|]. intros n0 s s'. rewrite Hr, Hr'. unfold Dany. split.
    + intros [[H|H]|(r0 & Hin & H)]; [now left| |].
      * right. exists r1. split; [now left|exact H].
      * right. exists r0. split; [now right|exact H].
    + intros [H|(r0 & [<-|Hin] & H)]; [tauto|tauto|]. right. eauto.
Qed.
Lemma compile_join ic ss rs : Forall2 (compiles ic) ss rs -> ss <> [] ->
  exists r, compile ic (join_with ($"|") ss) = COk r /\
    forall s, re_matches r s = existsb (fun r => re_matches r s) rs.
Proof.
  intros H Hn.
  assert (G : exists r, pa ic (S (length (join_with ($"|") ss))) (join_with ($"|") ss) 0 None Eps = COk (r, [], 0) /\
    forall n0 s s', D n0 r s s' <-> Dany n0 rs s s').
  { inversion H as [|s1 r1 ss' rs' H1 H2]; subst; [easy|]. apply compiles_pa in H1.
    destruct ss' as [|s2 ss'].
    - inversion H2; subst. cbn [join_with]. exists r1. split; [exact H1|].
      intros n0 s s'. split; [intros G; exists r1; split; [now left|exact G]|].
      intros (r & [<-|[]] & G). exact G.
    - change (join_with ($"|") (s1 :: s2 :: ss')) with (s1 ++ bar (join_with ($"|") (s2 :: ss'))).
      pose proof (pa_bar ic (join_with ($"|") (s2 :: ss')) _ _ _ _ _ _ H1) as A.
      destruct A as [(? & ? & ? & _)|(_ & j & Lj & A)]; [discriminate|].
      rewrite A by (rewrite app_length; lia).
      destruct (join_alts ic _ _ H2 (S (length (s1 ++ bar (join_with ($"|") (s2 :: ss')))) - j) r1) as (r & Er & Hr).
      + rewrite app_length. cbn [length]. lia.
      + easy.
      + exists r. split; [exact Er|]. intros n0 s s'. rewrite Hr. unfold Dany. split.
        * intros [G|(r0 & Hin & G)]; [exists r1; split; [now left|exact G]|exists r0; split; [now right|exact G]].
        * intros (r0 & [<-|Hin] & G); [now left|right; eauto]. }
  destruct G as (r & E & Hr). exists r. split.
  - unfold compile. now rewrite E.
  - intros s. apply eq_true_iff_eq. rewrite re_matches_iff, existsb_exists. split.
    + intros (s' & G). apply Hr in G as (r0 & Hin & G). exists r0. split; [exact Hin|]. apply re_matches_iff. eauto.
    + intros (r0 & Hin & G). apply re_matches_iff in G as (s' & G). exists s'. apply Hr. exists r0. auto.
Qed.
