(** Proofs about reading command templates. *)
From Coq Require Import List NArith ZArith Bool Lia.
From Verif Require Import Py Re TypeModel RegistryModel FieldModel TemplateModel TemplateSpec.
Import ListNotations.

(** * Every template is read in exactly one way *)
Lemma reads_total s : exists l, Reads s l.
Proof.
  induction s as [s IH] using (well_founded_induction (Wf_nat.well_founded_ltof _ (@length char))).
  destruct s as [|c s]; [exists []; constructor|].
  assert (L : forall t, length t < length (c :: s) -> exists l, Reads t l) by (intros t H; apply IH; exact H).
  destruct (N.eq_dec c OPEN) as [->|N1].
  - destruct (list_eq_dec N.eq_dec (firstn 1 s) [OPEN]) as [E|E].
    + destruct s as [|d s]; [discriminate|]. injection E as ->. destruct (L s) as [l H]; [cbn; lia|]. exists (PChar OPEN :: l). now constructor.
    + assert (E' : hd_error s <> Some OPEN) by (destruct s; [discriminate|]; intros [= ->]; now apply E).
      destruct (in_dec N.eq_dec CLOSE s) as [I|I].
      * assert (X : exists name t, s = name ++ CLOSE :: t /\ ~ In CLOSE name).
        { clear -I. induction s as [|d s IH]; [destruct I|]. destruct (N.eq_dec d CLOSE) as [->|Nd].
          - exists [], s. auto.
          - destruct IH as (name & t & -> & H); [destruct I; [contradiction|auto]|]. exists (d :: name), t. split; auto.
            intros [X|X]; [now apply Nd|auto]. }
        destruct X as (name & t & -> & H). destruct (L t) as [l R]; [cbn; rewrite app_length; cbn; lia|].
        exists (PHole name :: l). constructor; auto. intros X. apply E'. destruct name; [discriminate X|exact X].
      * destruct (L s) as [l R]; [cbn; lia|]. exists (PChar OPEN :: l). now apply reads_single_open.
  - destruct (N.eq_dec c CLOSE) as [->|N2].
    + destruct s as [|d s]; [exists [PChar CLOSE]; apply reads_single_close; [discriminate|constructor]|].
      destruct (N.eq_dec d CLOSE) as [->|Nd].
      * destruct (L s) as [l R]; [cbn; lia|]. exists (PChar CLOSE :: l). now constructor.
      * destruct (L (d :: s)) as [l R]; [cbn; lia|]. exists (PChar CLOSE :: l). apply reads_single_close; auto. cbn. congruence.
    + destruct (L s) as [l R]; [cbn; lia|]. exists (PChar c :: l). now apply reads_char.
Qed.
Lemma first_close name s name' s' : ~ In CLOSE name -> ~ In CLOSE name' -> name ++ CLOSE :: s = name' ++ CLOSE :: s' -> name = name' /\ s = s'.
Proof.
  revert name'. induction name as [|c name IH]; intros [|c' name'] H H' E; cbn [app] in E.
  - injection E as ->. auto.
  - exfalso. apply H'. injection E as <- _. now left.
  - exfalso. apply H. injection E as -> _. now left.
  - injection E as -> E. destruct (IH name') as [-> ->]; auto; intros X; [apply H|apply H']; now right.
Qed.
Lemma reads_unique s l : Reads s l -> forall l', Reads s l' -> l = l'.
Proof.
  induction 1 as [|s l H IH|s l H IH|name s l Hn Ho H IH|c s l N1 N2 H IH|s l E I H IH|s l E H IH]; intros l' K.
  - inversion K; reflexivity.
  - inversion K as [|? ? K'| |name ? ? Kn Ko K' E|? ? ? X|? ? X|]; subst.
    + f_equal. auto.
    + exfalso. destruct name as [|d name]; cbn in E; injection E as E1 E2; [discriminate E1|]. subst d. now apply Ko.
    + exfalso. now apply X.
    + exfalso. now apply X.
  - inversion K as [| |? ? K'| |? ? ? _ X| |? ? X]; subst; [f_equal; auto|now elim X|now elim X].
  - inversion K as [|? ? K' E| |name' ? ? Kn Ko K' E|? ? ? X|? ? X1 X2|]; subst.
    + exfalso. destruct name as [|d name]; cbn in E; injection E as E1 E2; [discriminate E1|]. subst d. now apply Ho.
    + destruct (first_close _ _ _ _ Kn Hn E) as [-> ->]. f_equal. auto.
    + exfalso. now apply X.
    + exfalso. apply X2. apply in_or_app. right. now left.
  - inversion K; subst; try contradiction. f_equal. auto.
  - inversion K as [|? ? K' E'| |name' ? ? Kn Ko K' E'|? ? ? X|? ? X1 X2|]; subst.
    + exfalso. now apply E.
    + exfalso. apply I. apply in_or_app. right. now left.
    + exfalso. now apply X.
    + f_equal. auto.
  - inversion K as [| |? ? K'| |? ? ? _ X| |? ? X]; subst; [now elim E|now elim X|f_equal; auto].
Qed.
Lemma reads_double s : Reads (double s) (map PChar s).
Proof.
  induction s as [|c s IH]; cbn [double map]; [constructor|].
  destruct (N.eqb_spec c OPEN) as [->|N1]; cbn [orb]; [now constructor|].
  destruct (N.eqb_spec c CLOSE) as [->|N2]; [now constructor|]. now constructor.
Qed.

(** * The regular expression *)
Definition ch (c : char) : cls := Cls false false [CChar c].
Definition notclose : cls := Cls false true [CChar CLOSE].
Lemma mem_ch c d : mem (ch c) d = N.eqb c d.
Proof. unfold ch. rewrite mem_pos. unfold items_mem. cbn [existsb item_mem]. now rewrite orb_false_r. Qed.
Lemma mem_notclose d : mem notclose d = negb (N.eqb CLOSE d).
Proof. unfold notclose. rewrite mem_neg. unfold items_mem. cbn [existsb item_mem]. now rewrite orb_false_r. Qed.
Lemma placeholder_eq : placeholder_re = Cat Eps (Grp 1 (Alt (Alt (Cat (Cat Eps (Chr (ch OPEN))) (Chr (ch OPEN))) (Cat (Cat Eps (Chr (ch CLOSE))) (Chr (ch CLOSE))))
  (Cat (Cat (Cat Eps (Chr (ch OPEN))) (Star true notclose)) (Chr (ch CLOSE))))).
Proof. reflexivity. Qed.
Definition K (s : str) (cs : caps) : option (str * caps) := Some (s, cs).

Lemma match_open n0 s : exists cs, m n0 placeholder_re (OPEN :: OPEN :: s) [] K = Some (s, cs).
Proof.
  rewrite placeholder_eq. cbn [m]. rewrite !mem_ch. change (N.eqb OPEN OPEN) with true. cbn [orelse]. unfold K at 1. cbn [orelse]. eauto.
Qed.
Lemma match_close n0 s : exists cs, m n0 placeholder_re (CLOSE :: CLOSE :: s) [] K = Some (s, cs).
Proof.
  rewrite placeholder_eq. cbn [m]. rewrite !mem_ch. change (N.eqb CLOSE CLOSE) with true. change (N.eqb OPEN CLOSE) with false. cbn [orelse]. unfold K at 1. cbn [orelse]. eauto.
Qed.
Lemma match_hole n0 name s : ~ In CLOSE name -> hd_error name <> Some OPEN ->
  exists cs, m n0 placeholder_re (OPEN :: name ++ CLOSE :: s) [] K = Some (s, cs).
Proof.
  intros Hn Ho. rewrite placeholder_eq. cbn [m].
  rewrite !mem_ch. change (N.eqb OPEN OPEN) with true. change (N.eqb CLOSE OPEN) with false.
  match goal with |- exists cs, orelse (orelse ?x _) ?y = _ => assert (X : x = None) end.
  { destruct name as [|c name]; cbn [app]; rewrite mem_ch; [reflexivity|].
    destruct (N.eqb_spec OPEN c) as [<-|]; [now elim Ho|reflexivity]. }
  rewrite X. cbn [orelse]. eexists. apply star_g_run.
  - rewrite forallb_forall. intros c Hc. rewrite mem_notclose. apply negb_true_iff. apply N.eqb_neq. intros <-. contradiction.
  - cbn [stops]. reflexivity.
  - rewrite mem_ch. change (N.eqb CLOSE CLOSE) with true. reflexivity.
Qed.
Lemma match_none_char n0 c s : c <> OPEN -> c <> CLOSE -> m n0 placeholder_re (c :: s) [] K = None.
Proof.
  intros N1 N2. rewrite placeholder_eq. cbn [m]. rewrite !mem_ch.
  rewrite (proj2 (N.eqb_neq OPEN c)) by congruence. rewrite (proj2 (N.eqb_neq CLOSE c)) by congruence. reflexivity.
Qed.
Lemma match_none_close n0 s : hd_error s <> Some CLOSE -> m n0 placeholder_re (CLOSE :: s) [] K = None.
Proof.
  intros E. rewrite placeholder_eq. cbn [m]. rewrite !mem_ch. change (N.eqb OPEN CLOSE) with false. change (N.eqb CLOSE CLOSE) with true. cbn [orelse].
  destruct s as [|c s]; [reflexivity|]. rewrite mem_ch. destruct (N.eqb_spec CLOSE c) as [<-|]; [now elim E|reflexivity].
Qed.
Lemma match_none_open n0 s : hd_error s <> Some OPEN -> ~ In CLOSE s -> m n0 placeholder_re (OPEN :: s) [] K = None.
Proof.
  intros E I. rewrite placeholder_eq. cbn [m]. rewrite !mem_ch. change (N.eqb OPEN OPEN) with true. change (N.eqb CLOSE OPEN) with false.
  match goal with |- orelse (orelse ?x _) ?y = None => assert (X : x = None); [|assert (Y : y = None); [|rewrite X, Y; reflexivity]] end.
  - destruct s as [|c s]; [reflexivity|]. rewrite mem_ch. destruct (N.eqb_spec OPEN c) as [<-|]; [now elim E|reflexivity].
  - apply star_g_none. intros a b -> _. destruct b as [|c b]; [reflexivity|]. rewrite mem_ch.
    destruct (N.eqb_spec CLOSE c) as [<-|]; [|reflexivity]. exfalso. apply I. apply in_or_app. right. now left.
Qed.

(** * Splitting *)
Definition sp (n0 fuel : nat) (sk s : str) : list str :=
  let '(l, t) := scan_from n0 fuel placeholder_re sk s in split_list l t.
Lemma sp_skip n0 fuel sk c s : m n0 placeholder_re (c :: s) [] K = None -> sp n0 (S fuel) sk (c :: s) = sp n0 fuel (c :: sk) s.
Proof. intros E. unfold sp. cbn [scan_from]. unfold K in E. now rewrite E. Qed.
Lemma sp_match n0 fuel sk a s cs : a <> [] -> m n0 placeholder_re (a ++ s) [] K = Some (s, cs) -> sp n0 (S fuel) sk (a ++ s) = rev sk :: a :: sp n0 fuel [] s.
Proof.
  intros Na E. unfold sp. destruct a as [|c a]; [easy|]. cbn [app scan_from]. unfold K in E. cbn [app] in E. rewrite E.
  change (c :: a ++ s) with ((c :: a) ++ s). rewrite (proj2 (Nat.ltb_lt _ _)) by (rewrite app_length; cbn; lia).
  destruct (scan_from n0 fuel placeholder_re [] s). unfold str, char in *. now rewrite firstn_sub.
Qed.
Lemma sp_end n0 fuel sk : sp n0 fuel sk [] = [rev sk].
Proof. destruct fuel; cbn; [|reflexivity]. unfold sp. cbn. now rewrite app_nil_r. Qed.

(** * Replacing *)
Section Replace.
  Variable registered : list plugin.
  Variable init_plugin : str -> res unit.
  Notation replace := (replace registered init_plugin).
  Notation make := (make_field registered init_plugin).
  Notation slot := (slot registered init_plugin).

  Lemma names_fun h a b : Names h a -> Names h b -> a = b.
  Proof.
    intros H H'. destruct H; inversion H'; subst; auto;
      repeat match goal with X : ~ In _ _ |- _ => exfalso; apply X; cbn [In]; tauto end.
  Qed.
  Lemma names_total h : exists name, Names h name.
  Proof.
    destruct (in_dec (list_eq_dec N.eq_dec) h [[]; $"/"; $"//"; $"."; $"/."; $".."]) as [I|I]; [|exists h; now constructor].
    cbn [In] in I. repeat (destruct I as [<-|I]; [eexists; constructor|]). destruct I.
  Qed.
  Lemma slot_fun h f g : slot h f -> slot h g -> f = g.
  Proof. intros (a & Na & Ea) (b & Nb & Eb). assert (a = b) by (eapply names_fun; eauto). congruence. Qed.

  Lemma slice_inner name : slice (OPEN :: name ++ [CLOSE]) (Some 1%Z) (Some (-1)%Z) = name.
  Proof.
    unfold slice. cbn [length]. rewrite app_length. cbn [length]. unfold slice_bound.
    replace (Z.of_nat (S (length name + 1))) with (Z.of_nat (length name) + 2)%Z by lia.
    change (1 <? 0)%Z with false. change (-1 <? 0)%Z with true. cbn [andb].
    rewrite Z.min_l by lia. rewrite Z.max_r by lia.
    replace (Z.to_nat (-1 + (Z.of_nat (length name) + 2) - 1)) with (length name) by lia. change (Z.to_nat 1) with 1%nat. cbn [skipn].
    unfold str, char in *. rewrite firstn_app. replace (length name - length name) with 0%nat by lia. rewrite firstn_all. apply app_nil_r.
  Qed.
  Lemma replace_hole h : ~ In CLOSE h -> hd_error h <> Some OPEN -> forall name, Names h name ->
    replace (OPEN :: h ++ [CLOSE]) = do f <- make name; Ok (Slot f).
  Proof.
    intros Hc Ho name Hn. destruct Hn as [| | | | | |name Hn]; try reflexivity.
    unfold TemplateModel.replace.
    assert (NE : forall x, str_eqb (OPEN :: name ++ [CLOSE]) (OPEN :: x ++ [CLOSE]) = true -> name = x).
    { intros x E. apply str_eqb_eq in E. injection E as E. now apply app_inj_tail in E. }
    assert (D : forall x, In x [[]; $"/"; $"//"; $"."; $"/."; $".."] -> str_eqb (OPEN :: name ++ [CLOSE]) (OPEN :: x ++ [CLOSE]) = false).
    { intros x Ix. apply not_true_is_false. intros E. apply NE in E. now subst. }
    replace (str_eqb (OPEN :: name ++ [CLOSE]) ($"{{")) with false.
    2: { symmetry. apply str_eqb_neq. intros E. injection E as E. destruct name as [|c [|d name]]; cbn in E; try discriminate. }
    replace (str_eqb (OPEN :: name ++ [CLOSE]) ($"}}")) with false by reflexivity.
    change ($"{}") with (OPEN :: [] ++ [CLOSE]). change ($"{/}") with (OPEN :: ($"/") ++ [CLOSE]). change ($"{//}") with (OPEN :: ($"//") ++ [CLOSE]).
    change ($"{.}") with (OPEN :: ($".") ++ [CLOSE]). change ($"{/.}") with (OPEN :: ($"/.") ++ [CLOSE]). change ($"{..}") with (OPEN :: ($"..") ++ [CLOSE]).
    rewrite !D by (cbn [In]; tauto).
    change 123%N with OPEN. change 125%N with CLOSE. replace (starts_with_c OPEN (OPEN :: name ++ [CLOSE])) with true by reflexivity.
    replace (ends_with_c CLOSE (OPEN :: name ++ [CLOSE])) with true.
    2: { unfold ends_with_c. cbn [rev]. rewrite rev_app_distr. reflexivity. }
    cbn [andb]. now rewrite slice_inner.
  Qed.
  Lemma replace_text w : w <> [OPEN; OPEN] -> w <> [CLOSE; CLOSE] -> (hd_error w = Some OPEN -> ~ In CLOSE w) -> replace w = Ok (Text w).
  Proof.
    intros H1 H2 H3. unfold TemplateModel.replace.
    assert (D : forall x, str_eqb w (OPEN :: x ++ [CLOSE]) = false).
    { intros x. apply str_eqb_neq. intros ->. apply H3; [reflexivity|]. right. apply in_or_app. right. now left. }
    rewrite (proj2 (str_eqb_neq w ($"{{"))) by exact H1. rewrite (proj2 (str_eqb_neq w ($"}}"))) by exact H2.
    change ($"{}") with (OPEN :: [] ++ [CLOSE]). change ($"{/}") with (OPEN :: ($"/") ++ [CLOSE]). change ($"{//}") with (OPEN :: ($"//") ++ [CLOSE]).
    change ($"{.}") with (OPEN :: ($".") ++ [CLOSE]). change ($"{/.}") with (OPEN :: ($"/.") ++ [CLOSE]). change ($"{..}") with (OPEN :: ($"..") ++ [CLOSE]).
    rewrite !D. change 123%N with OPEN. change 125%N with CLOSE. destruct (starts_with_c OPEN w) eqn:S; cbn [andb]; [|reflexivity].
    replace (ends_with_c CLOSE w) with false; [reflexivity|]. symmetry. apply not_true_is_false. intros E.
    apply H3.
    - destruct w as [|c w]; [discriminate|]. cbn [starts_with_c] in S. apply N.eqb_eq in S. now subst.
    - unfold ends_with_c in E. apply in_rev. destruct (rev w) as [|c r]; [discriminate|]. apply N.eqb_eq in E. left. exact E.
  Qed.

  (** parts are pieces *)
  Inductive Flat : list part -> list piece -> Prop :=
  | flat_end : Flat [] []
  | flat_text s ps l : Flat ps l -> Flat (Text s :: ps) (map PChar s ++ l)
  | flat_slot h f ps l : slot h f -> Flat ps l -> Flat (Slot f :: ps) (PHole h :: l).
  (** literal text that has been skipped and the text that follows *)
  Definition literal (w s : str) : Prop :=
    w <> [OPEN; OPEN] /\ w <> [CLOSE; CLOSE] /\ (hd_error w = Some OPEN -> ~ In CLOSE (w ++ s)) /\
    (w = [OPEN] -> hd_error s <> Some OPEN) /\ (w = [CLOSE] -> hd_error s <> Some CLOSE).
  Lemma literal_nil s : literal [] s.
  Proof. repeat split; discriminate. Qed.
  Lemma literal_text w s : literal w s -> replace w = Ok (Text w).
  Proof. intros (H1 & H2 & H3 & _). apply replace_text; auto. intros E I. apply (H3 E). apply in_or_app. now left. Qed.
  Lemma literal_snoc w c s : literal w (c :: s) -> (c = OPEN -> hd_error s <> Some OPEN /\ ~ In CLOSE s) -> (c = CLOSE -> hd_error s <> Some CLOSE) ->
    literal (w ++ [c]) s.
  Proof.
    intros (H1 & H2 & H3 & H4 & H5) HO HC. split; [|split; [|split; [|split]]].
    - intros E. destruct w as [|a [|b w]]; try discriminate; injection E as -> ->; [now apply H4|]. destruct w; discriminate.
    - intros E. destruct w as [|a [|b w]]; try discriminate; injection E as -> ->; [now apply H5|]. destruct w; discriminate.
    - destruct w as [|a w].
      + cbn [app hd_error]. intros [= ->]. destruct (HO eq_refl) as [_ I]. intros [X|X]; [discriminate X|auto].
      + cbn [hd_error app]. intros [= ->]. rewrite <- app_assoc. apply (H3 eq_refl).
    - intros E. destruct w as [|a [|b w]]; try discriminate. injection E as ->. now apply HO.
    - intros E. destruct w as [|a [|b w]]; try discriminate. injection E as ->. now apply HC.
  Qed.

  (** the words of a split template and the pieces *)
  Inductive Words : list str -> list piece -> Prop :=
  | words_end : Words [] []
  | words_text w t ws l : replace w = Ok (Text t) -> Words ws l -> Words (w :: ws) (map PChar t ++ l)
  | words_hole w h ws l : (forall name, Names h name -> replace w = do f <- make name; Ok (Slot f)) -> Words ws l ->
      Words (w :: ws) (PHole h :: l).
  Lemma words_nonempty w s ws l : literal w s -> Words (filter nonempty ws) l -> Words (filter nonempty (w :: ws)) (map PChar w ++ l).
  Proof.
    intros L W. destruct w as [|c w]; [exact W|]. cbn [filter nonempty]. constructor; [now apply literal_text in L|exact W].
  Qed.
  Lemma reads_words s l : Reads s l -> forall n0 fuel sk, length s <= fuel -> literal (rev sk) s ->
    Words (filter nonempty (sp n0 fuel sk s)) (map PChar (rev sk) ++ l).
  Proof.
    induction 1 as [|s l H IH|s l H IH|name s l Hn Ho H IH|c s l N1 N2 H IH|s l E I H IH|s l E H IH]; intros n0 fuel sk L LI.
    - rewrite sp_end. apply (words_nonempty _ [] [] []); auto. constructor.
    - destruct fuel as [|fuel]; [cbn in L; lia|]. destruct (match_open n0 s) as [cs M].
      change (OPEN :: OPEN :: s) with ([OPEN; OPEN] ++ s). rewrite (sp_match n0 fuel sk [OPEN; OPEN] s cs); [|discriminate|exact M].
      eapply words_nonempty; [exact LI|]. cbn [filter nonempty]. apply (words_text _ [OPEN]); [reflexivity|].
      apply (IH n0 fuel []); [cbn in L; lia|apply literal_nil].
    - destruct fuel as [|fuel]; [cbn in L; lia|]. destruct (match_close n0 s) as [cs M].
      change (CLOSE :: CLOSE :: s) with ([CLOSE; CLOSE] ++ s). rewrite (sp_match n0 fuel sk [CLOSE; CLOSE] s cs); [|discriminate|exact M].
      eapply words_nonempty; [exact LI|]. cbn [filter nonempty]. apply (words_text _ [CLOSE]); [reflexivity|].
      apply (IH n0 fuel []); [cbn in L; lia|apply literal_nil].
    - destruct fuel as [|fuel]; [cbn in L; lia|]. destruct (match_hole n0 name s Hn Ho) as [cs M].
      assert (ES : OPEN :: name ++ CLOSE :: s = (OPEN :: name ++ [CLOSE]) ++ s) by (cbn [app]; now rewrite <- app_assoc).
      rewrite ES in *. rewrite (sp_match n0 fuel sk (OPEN :: name ++ [CLOSE]) s cs); [|discriminate|exact M].
      eapply words_nonempty; [exact LI|]. cbn [filter nonempty]. apply words_hole; [intros nm Nm; now apply replace_hole|].
      apply (IH n0 fuel []); [cbn in L; rewrite !app_length in L; cbn in L; lia|apply literal_nil].
    - destruct fuel as [|fuel]; [cbn in L; lia|]. rewrite sp_skip by now apply match_none_char.
      specialize (IH n0 fuel (c :: sk)). cbn [rev] in IH. rewrite map_app, <- app_assoc in IH. apply IH; [cbn in L; lia|].
      apply literal_snoc; auto; intros X; contradiction.
    - destruct fuel as [|fuel]; [cbn in L; lia|]. rewrite sp_skip by now apply match_none_open.
      specialize (IH n0 fuel (OPEN :: sk)). cbn [rev] in IH. rewrite map_app, <- app_assoc in IH. apply IH; [cbn in L; lia|].
      apply literal_snoc; auto. intros X; discriminate X.
    - destruct fuel as [|fuel]; [cbn in L; lia|]. rewrite sp_skip by now apply match_none_close.
      specialize (IH n0 fuel (CLOSE :: sk)). cbn [rev] in IH. rewrite map_app, <- app_assoc in IH. apply IH; [cbn in L; lia|].
      apply literal_snoc; auto. intros X; discriminate X.
  Qed.

  Notation holes_ok := (holes_ok registered init_plugin).
  Notation bad_hole := (bad_hole registered init_plugin).
  Lemma in_hole_text h t l : In (PHole h) (map PChar t ++ l) <-> In (PHole h) l.
  Proof.
    rewrite in_app_iff, in_map_iff. split; [intros [(c & X & _)|X]; [discriminate|exact X]|auto].
  Qed.
  Lemma words_parts ws l : Words ws l ->
    (exists ps, mapr replace ws = Ok ps /\ Flat ps l /\ holes_ok l) \/ (exists e, mapr replace ws = Err e /\ bad_hole l e).
  Proof.
    induction 1 as [|w t ws l E W IH|w h ws l E W IH].
    - left. exists []. repeat split; [constructor|intros h []].
    - cbn [mapr]. rewrite E. cbn [bindr]. destruct IH as [(ps & -> & F & H)|(e & -> & h & name & I & H)]; cbn [bindr].
      + left. eexists. split; [reflexivity|]. split; [now constructor|]. intros h I. apply H. now apply in_hole_text in I.
      + right. exists e. split; auto. exists h, name. rewrite in_hole_text. auto.
    - cbn [mapr]. destruct (names_total h) as [name Hn]. rewrite (E name Hn).
      destruct (make name) as [f|e] eqn:M; cbn [bindr].
      + destruct IH as [(ps & -> & F & H)|(e & -> & h' & name' & I & H)]; cbn [bindr].
        * left. eexists. split; [reflexivity|]. assert (S : slot h f) by (exists name; auto). split; [now constructor|].
          intros h' [[= ->]|I]; eauto.
        * right. exists e. split; auto. exists h', name'. split; [now right|auto].
      + right. exists e. split; auto. exists h, name. split; [now left|auto].
  Qed.
  Lemma holes_bad l e : holes_ok l -> bad_hole l e -> False.
  Proof.
    intros H (h & name & I & N & M). destruct (H h I) as (f & name' & N' & M').
    rewrite (names_fun h name name' N N') in M. congruence.
  Qed.
  Lemma argument_parts s l : Reads s l ->
    (exists ps, store_argument registered init_plugin s = Ok ps /\ Flat ps l /\ holes_ok l) \/
    (exists e, store_argument registered init_plugin s = Err e /\ bad_hole l e).
  Proof.
    intros R. apply words_parts. apply (reads_words s l R (length s) (length s) []); auto. apply literal_nil.
  Qed.
  Lemma arguments_parts ts ls : Forall2 Reads ts ls ->
    (exists fs, mapr (store_argument registered init_plugin) ts = Ok fs /\ Forall2 Flat fs ls /\ Forall holes_ok ls) \/
    (exists e, mapr (store_argument registered init_plugin) ts = Err e /\ Exists (fun l => bad_hole l e) ls).
  Proof.
    induction 1 as [|s l ts ls R H IH]; cbn [mapr].
    - left. exists []. auto.
    - destruct (argument_parts s l R) as [(ps & -> & F & O)|(e & -> & B)]; cbn [bindr]; [|right; exists e; auto].
      destruct IH as [(fs & -> & Fs & Os)|(e & -> & B)]; cbn [bindr]; [left|right; exists e; auto].
      eexists. split; [reflexivity|]. auto.
  Qed.
  Lemma flat_holes ps l : Flat ps l -> existsb is_slot ps = true <-> has_hole l.
  Proof.
    induction 1 as [|s ps l F IH|h f ps l S F IH]; cbn [existsb is_slot orb].
    - split; [discriminate|intros (h & [])].
    - rewrite IH. unfold has_hole. split; intros [h H]; exists h; now apply in_hole_text in H || apply in_hole_text.
    - split; auto. intros _. exists h. now left.
  Qed.
  Lemma flats_holes fs ls : Forall2 Flat fs ls -> existsb is_slot (concat fs) = true <-> exists l, In l ls /\ has_hole l.
  Proof.
    induction 1 as [|ps l fs ls F H IH]; cbn [concat].
    - split; [discriminate|intros (l & [] & _)].
    - rewrite existsb_app, orb_true_iff, IH, (flat_holes ps l F). split.
      + intros [X|(l' & I & X)]; [exists l|exists l']; cbn [In]; auto.
      + intros (l' & [<-|I] & X); [now left|right; eauto].
  Qed.
  Lemma store_parts ts ls : Forall2 Reads ts ls -> (exists f, slot [] f) ->
    (exists fs full, store registered init_plugin ts = Ok fs /\ Forall2 Flat fs full /\ with_path ls full /\ Forall holes_ok full) \/
    (exists e, store registered init_plugin ts = Err e /\ Exists (fun l => bad_hole l e) ls).
  Proof.
    intros R (f0 & nm & N0 & M0). assert (nm = $"file.path") by (eapply names_fun; [exact N0|constructor]). subst nm.
    unfold store. destruct (arguments_parts ts ls R) as [(fs & -> & F & O)|(e & -> & B)]; cbn [bindr]; [left|right; eauto].
    assert (T : existsb is_slot (concat (tl fs)) = true <-> exists l, In l (tl ls) /\ has_hole l).
    { apply flats_holes. destruct F; [constructor|auto]. }
    destruct (existsb is_slot (concat (tl fs))).
    - exists fs, ls. split; auto. split; auto. split; auto. left. split; auto. now apply T.
    - rewrite M0. cbn [bindr]. assert (S0 : slot [] f0) by (eexists; eauto). exists (fs ++ [[Slot f0]]), (ls ++ [[PHole []]]).
      split; auto. split; [|split].
      + apply Forall2_app; auto. constructor; [|constructor]. constructor; [auto|constructor].
      + right. split; auto. intros l I H. assert (X : false = true) by (apply T; eauto). discriminate X.
      + apply Forall_app. split; auto. constructor; auto. intros h [[= <-]|[]]. eauto.
  Qed.
  Lemma with_path_fun ls a b : with_path ls a -> with_path ls b -> a = b.
  Proof. intros [[(l & I & H) ->]|[H ->]] [[(l' & I' & H') ->]|[H' ->]]; auto; exfalso; [eapply H'|eapply H]; eauto. Qed.

  (** * Rendering *)
  Section Rendering.
    Context {A : Type}.
    Variable get : A -> str * str -> res value.
    Variable human : ty -> Z -> str.
    Variable all : bool.
    Notation Shows := (Shows get human all).
    Notation Lacks := (Lacks get all).
    Notation Expands := (Expands get human all slot).
    Notation Fails := (Fails get all slot).
    Notation Picks := (Picks get human all slot).
    Notation Batch := (Batch get human all slot).
    Notation render_part := (render_part get human all).
    Notation render_argument := (render_argument get human all).

    Lemma has_modifier_n f : has_modifier f ($"n") = true <-> f_modifier f = Some ($"n").
    Proof.
      unfold has_modifier. destruct (f_modifier f) as [d|]; [|split; discriminate].
      rewrite str_eqb_eq. split; [intros ->; reflexivity|now intros [= ->]].
    Qed.
    Lemma render_part_ok e f s : render_part e (Slot f) = Ok s <-> Shows e f s.
    Proof.
      cbn [TemplateModel.render_part]. split.
      - destruct (get e (f_attribute f)) as [v|[]] eqn:G; try discriminate; intros E.
        + now apply shows_value with v.
        + destruct (all || has_modifier f ($"n")) eqn:O; [|discriminate]. injection E as <-. apply shows_nothing; auto.
          apply orb_true_iff in O. rewrite has_modifier_n in O. exact O.
      - intros [v t G O|G O]; rewrite G; [exact O|]. rewrite <- has_modifier_n, <- orb_true_iff in O. now rewrite O.
    Qed.
    Lemma expands_text e t l s : Expands e (map PChar t ++ l) s <-> exists s', s = t ++ s' /\ Expands e l s'.
    Proof.
      revert s. induction t as [|c t IH]; intros s; cbn [map app].
      - split; [eauto|]. now intros (s' & -> & H).
      - split.
        + intros H. inversion H as [|c' l' s1 H1|]; subst. apply IH in H1 as (s' & -> & H1). exists s'. auto.
        + intros (s' & -> & H). cbn [app]. constructor. apply IH. eauto.
    Qed.
    Lemma render_ok ps l e s : Flat ps l -> render_argument ps e = Ok s <-> Expands e l s.
    Proof.
      intros F. unfold TemplateModel.render_argument. transitivity (exists ls, mapr (render_part e) ps = Ok ls /\ s = concat ls).
      - destruct (mapr (render_part e) ps) as [ls|x]; cbn [bindr]; split; try discriminate.
        + intros [= <-]. eauto.
        + intros (ls' & [= <-] & ->). reflexivity.
        + intros (ls' & X & _). discriminate X.
      - revert s. induction F as [|t ps l F IH|h f ps l S F IH]; intros s; cbn [mapr].
        + split; [intros (ls & [= <-] & ->); constructor|]. intros H. inversion H. exists []. auto.
        + rewrite expands_text. cbn [TemplateModel.render_part bindr]. split.
          * intros (ls & E & ->). destruct (mapr (render_part e) ps) as [ls'|]; [|discriminate]. cbn [bindr] in E. injection E as <-.
            exists (concat ls'). split; auto. apply IH. eauto.
          * intros (s' & -> & H). apply IH in H as (ls & -> & ->). cbn [bindr]. eexists. split; [reflexivity|]. reflexivity.
        + split.
          * intros (ls & E & ->). destruct (render_part e (Slot f)) as [t|] eqn:R; [|discriminate]. cbn [bindr] in E.
            destruct (mapr (render_part e) ps) as [ls'|]; [|discriminate]. cbn [bindr] in E. injection E as <-.
            cbn [concat]. apply (expands_hole get human all slot e h f); auto; [now apply render_part_ok|]. apply IH. eauto.
          * intros H. inversion H as [| |h' f' l' t s' S' Sh H']; subst. assert (f' = f) by (eapply slot_fun; eauto). subst f'.
            apply render_part_ok in Sh. rewrite Sh. apply IH in H' as (ls & -> & ->). cbn [bindr]. eexists. split; reflexivity.
    Qed.
    Lemma shows_lacks e f s : Shows e f s -> Lacks e f -> False.
    Proof. intros [v t G O|G [O|O]] (G' & N1 & N2); congruence. Qed.
    Lemma expands_fails e l s : Expands e l s -> Fails e l -> False.
    Proof.
      induction 1 as [|c l s H IH|h f l t s S Sh H IH]; intros (h' & f' & I & S' & La).
      - destruct I.
      - destruct I as [X|I]; [discriminate|]. apply IH. exists h', f'. auto.
      - destruct I as [[= ->]|I]; [|apply IH; exists h', f'; auto]. rewrite (slot_fun h' f' f S' S) in La. eapply shows_lacks; eauto.
    Qed.

    Lemma output_conforms t md v : conforms t v = true -> exists s, output human t md v = Ok s.
    Proof. destruct t, v; cbn; try discriminate; eauto. Qed.
    Hypothesis T : typed registered init_plugin get.
    Lemma render_part_tame e h f : slot h f -> (exists s, render_part e (Slot f) = Ok s) \/ (render_part e (Slot f) = Err KeyErr /\ Lacks e f).
    Proof.
      intros S. cbn [TemplateModel.render_part]. destruct (T e h f S) as [G|(v & G & C)]; rewrite G.
      - destruct (all || has_modifier f ($"n")) eqn:O; [left; eauto|right]. split; auto. apply orb_false_iff in O as [-> O].
        split; auto. split; auto. rewrite <- has_modifier_n. now rewrite O.
      - left. now apply output_conforms.
    Qed.
    Lemma render_tame ps l e : Flat ps l -> (exists s, render_argument ps e = Ok s /\ Expands e l s) \/ (render_argument ps e = Err KeyErr /\ Fails e l).
    Proof.
      intros F. assert (X : (exists ls, mapr (render_part e) ps = Ok ls) \/ (mapr (render_part e) ps = Err KeyErr /\ Fails e l)).
      { induction F as [|t ps l F IH|h f ps l S F IH]; cbn [mapr].
        - left. eauto.
        - cbn [TemplateModel.render_part bindr]. destruct IH as [(ls & ->)|(-> & h & f & I & L)]; cbn [bindr]; [left; eauto|right].
          split; auto. exists h, f. rewrite in_hole_text. auto.
        - destruct (render_part_tame e h f S) as [(s & ->)|(-> & L)]; cbn [bindr].
          + destruct IH as [(ls & ->)|(-> & h' & f' & I & L)]; cbn [bindr]; [left; eauto|right].
            split; auto. exists h', f'. split; [now right|auto].
          + right. split; auto. exists h, f. split; [now left|auto]. }
      destruct X as [(ls & E)|(E & H)].
      - left. exists (concat ls). assert (R : render_argument ps e = Ok (concat ls)) by (unfold TemplateModel.render_argument; now rewrite E).
        split; auto. now apply (render_ok ps l e _ F).
      - right. split; auto. unfold TemplateModel.render_argument. now rewrite E.
    Qed.

    Lemma flat_text_only ps l : Flat ps l -> existsb is_slot ps = false -> exists s, join_parts ps = Ok s /\ l = map PChar s.
    Proof.
      unfold join_parts. induction 1 as [|t ps l F IH|h f ps l S F IH]; cbn [existsb is_slot orb]; intros E; [exists []; auto| |discriminate].
      destruct (IH E) as (s & J & ->). cbn [mapr bindr]. destruct (mapr _ ps) as [ls|]; [|discriminate]. cbn [bindr concat] in J |- *.
      injection J as <-. exists (t ++ concat ls). now rewrite map_app.
    Qed.
    Lemma map_pchar_inj s t : map PChar s = map PChar t -> s = t.
    Proof.
      revert t. induction s as [|c s IH]; intros [|d t]; try discriminate; [auto|]. cbn [map]. intros E. injection E as -> E. now rewrite (IH t).
    Qed.
    Lemma expands_chars e s t : Expands e (map PChar s) t <-> t = s.
    Proof.
      rewrite <- (app_nil_r (map PChar s)), expands_text. split.
      - intros (s' & -> & H). inversion H. apply app_nil_r.
      - intros ->. exists []. rewrite app_nil_r. split; [auto|constructor].
    Qed.
    Lemma chars_no_hole s : ~ has_hole (map PChar s).
    Proof. intros (h & H). apply in_map_iff in H as (c & X & _). discriminate X. Qed.

    (** one call *)
    Lemma exec_arguments fs full e : Forall2 Flat fs full ->
      (exists args, render_exec get human all fs e = Ok args /\ Forall2 (Expands e) full args) \/
      (render_exec get human all fs e = Err KeyErr /\ Exists (Fails e) full).
    Proof.
      unfold render_exec, render_fields. induction 1 as [|ps l fs full F H IH]; cbn [mapr].
      - left. exists []. auto.
      - assert (X : (exists s, render_subfields get human all false [e] ps = Ok [s] /\ Expands e l s) \/
                    (render_subfields get human all false [e] ps = Err KeyErr /\ Fails e l)).
        { unfold render_subfields. destruct (existsb is_slot ps) eqn:S.
          - cbn [render_entries]. destruct (render_tame ps l e F) as [(s & -> & Ex)|(-> & Fa)]; cbn [bindr]; eauto.
          - destruct (flat_text_only ps l F S) as (s & -> & ->). left. exists s. split; auto. now apply expands_chars. }
        destruct X as [(s & -> & Ex)|(-> & Fa)]; cbn [bindr]; [|right; auto].
        destruct (mapr (render_subfields get human all false [e]) fs) as [ls|x]; cbn [bindr] in IH |- *.
        + left. destruct IH as [(args & [= <-] & Hs)|(X & _)]; [|discriminate]. eexists. split; [reflexivity|]. cbn [concat app]. auto.
        + right. destruct IH as [(args & X & _)|([= ->] & Hs)]; [discriminate|]. auto.
    Qed.
    Lemma picks_tame ps l entries : Flat ps l -> exists out, render_entries get human all true ps entries = Ok out /\ Picks l entries out.
    Proof.
      intros F. induction entries as [|e entries (out & IH & P)]; cbn [render_entries]; [exists []; split; [auto|constructor]|].
      destruct (render_tame ps l e F) as [(s & -> & Ex)|(-> & Fa)].
      - rewrite IH. cbn [bindr]. eexists. split; [reflexivity|]. now constructor.
      - exists out. split; auto. now constructor.
    Qed.
    Lemma picks_fun l entries out : Picks l entries out -> forall out', Picks l entries out' -> out = out'.
    Proof.
      induction 1 as [|e entries s out Ex P IH|e entries out Fa P IH]; intros out' P'; inversion P' as [|? ? s' out1 Ex' P1|? ? ? Fa' P1]; subst; auto.
      - f_equal; [|auto]. clear -Ex Ex'. revert s' Ex'. induction Ex as [|c l s H IH|h f l t s S Sh H IH]; intros s' Ex'.
        + now inversion Ex'.
        + inversion Ex'; subst. f_equal. auto.
        + inversion Ex' as [| |h' f' l' t' s1 S' Sh' H']; subst. rewrite (slot_fun h f' f S' S) in Sh'.
          apply render_part_ok in Sh. apply render_part_ok in Sh'. f_equal; [congruence|auto].
      - exfalso. eapply expands_fails; eauto.
      - exfalso. eapply expands_fails; eauto.
    Qed.
    (** one call for several results *)
    Lemma batch_arguments fs full entries : Forall2 Flat fs full ->
      exists outs, render_fields get human all fs entries true = Ok (concat outs) /\ Forall2 (Batch entries) full outs.
    Proof.
      unfold render_fields. induction 1 as [|ps l fs full F H (outs & IH & B)]; cbn [mapr].
      - exists []. auto.
      - assert (X : exists out, render_subfields get human all true entries ps = Ok out /\ Batch entries l out).
        { unfold render_subfields. destruct (existsb is_slot ps) eqn:S.
          - destruct (picks_tame ps l entries F) as (out & -> & P). exists out. split; auto. constructor; auto. now apply (flat_holes ps l F).
          - destruct (flat_text_only ps l F S) as (s & -> & ->). exists [s]. split; auto. now apply batch_text. }
        destruct X as (out & -> & Bo). cbn [bindr].
        destruct (mapr (render_subfields get human all true entries) fs) as [ls|x]; cbn [bindr] in IH |- *; [|discriminate].
        injection IH as IH. exists (out :: outs). cbn [concat]. rewrite IH. auto.
    Qed.
  End Rendering.

  (** * The whole *)
  Section Whole.
    Context {A : Type}.
    Variable get : A -> str * str -> res value.
    Variable human : ty -> Z -> str.
    Variable all : bool.
    Hypothesis T : typed registered init_plugin get.
    Hypothesis P : exists f, slot [] f.
    Notation Expands := (Expands get human all slot).
    Notation Fails := (Fails get all slot).
    Notation Batch := (Batch get human all slot).

    Lemma expands_fun e l s : Expands e l s -> forall s', Expands e l s' -> s = s'.
    Proof.
      intros H s' H'. assert (X : [s] = [s']); [|congruence].
      eapply (picks_fun get human all l [e]); (apply picks_keep; [eassumption|constructor]).
    Qed.
    Lemma exec_whole ts ls full : Forall2 Reads ts ls -> Forall holes_ok ls -> with_path ls full ->
      exists fs, store registered init_plugin ts = Ok fs /\ forall e,
        (forall args, render_exec get human all fs e = Ok args <-> Forall2 (Expands e) full args) /\
        (render_exec get human all fs e = Err KeyErr <-> Exists (Fails e) full) /\
        ((exists args, render_exec get human all fs e = Ok args) \/ render_exec get human all fs e = Err KeyErr).
    Proof.
      intros R O W. destruct (store_parts ts ls R P) as [(fs & full' & E & F & W' & _)|(e & _ & B)].
      2: { exfalso. apply Exists_exists in B as (l & I & B). rewrite Forall_forall in O. eapply holes_bad; eauto. }
      rewrite (with_path_fun ls full' full W' W) in F. exists fs. split; auto. intros e.
      assert (N : forall args, Forall2 (Expands e) full args -> Exists (Fails e) full -> False).
      { clear. intros args H X. induction H as [|l s full args Ex H IH]; [inversion X|].
        inversion X; subst; [eapply expands_fails; eauto|auto]. }
      assert (U : forall args args', Forall2 (Expands e) full args -> Forall2 (Expands e) full args' -> args = args').
      { clear. intros args args' H. revert args'. induction H as [|l s full args Ex H IH]; intros args' H'; inversion H'; subst; auto.
        f_equal; [eapply expands_fun; eauto|auto]. }
      destruct (exec_arguments get human all T fs full e F) as [(args & -> & Ex)|(-> & Fa)].
      - split; [|split; [|eauto]].
        + intros args'. split; [intros [= <-]; auto|]. intros H. f_equal. eapply U; eauto.
        + split; [discriminate|]. intros H. exfalso. eapply N; eauto.
      - split; [|split; [|eauto]].
        + intros args'. split; [discriminate|]. intros H. exfalso. eapply N; eauto.
        + split; auto.
    Qed.
    Lemma store_errors ts ls e : Forall2 Reads ts ls -> store registered init_plugin ts = Err e -> Exists (fun l => bad_hole l e) ls.
    Proof. intros R E. destruct (store_parts ts ls R P) as [(fs & full & E' & _)|(e' & E' & B)]; [congruence|]. rewrite E in E'. injection E' as <-. exact B. Qed.
    Lemma store_ok ts ls : Forall2 Reads ts ls -> (exists fs, store registered init_plugin ts = Ok fs) <-> Forall holes_ok ls.
    Proof.
      intros R. destruct (store_parts ts ls R P) as [(fs & full & E & _ & W & O)|(e & E & B)].
      - split; eauto. intros _. destruct W as [[_ ->]|[_ ->]]; [auto|]. apply Forall_app in O. tauto.
      - split; [intros (fs & X); congruence|]. intros O. exfalso. apply Exists_exists in B as (l & I & B). rewrite Forall_forall in O.
        eapply holes_bad; eauto.
    Qed.
    Lemma batch_whole t ts l ls s full : Reads t l -> Forall2 Reads ts ls -> l = map PChar s -> Forall holes_ok ls -> with_path (l :: ls) (l :: full) ->
      exists fs, store_batch registered init_plugin (t :: ts) = Ok fs /\ forall entries,
        exists outs, render_batch get human all fs entries = Ok (s :: concat outs) /\ Forall2 (Batch entries) full outs.
    Proof.
      intros R Rs -> O W. assert (R' : Forall2 Reads (t :: ts) (map PChar s :: ls)) by (constructor; auto).
      assert (O' : Forall holes_ok (map PChar s :: ls)) by (constructor; auto; intros h H; apply in_map_iff in H as (c & X & _); discriminate X).
      destruct (store_parts _ _ R' P) as [(fs & full' & E & F & W' & _)|(e & _ & B)].
      2: { exfalso. apply Exists_exists in B as (l & I & B). rewrite Forall_forall in O'. eapply holes_bad; eauto. }
      rewrite (with_path_fun _ full' _ W' W) in F. inversion F as [|ps l0 fs' full0 Fl Fs]; subst.
      exists (ps :: fs'). unfold store_batch. rewrite E. cbn [bindr].
      assert (S : existsb is_slot ps = false).
      { apply not_true_is_false. intros X. apply (flat_holes ps _ Fl) in X. eapply chars_no_hole; eauto. }
      rewrite S. split; auto. intros entries. cbn [render_batch].
      destruct (flat_text_only ps _ Fl S) as (s' & -> & Es). apply map_pchar_inj in Es as <-. cbn [bindr].
      destruct (batch_arguments get human all T fs' full entries Fs) as (outs & -> & B). cbn [bindr]. eauto.
    Qed.
    Lemma batch_command t ts l ls : Reads t l -> Forall2 Reads ts ls -> Forall holes_ok (l :: ls) -> has_hole l ->
      store_batch registered init_plugin (t :: ts) = Err UsageError.
    Proof.
      intros R Rs O H. assert (R' : Forall2 Reads (t :: ts) (l :: ls)) by (constructor; auto).
      destruct (store_parts _ _ R' P) as [(fs & full & E & F & W & _)|(e & _ & B)].
      2: { exfalso. apply Exists_exists in B as (l' & I & B). rewrite Forall_forall in O. eapply holes_bad; eauto. }
      unfold store_batch. rewrite E. cbn [bindr]. assert (X : exists full', full = l :: full') by (destruct W as [[_ ->]|[_ ->]]; cbn; eauto).
      destruct X as [full' ->]. inversion F as [|ps l0 fs' full0 Fl Fs]; subst. apply (flat_holes ps _ Fl) in H. now rewrite H.
    Qed.
    Lemma batch_fun entries l out out' : Batch entries l out -> Batch entries l out' -> out = out'.
    Proof.
      intros [o H Pk|s E] [o' H' Pk'|s' E'].
      - eapply picks_fun; eauto.
      - exfalso. subst l. eapply chars_no_hole; eauto.
      - exfalso. subst l. eapply chars_no_hole; eauto.
      - subst l. apply map_pchar_inj in E' as ->. reflexivity.
    Qed.
  End Whole.
End Replace.
