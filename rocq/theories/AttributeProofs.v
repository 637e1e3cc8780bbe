(** The attributes of files have the declared types; times in whole seconds;
    names of users and groups. *)
From Coq Require Import List NArith ZArith Bool Lia.
From Verif Require Import Py FloatLib PathModel EntryModel TypeModel RegistryModel CountModel CountProofs LinkModel SearchModel SearchSpec AttributeModel.
Import ListNotations.
Local Open Scope Z_scope.

(** * Times *)

Lemma rn_finite p q : 0 <= p -> 0 < q -> p < 2 ^ 1000 * q -> exists a b, rn p q = FFin a b.
Proof.
  intros Hp Hq H. destruct (rn p q) as [|a b] eqn:E; [exfalso|eauto].
  unfold rn in E. destruct (Z.eqb_spec p 0) as [|Hp0]; [discriminate|].
  destruct (flog2_spec p q ltac:(lia) Hq) as [S1 S2]. cbn zeta in *. set (g := flog2 p q) in *. clearbody g.
  assert (G : g < 1000).
  { destruct (Z.lt_ge_cases g 1000) as [|G]; [assumption|exfalso].
    assert (X : 2 ^ 1000 <= 2 ^ g) by (apply Z.pow_le_mono_r; lia).
    destruct (Z.leb_spec 0 g); [|lia]. nia. }
  destruct (Z.leb_spec 0 (g - 52)) as [L|L]; cbv zeta in E.
  - destruct (Z.leb_spec (2 ^ 1024 * 1) (round_half_even p (q * 2 ^ (g - 52)) * 2 ^ (g - 52))) as [K|K]; [|discriminate]. 
    assert (P := pow2_pos (g - 52) L).
    assert (R := rhe_error p (q * 2 ^ (g - 52)) ltac:(nia)).
    assert (P2 : 2 ^ (g - 52) <= 2 ^ 1000) by (apply Z.pow_le_mono_r; lia).
    assert (BIG : 2 ^ 1024 = 2 ^ 1000 * 2 ^ 24) by (rewrite <- Z.pow_add_r by lia; f_equal).
    set (r := round_half_even p (q * 2 ^ (g - 52))) in *. set (s := 2 ^ (g - 52)) in *. set (M := 2 ^ 1000) in *. clearbody r s M.
    rewrite BIG in K. change (2 ^ 24) with 16777216 in K. clear -K R H Hq Hp P P2.
    assert (2 * (r * (q * s) - p) <= q * s) by lia. nia.
  - destruct (Z.leb_spec (2 ^ 1024 * 2 ^ (- (g - 52))) (round_half_even (p * 2 ^ (- (g - 52))) q)) as [K|K]; [|discriminate].
    assert (P := pow2_pos (- (g - 52)) ltac:(lia)).
    assert (R := rhe_error (p * 2 ^ (- (g - 52))) q Hq).
    assert (BIG : 2 ^ 1024 = 2 ^ 1000 * 2 ^ 24) by (rewrite <- Z.pow_add_r by lia; f_equal).
    set (s := 2 ^ (- (g - 52))) in *. set (r := round_half_even (p * s) q) in *. set (M := 2 ^ 1000) in *.
    assert (HM : 1 <= M) by (unfold M; lia). clearbody r s M.
    rewrite BIG in K. change (2 ^ 24) with 16777216 in K. clear -K R H Hq Hp P HM.
    assert (2 * (r * q - p * s) <= q) by lia. nia.
Qed.
Lemma fraction nsec : 0 <= nsec < 1000000000 ->
  exists a b, fmul (rn 1 1000000000) (rn nsec 1) = FFin a b /\ 0 < b /\ 0 <= a /\ Z.abs (a * 1000000000 - nsec * b) * 2 ^ 51 <= nsec * b.
Proof.
  intros H.
  destruct (rn_exact nsec 0 0 nsec 1) as (n & d & E & Hd & Q); [lia|lia|lia|lia|lia|lia|].
  rewrite E. destruct (rn 1 1000000000) as [|c e] eqn:Ec; [discriminate Ec|].
  destruct (rn_error 1 1000000000 c e ltac:(lia) ltac:(lia) Ec) as [He Rc].
  assert (Hc : 0 <= c) by (clear -Rc He; nia).
  unfold fmul. change (2 ^ 0) with 1 in Q. rewrite !Z.mul_1_r in Q.
  assert (Bc : c <= e) by (clear -Rc He; change (2 ^ 53) with 9007199254740992 in Rc; lia).
  assert (Hn : 0 <= n) by (subst n; nia).
  assert (Bn : n <= 1000000000 * d) by (subst n; nia).
  destruct (rn_finite (c * n) (e * d)) as (a & b & Ep); [nia|nia| |].
  { assert (0 < e * d) by nia. assert (c * n <= e * (1000000000 * d)) by nia.
    assert (1000000000 < 2 ^ 1000) by (vm_compute; reflexivity). nia. }
  exists a, b. rewrite Ep. split; [reflexivity|].
  destruct (rn_error (c * n) (e * d) a b ltac:(nia) ltac:(nia) Ep) as [Hb Rp].
  split; [exact Hb|].
  change (2 ^ 53) with 9007199254740992 in *. change (2 ^ 51) with 2251799813685248 in *.
  assert (X : Z.abs (a * (e * d) - c * n * b) * 9007199254740992 <= c * n * b) by exact Rp. subst n.
  assert (Y : Z.abs (a * e - c * nsec * b) * 9007199254740992 <= c * nsec * b).
  { apply (Z.mul_le_mono_pos_r _ _ d Hd).
    replace (Z.abs (a * e - c * nsec * b) * 9007199254740992 * d) with (Z.abs (a * (e * d) - c * (nsec * d) * b) * 9007199254740992).
    - replace (c * nsec * b * d) with (c * (nsec * d) * b) by ring. exact X.
    - replace (a * (e * d) - c * (nsec * d) * b) with ((a * e - c * nsec * b) * d) by ring. rewrite Z.abs_mul, (Z.abs_eq d) by lia. ring. }
  assert (Z0 : 0 <= c * nsec * b) by (clear -Hc H Hb; assert (0 <= c * nsec) by nia; nia).
  assert (Ha : 0 <= a).
  { destruct (Z.le_gt_cases 0 a) as [|N]; [assumption|exfalso]. assert (a * e < 0) by (clear -N He; nia). lia. }
  split; [exact Ha|].
  (* a e ~ c nsec b, c 10^9 ~ e *)
  assert (V : Z.abs (c * 1000000000 - 1 * e) * 9007199254740992 <= 1 * e) by exact Rc.
  set (m := nsec * b) in *. assert (Hm : 0 <= m) by (unfold m; clear -H Hb; nia).
  replace (c * nsec * b) with (c * m) in * by (unfold m; ring). clearbody m.
  apply (Z.mul_le_mono_pos_r _ _ e He).
  replace (Z.abs (a * 1000000000 - m) * 2251799813685248 * e) with (Z.abs ((a * 1000000000 - m) * e) * 2251799813685248)
    by (rewrite Z.abs_mul, (Z.abs_eq e) by lia; ring).
  replace ((a * 1000000000 - m) * e) with ((a * e - c * m) * 1000000000 + (c * 1000000000 - e) * m) by ring.
  assert (T1 : Z.abs ((a * e - c * m) * 1000000000) * 9007199254740992 <= c * m * 1000000000) by (rewrite Z.abs_mul; lia).
  assert (T2 : Z.abs ((c * 1000000000 - e) * m) * 9007199254740992 <= e * m).
  { rewrite Z.abs_mul, (Z.abs_eq m) by lia. rewrite Z.mul_1_l in V. clear -V Hm. nia. }
  assert (T3 : c * m * 1000000000 <= 2 * (e * m)).
  { assert (c * 1000000000 <= 2 * e) by (clear -V He; lia). clear -H0 Hm. nia. }
  clear -T1 T2 T3 Z0. lia.
Qed.
Lemma whole_result t z : 0 <= snd t < 1000000000 -> 0 <= fst t < 2 ^ 52 -> whole_seconds t = Ok z -> fst t <= z <= fst t + 1.
Proof.
  destruct t as [s n]. cbn [fst snd]. intros Hn Hs E. unfold whole_seconds in E. cbn [fst snd] in E.
  destruct (fraction n Hn) as (a & b & Ef & Hb & Ha & Hr). rewrite Ef in E. cbv zeta in E.
  destruct (Z.leb_spec 0 (s * b + a)) as [L|L]; [|exfalso; clear -L Ha Hs Hb; nia].
  destruct (rn (s * b + a) b) as [|c d] eqn:Er; [discriminate|]. cbn [fint] in E. injection E as <-.
  destruct (rn_error _ _ _ _ L Hb Er) as [Hd _].
  assert (A1 : a <= b).
  { clear -Hr Hn Hb Ha. change (2 ^ 51) with 2251799813685248 in Hr. nia. }
  split.
  - apply Z.div_le_lower_bound; [exact Hd|].
    destruct (rn_exact s 0 0 s 1) as (p & q & Ep & Hq & Q); [clear -Hs; lia|lia|lia|lia|lia| |].
    { change (2 ^ 0) with 1. rewrite !Z.mul_1_r. assert (2 ^ 52 < 2 ^ 1024) by (apply Z.pow_lt_mono_r; lia). lia. }
    change (2 ^ 0) with 1 in Q. rewrite !Z.mul_1_r in Q.
    assert (M := rn_mono s 1 p q (s * b + a) b c d ltac:(lia) ltac:(lia) L Hb ltac:(nia) Ep Er).
    subst p. clear -M Hq Hd. assert (q * (s * d) <= q * c) by lia. nia.
  - assert (c <= (s + 1) * d); [|assert (c / d <= ((s + 1) * d) / d) by (apply Z.div_le_mono; lia); rewrite Z.div_mul in * by lia; lia].
    destruct (rn_exact (s + 1) 0 0 (s + 1) 1) as (p & q & Ep & Hq & Q); [clear -Hs; lia|lia|lia|lia|lia| |].
    { change (2 ^ 0) with 1. rewrite !Z.mul_1_r. assert (2 ^ 52 < 2 ^ 1024) by (apply Z.pow_lt_mono_r; lia). lia. }
    change (2 ^ 0) with 1 in Q. rewrite !Z.mul_1_r in Q.
    assert (M := rn_mono (s * b + a) b c d (s + 1) 1 p q L Hb ltac:(lia) ltac:(lia) ltac:(nia) Er Ep).
    subst p. clear -M Hq Hd. assert (q * c <= q * ((s + 1) * d)) by lia. nia.
Qed.
(** Between 1970 and 2242 the seconds are right, but for the last two
    microseconds of each second. *)
Lemma whole_right t : 0 <= snd t <= 999998000 -> 0 <= fst t < 2 ^ 33 -> whole_seconds t = Ok (fst t).
Proof.
  destruct t as [s n]. cbn [fst snd]. intros Hn Hs.
  assert (T : exists z, whole_seconds (s, n) = Ok z /\ z < s + 1).
  { unfold whole_seconds. cbn [fst snd]. destruct (fraction n ltac:(lia)) as (a & b & Ef & Hb & Ha & Hr). rewrite Ef. cbv zeta.
    assert (A1 : a <= b).
    { clear -Hr Hn Hb Ha. change (2 ^ 51) with 2251799813685248 in Hr. nia. }
    destruct (Z.leb_spec 0 (s * b + a)) as [L|L]; [|exfalso; clear -L Ha Hs Hb; nia].
    destruct (rn_finite (s * b + a) b L Hb) as (c & d & Er).
    { assert (2 ^ 33 + 1 < 2 ^ 1000) by (vm_compute; reflexivity). nia. }
    rewrite Er. cbn [fint]. exists (c / d). split; [reflexivity|].
    destruct (rn_error _ _ _ _ L Hb Er) as [Hd R]. apply Z.div_lt_upper_bound; [exact Hd|].
    change (2 ^ 53) with 9007199254740992 in R. change (2 ^ 51) with 2251799813685248 in Hr. change (2 ^ 33) with 8589934592 in Hs.
    (* a/b < 0.999998001 *)
    assert (A2 : a * 1000000000 <= 999998001 * b) by (clear -Hr Hn Hb Ha; nia).
    assert (R' : (c * b - (s * b + a) * d) * 9007199254740992 <= (s * b + a) * d) by (clear -R; lia).
    assert (U : (s * b + a) * d * 9007199254740993 * 1000000000 < (s + 1) * b * d * 9007199254740992 * 1000000000).
    { assert (U0 : (s * b + a) * 9007199254740993 * 1000000000 < (s + 1) * b * 9007199254740992 * 1000000000).
      { assert (s * b <= 8589934591 * b) by (clear -Hs Hb; nia). clear -A2 H Hb Hs. lia. }
      clear -U0 Hd. nia. }
    assert (W : c * b * 9007199254740992 * 1000000000 < (s + 1) * b * d * 9007199254740992 * 1000000000) by (clear -R' U; lia).
    clear -W Hb. nia. }
  destruct T as (z & E & Hz). rewrite E. f_equal. assert (B := whole_result (s, n) z). cbn [fst snd] in B.
  specialize (B ltac:(lia)). assert (2 ^ 33 < 2 ^ 52) by (apply Z.pow_lt_mono_r; lia). specialize (B ltac:(lia) E). lia.
Qed.
(** No time of a file system makes it fail. *)
Lemma whole_defined t : 0 <= snd t < 1000000000 -> - 2 ^ 63 <= fst t < 2 ^ 63 -> exists z, whole_seconds t = Ok z.
Proof.
  destruct t as [s n]. cbn [fst snd]. intros Hn Hs. unfold whole_seconds. cbn [fst snd].
  destruct (fraction n Hn) as (a & b & Ef & Hb & Ha & Hr). rewrite Ef. cbv zeta.
  assert (A1 : a <= b). { clear -Hr Hn Hb Ha. change (2 ^ 51) with 2251799813685248 in Hr. nia. }
  assert (BIG : 2 ^ 63 + 1 < 2 ^ 1000) by (vm_compute; reflexivity). set (M := 2 ^ 1000) in *. change (2 ^ 63) with 9223372036854775808 in *.
  destruct (Z.leb_spec 0 (s * b + a)) as [L|L].
  - destruct (rn_finite (s * b + a) b L Hb) as (c & d & Er); [fold M; clearbody M; nia|]. rewrite Er. eexists. reflexivity.
  - destruct (rn_finite (- (s * b + a)) b ltac:(lia) Hb) as (c & d & Er); [fold M; clearbody M; nia|]. rewrite Er. eexists. reflexivity.
Qed.

(** * Names *)
Section Names.
  Variable database : Z -> option str.
  Definition called (id : Z) : str := match database id with Some n => n | None => [] end.
  Definition right (memo : list (Z * str)) : Prop := forall id n, dict_get Z.eqb id memo = Some n -> n = called id.
  Lemma name_right memo id : right memo -> fst (name_of database memo id) = called id /\ right (snd (name_of database memo id)).
  Proof.
    intros H. unfold name_of. destruct (dict_get Z.eqb id memo) as [n|] eqn:E; cbn [fst snd].
    - split; [exact (H _ _ E)|exact H].
    - split; [reflexivity|]. intros j n. fold (called id).
      assert (G : forall d : list (Z * str), dict_get Z.eqb j (dict_set Z.eqb id (called id) d) = if j =? id then Some (called id) else dict_get Z.eqb j d).
      { induction d as [|[k v] d IH]; cbn; [destruct (j =? id); reflexivity|].
        destruct (Z.eqb_spec id k) as [->|N]; cbn.
        - destruct (Z.eqb_spec j k); reflexivity.
        - destruct (Z.eqb_spec j k) as [->|N']; [destruct (Z.eqb_spec k id); [congruence|reflexivity]|exact IH]. }
      rewrite G. destruct (Z.eqb_spec j id) as [->|]; [now intros [= <-]|apply H].
  Qed.
  Lemma names_right memo ids : right memo -> names_of database memo ids = map called ids.
  Proof.
    revert memo. induction ids as [|id ids IH]; intros memo H; [reflexivity|]. cbn [names_of map].
    destruct (name_right memo id H) as [E R]. destruct (name_of database memo id) as [n m]. cbn [fst snd] in *. subst n. f_equal. now apply IH.
  Qed.
  Lemma names_start ids : names_of database [] ids = map called ids.
  Proof. apply names_right. intros id n E. discriminate E. Qed.
End Names.

(** * Types *)

Lemma find_attr_in n p t : find_attr n p = Some t -> In (n, t) (p_attrs p).
Proof.
  intros H. unfold find_attr in H. destruct (find _ _) as [[m u]|] eqn:E; [|discriminate]. injection H as <-.
  apply find_some in E as [I E]. apply str_eqb_eq in E. cbn [fst] in E. now subst m.
Qed.
(** Evaluates the comparisons of names in the goal. *)
Ltac names := repeat match goal with
  |- context [str_eqb (lit ?a) (lit ?b)] => let v := eval vm_compute in (str_eqb (lit a) (lit b)) in change (str_eqb (lit a) (lit b)) with v; cbv iota
  end; cbn [orb].
Section Types.
  Variable inode_of : entry -> inode.
  Variable scandir : str -> option (list str).
  Variable readlink : str -> option str.
  Variable realpath : str -> str.
  Variable exists_ : str -> bool.
  Variable lstat_dev : str -> option Z.
  Variable users groups : Z -> option str.
  Variable mounts : list EntryModel.mount.
  Variable memo : list (Z * str) * list (Z * str).
  Notation file_other := (file_other inode_of scandir readlink realpath exists_ lstat_dev users groups mounts memo).
  (** registry.get_attribute for the plugin file *)
  Definition file_attribute (e : entry) (n : str) : res (option value) := do o <- file_other e n; Ok (file_value (fun _ _ => o) e n).
  (** The times are some that can be kept in 64 bits; the entry could be made,
      that is, os.readlink did not fail. *)
  Definition possible_time (t : timespec) : Prop := 0 <= snd t < 1000000000 /\ - 2 ^ 63 <= fst t < 2 ^ 63.
  Definition possible (e : entry) : Prop :=
    possible_time (st_mtim (inode_of e)) /\ possible_time (st_ctim (inode_of e)) /\ possible_time (st_atim (inode_of e)) /\
    (S_ISLNK (st_mode (e_status e)) = true -> readlink (e_path e) <> None).

  Lemma links_of e : possible e -> exists l, link_attributes readlink realpath exists_ e = Ok l /\
    (l_link l = None <-> S_ISLNK (st_mode (e_status e)) = false) /\ (l_target l = None <-> S_ISLNK (st_mode (e_status e)) = false).
  Proof.
    intros (_ & _ & _ & H). unfold link_attributes. destruct (S_ISLNK _).
    - destruct (readlink (e_path e)) as [l|]; [|now destruct (H eq_refl)]. eexists. split; [reflexivity|]. split; split; discriminate.
    - eexists. split; [reflexivity|]. split; split; reflexivity.
  Qed.
  Definition outcome (e : entry) (n : str) (t : ty) : Prop := exists v, file_attribute e n = Ok v /\
    (v = None <-> (n = $"link" \/ n = $"target") /\ S_ISLNK (st_mode (e_status e)) = false) /\ (forall x, v = Some x -> of_type t x).
  Lemma always e n t x : file_attribute e n = Ok (Some x) -> n <> $"link" -> n <> $"target" -> of_type t x -> outcome e n t.
  Proof.
    intros E N1 N2 T. exists (Some x). split; [exact E|]. split; [|now intros y [= <-]].
    split; [discriminate|]. intros [[K|K] _]; contradiction.
  Qed.
  Lemma typed e n t : possible e -> find_attr n file_plugin = Some t -> outcome e n t.
  Proof.
    intros P H. assert (P' := P). destruct P' as (Pm & Pc & Pa & _).
    destruct (whole_defined (st_mtim (inode_of e)) (proj1 Pm) (proj2 Pm)) as (zm & Em).
    destruct (whole_defined (st_ctim (inode_of e)) (proj1 Pc) (proj2 Pc)) as (zc & Ec).
    destruct (whole_defined (st_atim (inode_of e)) (proj1 Pa) (proj2 Pa)) as (za & Ea).
    destruct (links_of e P) as (l & El & L1 & L2).
    assert (I := find_attr_in _ _ _ H).
    clear H. cbn [p_attrs file_plugin] in I.
    repeat match goal with
    | H : In _ (_ :: _) |- _ => destruct H as [[= <- <-]|H]
    | H : In _ [] |- _ => destruct H
    end;
    try (unshelve eapply always; [|unfold file_attribute, AttributeModel.file_other, file_value; names;
         cbv zeta; rewrite ?Em, ?Ec, ?Ea, ?El; cbn [bindr]; reflexivity|discriminate|discriminate|exact I]).
    - exists (option_map VStr (l_link l)). unfold file_attribute, AttributeModel.file_other, file_value. names. cbv zeta. rewrite El. cbn. split; [reflexivity|].
      split; [|intros x; destruct (l_link l); [intros [= <-]; exact I|discriminate]].
      rewrite <- L1. destruct (l_link l); cbn [option_map]; (split; [intros K; first [discriminate K|split; [left; reflexivity|reflexivity]]|intros [_ K]; first [discriminate K|reflexivity]]).
    - exists (option_map VStr (l_target l)). unfold file_attribute, AttributeModel.file_other, file_value. names. cbv zeta. rewrite El. cbn. split; [reflexivity|].
      split; [|intros x; destruct (l_target l); [intros [= <-]; exact I|discriminate]].
      rewrite <- L2. destruct (l_target l); cbn [option_map]; (split; [intros K; first [discriminate K|split; [right; reflexivity|reflexivity]]|intros [_ K]; first [discriminate K|reflexivity]]).
  Qed.
  (** What SearchModel takes as the other attributes *)
  Definition real_other (e : entry) (n : str) : option value := match file_other e n with Ok v => v | Err _ => None end.
  Lemma real_value e n t : possible e -> find_attr n file_plugin = Some t -> file_attribute e n = Ok (file_value real_other e n).
  Proof.
    intros P H. destruct (typed e n t P H) as (v & E & _). unfold file_attribute in *. unfold real_other.
    destruct (file_other e n) as [o|] eqn:Eo; [|discriminate]. cbn [bindr]. f_equal. unfold file_value. now rewrite Eo.
  Qed.
  Lemma real_honest registered init_plugin plugin_value :
    find_plugin registered ($"file") = Some file_plugin -> init_plugin ($"file") = Ok tt ->
    (forall e at_ t x, fst at_ <> $"file" -> get_attribute_type registered at_ = Ok t -> plugin_value e at_ = Some x -> of_type t x) ->
    honest registered init_plugin real_other plugin_value.
  Proof.
    intros H1 H2 H3. split; [exact H1|]. split; [exact H2|]. split; [|exact H3].
    intros e n t x H E. unfold real_other in E. destruct (file_other e n) as [v|] eqn:F; [|discriminate E]. subst v. unfold AttributeModel.file_other in F.
    cbv zeta in F.
    repeat match type of F with (if str_eqb n ?m then _ else _) = _ =>
      destruct (str_eqb n m) eqn:Q; [apply str_eqb_eq in Q; subst n; vm_compute in H; injection H as <-; injection F as <-; exact I|clear Q]
    | (if str_eqb n ?m || str_eqb n ?k then _ else _) = _ => destruct (str_eqb n m || str_eqb n k) eqn:Q; [apply orb_true_iff in Q as [Q|Q]|clear Q];
      try (apply str_eqb_eq in Q; subst n; vm_compute in H; injection H as <-; destruct (whole_seconds _); [|discriminate F]; injection F as <-; exact I)
    | (if str_eqb n ?m then bindr (whole_seconds _) _ else _) = _ =>
      destruct (str_eqb n m) eqn:Q; [apply str_eqb_eq in Q; subst n; vm_compute in H; injection H as <-;
        destruct (whole_seconds _); [|discriminate F]; injection F as <-; exact I|clear Q]
    | (if str_eqb n ?m then bindr (link_attributes _ _ _ _) (fun l => Ok (Some (VBool _))) else _) = _ =>
      destruct (str_eqb n m) eqn:Q; [apply str_eqb_eq in Q; subst n; vm_compute in H; injection H as <-;
        destruct (link_attributes _ _ _ _); [|discriminate F]; injection F as <-; exact I|clear Q]
    | (if str_eqb n ?m then bindr (link_attributes _ _ _ _) (fun l => Ok (option_map VStr (?f l))) else _) = _ =>
      destruct (str_eqb n m) eqn:Q; [apply str_eqb_eq in Q; subst n; vm_compute in H; injection H as <-;
        destruct (link_attributes _ _ _ _) as [l|]; [|discriminate F]; cbn [bindr] in F; destruct (f l); [|discriminate F]; injection F as <-; exact I|clear Q]
    end. discriminate F.
  Qed.
  Lemma names_attributes e : right users (fst memo) -> right groups (snd memo) ->
    file_attribute e ($"user") = Ok (Some (VStr (called users (st_uid (inode_of e))))) /\
    file_attribute e ($"group") = Ok (Some (VStr (called groups (st_gid (inode_of e))))) /\
    right users (snd (name_of users (fst memo) (st_uid (inode_of e)))) /\ right groups (snd (name_of groups (snd memo) (st_gid (inode_of e)))).
  Proof.
    intros Hu Hg. destruct (name_right users _ (st_uid (inode_of e)) Hu) as [<- Ru]. destruct (name_right groups _ (st_gid (inode_of e)) Hg) as [<- Rg].
    unfold file_attribute, AttributeModel.file_other, file_value. split; [names; reflexivity|]. split; [names; reflexivity|]. split; assumption.
  Qed.
End Types.
