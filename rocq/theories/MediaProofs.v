(** Proofs about the plugins medium, fs and xattr. *)
From Coq Require Import List NArith ZArith Bool Lia.
From Verif Require Import Py OsPath PathModel PathSpec EntryModel EntrySpec EntryProofs TypeModel CountModel CountProofs CountPrintProofs ArgumentsSpec DirectoryProofs ReferenceProofs LinkProofs PluginModel PluginProofs MediaModel MediaSpec.
Import ListNotations.
Local Open Scope nat_scope.

(** * Dictionaries *)
Lemma set_nodup {V} k (v : V) d : NoDup (map fst d) -> NoDup (map fst (dict_set str_eqb k v d)).
Proof.
  induction d as [|[k' v'] d IH]; intros N; cbn [dict_set]; [repeat constructor; intros []|].
  destruct (str_eqb k k') eqn:E; [exact N|]. cbn [map fst] in *. inversion N as [|? ? H1 H2]; subst. constructor; [|auto].
  intros I. assert (J : In k' (map fst d) \/ k' = k).
  { clear -I. induction d as [|[k2 v2] d IH]; cbn [dict_set] in I.
    - destruct I as [I|[]]. right. now symmetry.
    - destruct (str_eqb k k2) eqn:E; [left; exact I|]. destruct I as [I|I]; [left; now left|]. destruct (IH I); [left; now right|now right]. }
  destruct J as [J|J]; [exact (H1 J)|]. subst. rewrite str_eqb_refl in E. discriminate.
Qed.
Lemma make_dict_from (l d : pairs) : NoDup (map fst (d ++ l)) -> fold_left (fun d kv => dict_set str_eqb (fst kv) (snd kv) d) l d = d ++ l.
Proof.
  revert d. induction l as [|[k v] l IH]; intros d N; cbn [fold_left]; [now rewrite app_nil_r|].
  cbn [fst snd]. rewrite dict_set_fresh.
  - rewrite IH; rewrite <- app_assoc; [reflexivity|exact N].
  - rewrite map_app in N. cbn [map fst] in N. apply NoDup_remove_2 in N. intros I. apply N, in_or_app. now left.
Qed.
Lemma make_dict_same (l : pairs) : NoDup (map fst l) -> make_dict l = l.
Proof. intros N. apply (make_dict_from l []). exact N. Qed.
Lemma get_set {V} k k' (v : V) d : dict_get str_eqb k (dict_set str_eqb k' v d) = if str_eqb k k' then Some v else dict_get str_eqb k d.
Proof.
  induction d as [|[k2 v2] d IH]; cbn [dict_set dict_get].
  - destruct (str_eqb k k'); reflexivity.
  - destruct (str_eqb k' k2) eqn:E; cbn [dict_get].
    + apply str_eqb_eq in E as ->. destruct (str_eqb k k2); reflexivity.
    + rewrite IH. destruct (str_eqb k k2) eqn:E2; [|reflexivity]. apply str_eqb_eq in E2 as ->.
      destruct (str_eqb k2 k') eqn:E3; [|reflexivity]. apply str_eqb_eq in E3 as ->. rewrite str_eqb_refl in E. discriminate.
Qed.

(** * Tracks *)
Definition first_of (k : str) (l : list track) : option track := find (fun t => str_eqb (kind t) k) l.
Lemma first_of_iff k l t : first_of k l = Some t <-> First k l t.
Proof.
  split.
  - induction l as [|x l IH]; cbn [first_of find]; [discriminate|]. destruct (str_eqb (kind x) k) eqn:E.
    + intros H. injection H as <-. exists [], l. apply str_eqb_eq in E. repeat split; [exact E|constructor].
    + intros H. apply IH in H as (a & b & -> & K & F). exists (x :: a), b. repeat split; [exact K|]. constructor; [|exact F].
      intros X. rewrite X, str_eqb_refl in E. discriminate.
  - intros (a & b & -> & K & F). induction F as [|x a X F IH]; cbn [app first_of find].
    + rewrite K, str_eqb_refl. reflexivity.
    + destruct (str_eqb (kind x) k) eqn:E; [apply str_eqb_eq in E; contradiction|exact IH].
Qed.
Lemma first_of_none k l : first_of k l = None <-> no_track k l.
Proof.
  unfold first_of, no_track. induction l as [|x l IH]; cbn [find]; [split; [constructor|reflexivity]|].
  destruct (str_eqb (kind x) k) eqn:E.
  - split; [discriminate|]. intros F. inversion F; subst. apply str_eqb_eq in E. contradiction.
  - rewrite IH. split; intros F.
    + constructor; [|exact F]. intros X. rewrite X, str_eqb_refl in E. discriminate.
    + now inversion F.
Qed.
Definition or_else {A} (a b : option A) : option A := match a with Some _ => a | None => b end.
Lemma kinds_apart k t : str_eqb (kind t) k = true -> kind t = k.
Proof. apply str_eqb_eq. Qed.
Lemma prepare_fold l : forall d, fold_left prepare_track l d =
  Tracks (or_else (audio d) (first_of ($"audio") l)) (or_else (video d) (first_of ($"video") l)) (or_else (image d) (first_of ($"image") l))
    (general d ++ filter (fun t => str_eqb (kind t) ($"general")) l).
Proof.
  induction l as [|t l IH]; intros [a v i g]; cbn [fold_left].
  - cbn [audio video image general first_of find filter]. rewrite app_nil_r. destruct a, v, i; reflexivity.
  - rewrite IH. unfold first_of. cbn [find filter]. fold (first_of ($"audio") l) (first_of ($"video") l) (first_of ($"image") l).
    unfold prepare_track. fold (kind t). cbn [audio video image general].
    destruct (str_eqb (kind t) ($"audio")) eqn:EA.
    { apply str_eqb_eq in EA. rewrite EA. change (str_eqb ($"audio") ($"video")) with false. change (str_eqb ($"audio") ($"image")) with false.
      change (str_eqb ($"audio") ($"general")) with false. cbn [andb]. destruct a; reflexivity. }
    destruct (str_eqb (kind t) ($"video")) eqn:EV.
    { apply str_eqb_eq in EV. rewrite EV. change (str_eqb ($"video") ($"image")) with false.
      change (str_eqb ($"video") ($"general")) with false. cbn [andb]. destruct v; reflexivity. }
    destruct (str_eqb (kind t) ($"image")) eqn:EI.
    { apply str_eqb_eq in EI. rewrite EI. change (str_eqb ($"image") ($"general")) with false. cbn [andb]. destruct i; reflexivity. }
    cbn [andb]. destruct (str_eqb (kind t) ($"general")) eqn:EG; [|reflexivity].
    cbn [audio video image general]. rewrite <- app_assoc. reflexivity.
Qed.
Lemma prepared l : prepare_tracks l = Tracks (first_of ($"audio") l) (first_of ($"video") l) (first_of ($"image") l) (filter (fun t => str_eqb (kind t) ($"general")) l).
Proof. unfold prepare_tracks. rewrite prepare_fold. reflexivity. Qed.

(** * Tags *)
Definition tag_of (n : str) (t : track) (o : option value) : option value := match t_tag t n with Some (c :: v) => Some (VStr (c :: v)) | _ => o end.
Lemma track_tags_get t d k : dict_get str_eqb k (track_tags d t) =
  fold_left (fun o ka => if str_eqb k (fst ka) then tag_of (snd ka) t o else o) tag_names (dict_get str_eqb k d).
Proof.
  unfold track_tags. generalize tag_names. intros l. revert d. induction l as [|[k' n] l IH]; intros d; cbn [fold_left fst snd]; [reflexivity|].
  rewrite IH. f_equal. unfold tag_of. destruct (t_tag t n) as [[|c v]|]; try (destruct (str_eqb k k'); reflexivity).
  rewrite get_set. reflexivity.
Qed.
Lemma track_tags_key t d k n : In (k, n) tag_names -> dict_get str_eqb k (track_tags d t) = tag_of n t (dict_get str_eqb k d).
Proof.
  intros I. rewrite track_tags_get. generalize (dict_get str_eqb k d). intros o. unfold tag_names in *.
  repeat (destruct I as [I|I]; [injection I as <- <-; vm_compute; reflexivity|]). destruct I.
Qed.
Lemma track_tags_other t d k : ~ In k (map fst tag_names) -> dict_get str_eqb k (track_tags d t) = dict_get str_eqb k d.
Proof.
  intros I. rewrite track_tags_get. revert I. generalize (dict_get str_eqb k d) as o. generalize tag_names as l.
  induction l as [|[k' n] l IH]; intros o I; cbn [fold_left]; [reflexivity|]. cbn [fst snd] in *. destruct (str_eqb k k') eqn:E.
  - apply str_eqb_eq in E as ->. exfalso. apply I. now left.
  - apply IH. intros J. apply I. now right.
Qed.
Lemma tags_nodup l : forall d, NoDup (map fst d) -> NoDup (map fst (fold_left track_tags l d)).
Proof.
  induction l as [|t l IH]; intros d N; cbn [fold_left]; [exact N|]. apply IH. unfold track_tags. generalize tag_names. intros names. revert d N.
  induction names as [|ka names IHn]; intros d N; cbn [fold_left]; [exact N|]. apply IHn. destruct (t_tag t (snd ka)) as [[|c v]|]; try exact N. apply set_nodup, N.
Qed.
Lemma tags_get k n l : In (k, n) tag_names -> forall d, dict_get str_eqb k (fold_left track_tags l d) = fold_left (fun o t => tag_of n t o) l (dict_get str_eqb k d).
Proof. intros I. induction l as [|t l IH]; intros d; cbn [fold_left]; [reflexivity|]. rewrite IH. f_equal. apply track_tags_key, I. Qed.
Lemma tags_other k l : ~ In k (map fst tag_names) -> forall d, dict_get str_eqb k (fold_left track_tags l d) = dict_get str_eqb k d.
Proof. intros I. induction l as [|t l IH]; intros d; cbn [fold_left]; [reflexivity|]. rewrite IH. apply track_tags_other, I. Qed.
Definition generals (l : list track) : list track := filter (fun t => str_eqb (kind t) ($"general")) l.
Lemma tag_value n l : forall o, fold_left (fun o t => tag_of n t o) (generals l) o = match fold_left (fun o t => tag_of n t o) (generals l) None with Some v => Some v | None => o end.
Proof.
  generalize (generals l). clear l. intros l. induction l as [|t l IH]; intros o; cbn [fold_left]; [reflexivity|].
  rewrite IH. rewrite (IH (tag_of n t None)). destruct (fold_left _ l None); [reflexivity|]. unfold tag_of. destruct (t_tag t n) as [[|]|]; reflexivity.
Qed.
Lemma tag_iff n l v : fold_left (fun o t => tag_of n t o) (generals l) None = Some (VStr v) <-> Tag n l v.
Proof.
  revert v. induction l as [|t l IH]; intros v.
  - cbn. split; [discriminate|]. intros (a & t & b & E & _). destruct a; discriminate.
  - assert (Hx : forall o, fold_left (fun o t => tag_of n t o) (generals (t :: l)) o =
        match fold_left (fun o t => tag_of n t o) (generals l) None with Some v => Some v | None => if str_eqb (kind t) ($"general") then tag_of n t o else o end).
    { intros o. unfold generals. cbn [filter]. destruct (str_eqb (kind t) ($"general")); cbn [fold_left]; apply tag_value. }
    rewrite Hx. clear Hx. destruct (fold_left (fun o t => tag_of n t o) (generals l) None) as [x|] eqn:E.
    + split.
      * intros H. injection H as ->. destruct (proj1 (IH v) eq_refl) as (a & t' & b & -> & R). exists (t :: a), t', b. split; [reflexivity|exact R].
      * intros (a & t' & b & El & K & T & Nv & F). destruct a as [|a0 a].
        -- injection El as <- <-. exfalso. assert (X : fold_left (fun o t => tag_of n t o) (generals l) None = None); [|congruence].
           clear -F. induction F as [|y l Y F IHl]; [reflexivity|]. unfold generals in *. cbn [filter]. destruct (str_eqb (kind y) ($"general")) eqn:Ey; [|exact IHl].
           cbn [fold_left]. replace (tag_of n y None) with (@None value); [exact IHl|]. unfold tag_of. destruct (Y (proj1 (str_eqb_eq _ _) Ey)) as [->| ->]; reflexivity.
        -- injection El as <- ->. apply (IH v). exists a, t', b. split; [reflexivity|]. split; [exact K|]. split; [exact T|]. split; [exact Nv|exact F].
    + assert (N : forall u, ~ Tag n l u) by (intros u T; apply IH in T; discriminate).
      assert (F0 : Forall (fun x => kind x = $"general" -> empty_tag n x) l).
      { clear -E. unfold generals in E. induction l as [|y l IHl]; [constructor|]. cbn [filter] in E. destruct (str_eqb (kind y) ($"general")) eqn:Ey.
        - cbn [fold_left] in E. pose proof (tag_value n l (tag_of n y None)) as TV. unfold generals in TV. rewrite TV in E. clear TV.
          destruct (fold_left (fun o t => tag_of n t o) (filter (fun t => str_eqb (kind t) ($"general")) l) None) eqn:El; [discriminate|].
          constructor; [|now apply IHl]. intros _. unfold empty_tag. unfold tag_of in E. destruct (t_tag y n) as [[|]|]; [now right|discriminate|now left].
        - constructor; [|now apply IHl]. intros Ky. rewrite Ky, str_eqb_refl in Ey. discriminate. }
      split.
      * destruct (str_eqb (kind t) ($"general")) eqn:Ek; [|discriminate]. unfold tag_of. destruct (t_tag t n) as [[|c w]|] eqn:Et; try discriminate.
        intros H. injection H as <-. exists [], t, l. split; [reflexivity|]. split; [now apply str_eqb_eq|]. split; [exact Et|]. split; [discriminate|exact F0].
      * intros (a & t' & b & El & K & T & Nv & F). destruct a as [|a0 a].
        -- injection El as <- <-. rewrite K, str_eqb_refl. unfold tag_of. rewrite T. destruct v; [contradiction|reflexivity].
        -- injection El as <- ->. exfalso. apply (N v). exists a, t', b. split; [reflexivity|]. split; [exact K|]. split; [exact T|]. split; [exact Nv|exact F].
Qed.

(** * All attributes *)
Lemma track_size_get d t k : dict_get str_eqb k (track_size d t) =
  match t_height t, t_width t with
  | Some h, Some w => if str_eqb k ($"height") then Some (VInt h) else if str_eqb k ($"width") then Some (VInt w) else dict_get str_eqb k d
  | _, _ => dict_get str_eqb k d
  end.
Proof. unfold track_size. destruct (t_height t), (t_width t); try reflexivity. rewrite !get_set. reflexivity. Qed.
Lemma track_size_nodup d t : NoDup (map fst d) -> NoDup (map fst (track_size d t)).
Proof. intros N. unfold track_size. destruct (t_height t), (t_width t); try exact N. apply set_nodup, set_nodup, N. Qed.
Definition seconds (t : option track) (o : option value) : option value :=
  match t with
  | None => o
  | Some t => match t_duration t with NoMillis | MillisText None => o | Millis z => Some (VInt (Z.quot z 1000)) | MillisText (Some (n, q)) => Some (VInt (Z.quot n (Zpos q * 1000))) end
  end.
Definition readable (t : track) : Prop := t_duration t <> MillisText None.
Lemma track_duration_val d t : (forall x, t = Some x -> readable x) -> NoDup (map fst d) -> exists d', track_duration d t = Val d' /\ NoDup (map fst d') /\
  forall k, dict_get str_eqb k d' = if str_eqb k ($"duration") then seconds t (dict_get str_eqb k d) else dict_get str_eqb k d.
Proof.
  intros R N. unfold track_duration, seconds. destruct t as [t|].
  - specialize (R t eq_refl). unfold readable in R. destruct (t_duration t) as [|z|[[n q]|]].
    + exists d. split; [reflexivity|]. split; [exact N|]. intros k. destruct (str_eqb k _); reflexivity.
    + eexists. split; [reflexivity|]. split; [apply set_nodup, N|]. intros k. apply get_set.
    + eexists. split; [reflexivity|]. split; [apply set_nodup, N|]. intros k. apply get_set.
    + contradiction.
  - exists d. split; [reflexivity|]. split; [exact N|]. intros k. destruct (str_eqb k _); reflexivity.
Qed.
Definition size_key (v i : option track) (k : str) (o : option value) : option value :=
  match or_else v i with
  | None => o
  | Some t => match t_height t, t_width t with
              | Some h, Some w => if str_eqb k ($"height") then Some (VInt h) else if str_eqb k ($"width") then Some (VInt w) else o
              | _, _ => o end
  end.
Definition format_key (v i : option track) (k : str) (o : option value) : option value :=
  match v, i with
  | None, Some t => match t_format t with Some f => if str_eqb k ($"format") then Some (VStr (lower f)) else o | None => o end
  | _, _ => o
  end.
Lemma medium_cached l : Forall readable l -> exists d, medium_cache l = Val d /\ NoDup (map fst d) /\
  forall k, dict_get str_eqb k d =
    let a := first_of ($"audio") l in let v := first_of ($"video") l in let i := first_of ($"image") l in
    let o := size_key v i k (format_key v i k (dict_get str_eqb k (fold_left track_tags (generals l) []))) in
    if str_eqb k ($"duration") then seconds a (seconds v o) else o.
Proof.
  intros R. unfold medium_cache. rewrite prepared. cbn [audio video image general]. fold (generals l).
  set (tags := fold_left track_tags (generals l) []).
  assert (Nt : NoDup (map fst tags)) by (apply tags_nodup; constructor).
  assert (Rf : forall k x, first_of k l = Some x -> readable x).
  { intros k x H. apply find_some in H as [H _]. rewrite Forall_forall in R. auto. }
  set (a := first_of ($"audio") l). set (v := first_of ($"video") l). set (i := first_of ($"image") l).
  assert (V : NoDup (map fst (visual tags (Tracks a v i (generals l)))) /\ forall k, dict_get str_eqb k (visual tags (Tracks a v i (generals l))) = size_key v i k (format_key v i k (dict_get str_eqb k tags))).
  { unfold visual. cbn [video image]. unfold size_key, format_key. destruct v as [v|]; cbn [or_else].
    - split; [now apply track_size_nodup|]. intros k. apply track_size_get.
    - destruct i as [i|]; cbn [or_else].
      + split; [apply track_size_nodup; destruct (t_format i); [now apply set_nodup|exact Nt]|]. intros k. rewrite track_size_get.
        destruct (t_format i) as [f|]; [rewrite get_set|]; reflexivity.
      + split; [exact Nt|reflexivity]. }
  destruct V as [Nv V].
  destruct (track_duration_val (visual tags (Tracks a v i (generals l))) v (Rf _) Nv) as (d1 & E1 & N1 & G1).
  destruct (track_duration_val d1 a (Rf _) N1) as (d2 & E2 & N2 & G2).
  exists d2. rewrite E1. split; [exact E2|]. split; [exact N2|]. intros k. rewrite G2, G1, V. cbv zeta. destruct (str_eqb k ($"duration")); reflexivity.
Qed.

(** Handled files *)
Lemma handles_iff m : medium_handles (Some m) = true <-> exists t, main_type m t /\ In t [$"image"; $"audio"; $"video"].
Proof.
  assert (MT : forall t rest, split_on SLASH m = t :: rest -> main_type m t /\ forall t', main_type m t' -> t' = t).
  { intros t rest E. pose proof (join_split SLASH m) as J. rewrite E in J. pose proof (split_on_first SLASH m t rest E) as Nt. split.
    - split; [exact Nt|]. destruct rest as [|r rest]; [left; now symmetry|]. right. exists (join_with ($"/") (r :: rest)). symmetry. exact J.
    - intros t' [N [->|[s ->]]].
      + rewrite split_on_nosep in E by exact N. now injection E.
      + assert (Q : t' :: split_on SLASH s = t :: rest) by (rewrite <- E; symmetry; exact (split_on_app SLASH t' s N)). now injection Q. }
  unfold medium_handles. destruct (split_on SLASH m) as [|t rest] eqn:E; [exfalso; exact (split_on_nonnil _ _ E)|].
  destruct (MT t rest eq_refl) as [Mt U]. destruct m as [|c m].
  - split; [discriminate|]. intros (t' & M' & I). destruct M' as [_ [M'|[s M']]].
    + subst t'. exfalso. vm_compute in I. repeat (destruct I as [I|I]; [discriminate|]). destruct I.
    + destruct t'; discriminate.
  - rewrite str_in_iff. split; [eauto|]. intros (t' & M' & I). apply U in M' as ->. exact I.
Qed.

Section Handled.
  Variable m : str.
  Variable handled : medium_handles (Some m) = true.
  Variable l : list track.
  Variable clear : Forall clear_duration l.

  Lemma all_readable : Forall readable l.
  Proof. eapply Forall_impl; [|exact clear]. intros t. unfold clear_duration, readable. intros H E. rewrite E in H. exact H. Qed.
  Lemma medium_value : exists d, get_data (medium (Some m) (Some l)) = Ok d /\ medium_cache l = Val d /\
    forall k, get_value (medium (Some m) (Some l)) k = match dict_get str_eqb k d with Some v => Ok v | None => Err KeyErr end.
  Proof.
    destruct (medium_cached l all_readable) as (d & E & N & _). exists d.
    assert (G : get_data (medium (Some m) (Some l)) = Ok d).
    { unfold get_data, get_data_from_plugin, medium, p_handles, p_cached, p_process. rewrite handled, E. rewrite make_dict_same by exact N. reflexivity. }
    split; [exact G|]. split; [exact E|]. intros k. unfold get_value. rewrite G. reflexivity.
  Qed.
  Lemma medium_get k : get_value (medium (Some m) (Some l)) k =
    match (let a := first_of ($"audio") l in let v := first_of ($"video") l in let i := first_of ($"image") l in
           let o := size_key v i k (format_key v i k (dict_get str_eqb k (fold_left track_tags (generals l) []))) in
           if str_eqb k ($"duration") then seconds a (seconds v o) else o) with Some v => Ok v | None => Err KeyErr end.
  Proof.
    destruct medium_value as (d & _ & E & G). rewrite G. destruct (medium_cached l all_readable) as (d' & E' & _ & H).
    rewrite E in E'. injection E' as <-. rewrite H. reflexivity.
  Qed.
  Lemma size_key_other v i k o : str_eqb k ($"height") = false -> str_eqb k ($"width") = false -> size_key v i k o = o.
  Proof. intros A B. unfold size_key. destruct (or_else v i) as [t|]; [|reflexivity]. rewrite A, B. destruct (t_height t), (t_width t); reflexivity. Qed.
  Lemma format_key_other v i k o : str_eqb k ($"format") = false -> format_key v i k o = o.
  Proof. intros A. unfold format_key. destruct v; [reflexivity|]. destruct i as [t|]; [|reflexivity]. destruct (t_format t); [|reflexivity]. now rewrite A. Qed.
  Lemma not_tag k : forallb (fun x => negb (str_eqb k x)) (map fst tag_names) = true -> dict_get str_eqb k (fold_left track_tags (generals l) []) = None.
  Proof.
    intros F. rewrite tags_other; [reflexivity|]. intros I. rewrite forallb_forall in F. apply F in I. rewrite str_eqb_refl in I. discriminate.
  Qed.
  Lemma ok_iff (o : option value) v : (match o with Some v => Ok v | None => Err KeyErr end = Ok v) <-> o = Some v.
  Proof. destruct o; split; intros H; try discriminate; [injection H as ->|injection H as ->]; reflexivity. Qed.

  Lemma medium_tag k n v : In (k, n) tag_names -> (get_value (medium (Some m) (Some l)) k = Ok (VStr v) <-> Tag n l v).
  Proof.
    intros I. rewrite medium_get, ok_iff. cbv zeta.
    assert (K : str_eqb k ($"height") = false /\ str_eqb k ($"width") = false /\ str_eqb k ($"format") = false /\ str_eqb k ($"duration") = false).
    { pose proof I as I'. unfold tag_names in I'. repeat (destruct I' as [I'|I']; [injection I' as <- _; vm_compute; repeat split|]). destruct I'. }
    destruct K as (K1 & K2 & K3 & K4). rewrite K4, size_key_other, format_key_other by assumption.
    rewrite (tags_get _ _ _ I). cbn [dict_get]. apply tag_iff.
  Qed.
  Lemma seen_iff t : or_else (first_of ($"video") l) (first_of ($"image") l) = Some t <-> Seen l t.
  Proof.
    unfold Seen. destruct (first_of ($"video") l) as [v|] eqn:E; cbn [or_else].
    - split.
      + intros H. left. apply first_of_iff. rewrite E. exact H.
      + intros [F|[N _]]; [apply first_of_iff in F; congruence|]. apply first_of_none in N. congruence.
    - rewrite first_of_iff. split; [intros F; right; split; [apply first_of_none, E|exact F]|].
      intros [F|[_ F]]; [apply first_of_iff in F; congruence|exact F].
  Qed.
  Lemma medium_width w : get_value (medium (Some m) (Some l)) ($"width") = Ok (VInt w) <-> exists h, Size l w h.
  Proof.
    rewrite medium_get, ok_iff. cbv zeta. change (str_eqb ($"width") ($"duration")) with false. cbn iota.
    rewrite (not_tag ($"width") eq_refl), format_key_other by reflexivity. unfold size_key. change (str_eqb ($"width") ($"height")) with false. rewrite (str_eqb_refl ($"width")).
    unfold Size. split.
    - intros H. destruct (or_else _ _) as [t|] eqn:E; [|discriminate]. apply seen_iff in E. destruct (t_height t) as [h|] eqn:Eh; [|discriminate].
      destruct (t_width t) as [w'|] eqn:Ew; [|discriminate]. injection H as ->. eauto.
    - intros (h & t & S & W & Hh). apply seen_iff in S. rewrite S, Hh, W. reflexivity.
  Qed.
  Lemma medium_height h : get_value (medium (Some m) (Some l)) ($"height") = Ok (VInt h) <-> exists w, Size l w h.
  Proof.
    rewrite medium_get, ok_iff. cbv zeta. change (str_eqb ($"height") ($"duration")) with false. cbn iota.
    rewrite (not_tag ($"height") eq_refl), format_key_other by reflexivity. unfold size_key. rewrite (str_eqb_refl ($"height")).
    unfold Size. split.
    - intros H. destruct (or_else _ _) as [t|] eqn:E; [|discriminate]. apply seen_iff in E. destruct (t_height t) as [h'|] eqn:Eh; [|discriminate].
      destruct (t_width t) as [w'|] eqn:Ew; [|discriminate]. injection H as ->. eauto.
    - intros (w & t & S & W & Hh). apply seen_iff in S. rewrite S, Hh, W. reflexivity.
  Qed.
  Lemma medium_format v : get_value (medium (Some m) (Some l)) ($"format") = Ok (VStr v) <-> exists f, Format l f /\ v = lower f.
  Proof.
    rewrite medium_get, ok_iff. cbv zeta. change (str_eqb ($"format") ($"duration")) with false. cbn iota.
    rewrite size_key_other by reflexivity. rewrite (not_tag ($"format") eq_refl). unfold format_key. rewrite (str_eqb_refl ($"format")). unfold Format. split.
    - intros H. destruct (first_of ($"video") l) eqn:E; [discriminate|]. destruct (first_of ($"image") l) as [t|] eqn:Ei; [|discriminate].
      destruct (t_format t) as [f|] eqn:Ef; [|discriminate]. injection H as <-. exists f. split; [|reflexivity]. split; [apply first_of_none, E|].
      exists t. split; [apply first_of_iff, Ei|exact Ef].
    - intros (f & (N & t & F & T) & ->). apply first_of_none in N. apply first_of_iff in F. rewrite N, F, T. reflexivity.
  Qed.
  Lemma lasts_seconds t o s : clear_duration t -> Lasts t s -> seconds (Some t) o = Some (VInt s).
  Proof.
    unfold clear_duration, Lasts, seconds. destruct (t_duration t) as [|z|[[n q]|]]; try contradiction; intros C ->.
    - rewrite Z.quot_div_nonneg by lia. reflexivity.
    - rewrite Z.quot_div_nonneg by lia. reflexivity.
  Qed.
  Lemma no_lasts_seconds t o : clear_duration t -> (forall s, ~ Lasts t s) -> seconds (Some t) o = o.
  Proof.
    unfold clear_duration, Lasts, seconds. destruct (t_duration t) as [|z|[[n q]|]]; intros C N; try reflexivity; try contradiction; exfalso; eapply N; reflexivity.
  Qed.
  Lemma lasts_dec t : clear_duration t -> (exists s, Lasts t s) \/ (forall s, ~ Lasts t s).
  Proof.
    unfold clear_duration, Lasts. destruct (t_duration t) as [|z|[[n q]|]]; intros C; [right; auto|left; eauto|left; eauto|contradiction].
  Qed.
  Lemma first_clear k t : First k l t -> clear_duration t.
  Proof. intros F. apply first_of_iff, find_some in F as [F _]. rewrite Forall_forall in clear. auto. Qed.
  Lemma lasts_unique t s u : Lasts t s -> Lasts t u -> s = u.
  Proof. unfold Lasts. destruct (t_duration t) as [|z|[[n q]|]]; try contradiction; congruence. Qed.
  Lemma medium_duration s : get_value (medium (Some m) (Some l)) ($"duration") = Ok (VInt s) <-> Duration l s.
  Proof.
    rewrite medium_get, ok_iff. cbv zeta. rewrite (str_eqb_refl ($"duration")).
    rewrite size_key_other, format_key_other by reflexivity. rewrite (not_tag ($"duration") eq_refl).
    assert (V : seconds (first_of ($"video") l) None = Some (VInt s) <-> exists t, First ($"video") l t /\ Lasts t s).
    { destruct (first_of ($"video") l) as [t|] eqn:E.
      - pose proof (proj1 (first_of_iff _ _ _) E) as F. pose proof (first_clear _ _ F) as C. destruct (lasts_dec t C) as [[u U]|N].
        + rewrite (lasts_seconds t None u C U). split.
          * intros H. injection H as <-. eauto.
          * intros (t' & F' & L). apply first_of_iff in F'. rewrite E in F'. injection F' as <-. now rewrite (lasts_unique _ _ _ L U).
        + rewrite no_lasts_seconds by assumption. split; [discriminate|]. intros (t' & F' & L). apply first_of_iff in F'. rewrite E in F'. injection F' as <-. exfalso. exact (N _ L).
      - cbn [seconds]. split; [discriminate|]. intros (t' & F' & L). apply first_of_iff in F'. congruence. }
    unfold Duration. destruct (first_of ($"audio") l) as [t|] eqn:E.
    - pose proof (proj1 (first_of_iff _ _ _) E) as F. pose proof (first_clear _ _ F) as C. destruct (lasts_dec t C) as [[u U]|N].
      + rewrite (lasts_seconds t _ u C U). split.
        * intros H. injection H as <-. left. eauto.
        * intros [(t' & F' & L)|[Na _]]; [|exfalso; exact (Na _ _ F U)]. apply first_of_iff in F'. rewrite E in F'. injection F' as <-. now rewrite (lasts_unique _ _ _ L U).
      + rewrite no_lasts_seconds by assumption. rewrite V. split.
        * intros H. right. split; [|exact H]. intros t' u' F' L. apply first_of_iff in F'. rewrite E in F'. injection F' as <-. exact (N _ L).
        * intros [(t' & F' & L)|[_ H]]; [|exact H]. apply first_of_iff in F'. rewrite E in F'. injection F' as <-. exfalso. exact (N _ L).
    - cbn [seconds]. rewrite V. split.
      + intros H. right. split; [|exact H]. intros t' u' F' _. apply first_of_iff in F'. congruence.
      + intros [(t' & F' & _)|[_ H]]; [|exact H]. apply first_of_iff in F'. congruence.
  Qed.
End Handled.
Lemma medium_unhandled m p k : (forall t, main_type m t -> ~ In t [$"image"; $"audio"; $"video"]) -> get_value (medium (Some m) p) k = Err KeyErr.
Proof.
  intros N. destruct (medium_handles (Some m)) eqn:E; [apply handles_iff in E as (t & M & I); exfalso; exact (N t M I)|].
  unfold get_value, get_data, get_data_from_plugin, medium, p_handles. rewrite E. reflexivity.
Qed.
Lemma medium_unparsed g k : get_value (medium g None) k = Err KeyErr.
Proof. unfold get_value, get_data, get_data_from_plugin, medium, p_handles, p_cached. destruct (medium_handles g); reflexivity. Qed.

(** * File systems *)
Lemma names_clean names : Forall plain names -> Forall name_ok names -> clean names.
Proof. intros P N. split; [exact P|]. eapply Forall_impl; [|exact N]. intros a [_ H]. exact H. Qed.
Lemma place_below cwd r names : r <> [] -> names <> [] -> Forall plain names -> Forall name_ok names -> place cwd (path_below r names) = place cwd r ++ names.
Proof.
  intros R Nn P N. rewrite <- model_path by assumption. rewrite walk_relpath_names by assumption. pose proof (names_clean names P N) as C.
  destruct (str_eqb r [DOT]) eqn:E; cbn [negb].
  - apply str_eqb_eq in E as ->. unfold place at 1. change (absolute (join_with [SLASH] names)) with (absolute (join_with ($"/") names)).
    rewrite (join_head names C). exact (go_join_names names _ C).
  - rewrite place_join by exact R. exact (go_join_names names _ C).
Qed.
Lemma place_parent cwd r names : r <> [] -> names <> [] -> Forall plain names -> Forall name_ok names -> place cwd (parent_path r names) = place cwd r ++ removelast names.
Proof.
  intros R Nn P N. unfold parent_path. destruct (exists_last Nn) as (l & n & ->). rewrite removelast_last.
  apply Forall_app in P as [P _]. apply Forall_app in N as [N _]. destruct l as [|y l].
  - rewrite app_nil_r. destruct (str_eqb r [DOT]) eqn:E; [|reflexivity]. apply str_eqb_eq in E as ->. reflexivity.
  - apply place_below; [exact R|discriminate|exact P|exact N].
Qed.
Definition fs_answer (n : N) : str * bool := match dict_get N.eqb n fs_types with Some x => x | None => ($"unknown", false) end.
Lemma fs_value statfs cwd number sd names st e n : absolute cwd = true -> (forall p, statfs p = number (place cwd p)) ->
  root sd <> [] -> names <> [] -> Forall plain names -> Forall name_ok names -> mk_entry sd (walk_relpath names) st = Ok e ->
  number (place cwd (root sd) ++ (if S_ISDIR (st_mode st) then names else removelast names)) = Some n ->
  get_value (fs statfs cwd e) ($"type") = Ok (VStr (fst (fs_answer n))) /\ get_value (fs statfs cwd e) ($"remote") = Ok (VBool (snd (fs_answer n))).
Proof.
  intros A S R Nn P N M Hn. rewrite mk_entry_ok in M by assumption. injection M as <-.
  assert (G : get_fs_type statfs (if S_ISDIR (st_mode st) then abspath cwd (path_below (root sd) names) else abspath cwd (parent_path (root sd) names)) = Val (fs_answer n)).
  { unfold get_fs_type. rewrite S. replace (place cwd _) with (place cwd (root sd) ++ (if S_ISDIR (st_mode st) then names else removelast names)); [rewrite Hn; reflexivity|].
    destruct (S_ISDIR (st_mode st)); rewrite place_abspath by exact A; symmetry; [now apply place_below|now apply place_parent]. }
  match goal with |- get_value (fs _ _ ?e0) _ = _ /\ _ => assert (D : get_data (fs statfs cwd e0) = Ok [($"type", VStr (fst (fs_answer n))); ($"remote", VBool (snd (fs_answer n)))]) end.
  { unfold get_data, get_data_from_plugin, fs, p_handles, p_cached, p_process. cbn [e_status e_path e_dir]. rewrite G. destruct (fs_answer n). reflexivity. }
  unfold get_value. rewrite D. split; reflexivity.
Qed.
Lemma fs_table_nodup : NoDup (map fst fs_types).
Proof.
  assert (B : forall l : list N, (fix check l := match l with [] => true | x :: l => negb (existsb (N.eqb x) l) && check l end) l = true -> NoDup l).
  { induction l as [|x l IH]; intros H; [constructor|]. apply andb_true_iff in H as [H1 H2]. constructor; [|auto]. intros I.
    apply negb_true_iff in H1. assert (E : existsb (N.eqb x) l = true) by (apply existsb_exists; exists x; split; [exact I|apply N.eqb_refl]). congruence. }
  apply B. vm_compute. reflexivity.
Qed.
Lemma fs_row n x : In (n, x) fs_types -> fs_answer n = x.
Proof.
  unfold fs_answer. generalize fs_table_nodup. generalize fs_types. intros l. induction l as [|[k y] l IH]; [intros _ []|]. intros N. cbn [map fst] in N. inversion N as [|? ? H1 H2]; subst.
  intros [I|I]; cbn [dict_get].
  - injection I as -> ->. rewrite N.eqb_refl. reflexivity.
  - destruct (N.eqb_spec n k) as [->|_]; [|now apply IH]. exfalso. apply H1. now apply (in_map fst) in I.
Qed.
Lemma fs_unknown n : ~ In n (map fst fs_types) -> fs_answer n = ($"unknown", false).
Proof.
  unfold fs_answer. generalize fs_types. intros l N. replace (dict_get N.eqb n l) with (@None (str * bool)); [reflexivity|].
  induction l as [|[k y] l IH]; [reflexivity|]. cbn [dict_get map fst] in *. destruct (N.eqb_spec n k) as [->|_]; [exfalso; apply N; now left|].
  apply IH. intros I. apply N. now right.
Qed.
Lemma fs_answer_in n : In (n, fs_answer n) fs_types \/ fs_answer n = ($"unknown", false).
Proof.
  destruct (in_dec N.eq_dec n (map fst fs_types)) as [I|I]; [|right; now apply fs_unknown].
  apply in_map_iff in I as ([k x] & E & I). cbn [fst] in E. subst k. left. rewrite (fs_row n x I). exact I.
Qed.
Lemma fs_remote n n' : fst (fs_answer n) = fst (fs_answer n') -> snd (fs_answer n) = snd (fs_answer n').
Proof.
  assert (C : forallb (fun x => forallb (fun y => negb (str_eqb (fst (snd x)) (fst (snd y))) || Bool.eqb (snd (snd x)) (snd (snd y))) ((0%N, ($"unknown", false)) :: fs_types)) ((0%N, ($"unknown", false)) :: fs_types) = true)
    by (vm_compute; reflexivity).
  assert (I : forall k, exists j, In (j, fs_answer k) ((0%N, ($"unknown", false)) :: fs_types)).
  { intros k. destruct (fs_answer_in k) as [H|H]; [exists k; now right|exists 0%N; left; now rewrite H]. }
  intros E. destruct (I n) as [j J], (I n') as [j' J']. rewrite forallb_forall in C. apply C in J. rewrite forallb_forall in J. apply J in J'.
  cbn [snd] in J'. rewrite E, str_eqb_refl in J'. cbn [negb orb] in J'. now apply Bool.eqb_prop in J'.
Qed.
Lemma fs_fails statfs cwd e : (if S_ISDIR (st_mode (e_status e)) then statfs (abspath cwd (e_path e)) else statfs (abspath cwd (e_dir e))) = None ->
  get_data (fs statfs cwd e) = Err PluginErr.
Proof.
  intros H. unfold get_data, get_data_from_plugin, fs, p_handles, p_cached, p_process, get_fs_type.
  destruct (S_ISDIR (st_mode (e_status e))); rewrite H; reflexivity.
Qed.
(** Remote and type, for every two files *)
Lemma fs_consistent statfs statfs' cwd cwd' e e' v : get_value (fs statfs cwd e) ($"type") = Ok v -> get_value (fs statfs' cwd' e') ($"type") = Ok v ->
  get_value (fs statfs cwd e) ($"remote") = get_value (fs statfs' cwd' e') ($"remote").
Proof.
  assert (G : forall statfs cwd e v, get_value (fs statfs cwd e) ($"type") = Ok v -> exists n, v = VStr (fst (fs_answer n)) /\ get_value (fs statfs cwd e) ($"remote") = Ok (VBool (snd (fs_answer n)))).
  { clear. intros statfs cwd e v. unfold get_value, get_data, get_data_from_plugin, fs, p_handles, p_cached, p_process, get_fs_type.
    destruct (statfs (if S_ISDIR (st_mode (e_status e)) then abspath cwd (e_path e) else abspath cwd (e_dir e))) as [n|].
    - fold (fs_answer n). destruct (fs_answer n) as [name r] eqn:E. intros H. injection H as <-. exists n. rewrite E. split; reflexivity.
    - discriminate. }
  intros H H'. apply G in H as (n & E & ->). apply G in H' as (n' & E' & ->). rewrite E in E'. injection E' as E'. now rewrite (fs_remote _ _ E').
Qed.

(** * Extended attributes *)
Section Attributes.
  Variable getxattr : str -> option str.
  Variable fsdecode : str -> option str.
  Variable escape : str -> str.
  Definition text (b : str) : str := match fsdecode b with Some v => v | None => escape b end.
  Lemma xattr_value d f keys : d || f = true ->
    get_value (xattr getxattr fsdecode escape d f keys) ($"xattrs") = Ok (VList match keys with None => [] | Some l => xattr_loop getxattr fsdecode escape l end).
  Proof. intros H. unfold get_value, get_data, get_data_from_plugin, xattr, p_handles, p_cached, p_process. rewrite H. reflexivity. Qed.
  Lemma xattr_all keys vals : Forall2 (fun k v => getxattr k = Some v) keys vals ->
    xattr_loop getxattr fsdecode escape keys = map (fun kv => fst kv ++ $"=" ++ text (snd kv)) (combine keys vals).
  Proof. induction 1 as [|k v keys vals E F IH]; cbn [xattr_loop combine map fst snd]; [reflexivity|]. rewrite E, IH. reflexivity. Qed.
  Lemma xattr_prefix keys vals k rest : Forall2 (fun k v => getxattr k = Some v) keys vals -> getxattr k = None ->
    xattr_loop getxattr fsdecode escape (keys ++ k :: rest) = map (fun kv => fst kv ++ $"=" ++ text (snd kv)) (combine keys vals).
  Proof. induction 1 as [|k' v keys vals E F IH]; intros N; cbn [app xattr_loop combine map fst snd]; [now rewrite N|]. rewrite E, IH by exact N. reflexivity. Qed.
End Attributes.
Lemma equals_split (k k' v v' : str) : ~ In 61%N k -> ~ In 61%N k' -> k ++ 61%N :: v = k' ++ 61%N :: v' -> k = k' /\ v = v'.
Proof.
  revert k'. induction k as [|c k IH]; intros [|c' k'] N N' E; cbn [app] in E.
  - now injection E.
  - injection E as E _. exfalso. apply N'. now left.
  - injection E as E _. exfalso. apply N. now left.
  - injection E as -> E. apply IH in E as [-> ->]; [split; reflexivity| |]; intros I; [apply N|apply N']; now right.
Qed.
Lemma xattr_lines (f : str -> str) l l' : Forall (fun kv => ~ In 61%N (fst kv)) l -> Forall (fun kv => ~ In 61%N (fst kv)) l' ->
  map (fun kv => fst kv ++ $"=" ++ f (snd kv)) l = map (fun kv => fst kv ++ $"=" ++ f (snd kv)) l' ->
  map (fun kv : str * str => (fst kv, f (snd kv))) l = map (fun kv => (fst kv, f (snd kv))) l'.
Proof.
  intros F. revert l'. induction F as [|[k v] l K F IH]; intros [|[k' v'] l'] F' E; try discriminate; [reflexivity|].
  inversion F' as [|? ? K' F'']; subst. cbn [map fst snd] in *.
  assert (E1 := f_equal (fun x => hd [] x) E). assert (E2 := f_equal (fun x => tl x) E). cbn [hd tl] in E1, E2.
  destruct (equals_split k k' (f v) (f v') K K' E1) as [-> ->]. f_equal. apply IH; assumption.
Qed.
Lemma combine_forall {A B} (P : A -> Prop) (l : list A) (l' : list B) : Forall P l -> Forall (fun kv => P (fst kv)) (combine l l').
Proof. intros F. revert l'. induction F as [|x l H F IH]; intros [|y l']; cbn [combine]; constructor; auto. Qed.
Lemma xattr_determines fsdecode get get' d f d' f' keys keys' vals vals' l : d || f = true -> d' || f' = true ->
  (forall b, exists v, fsdecode b = Some v) -> (forall b b' : str, fsdecode b = fsdecode b' -> b = b') ->
  Forall2 (fun k v => get k = Some v) keys vals -> Forall2 (fun k v => get' k = Some v) keys' vals' ->
  Forall (fun k => ~ In 61%N k) keys -> Forall (fun k => ~ In 61%N k) keys' ->
  (forall escape, get_value (xattr get fsdecode escape d f (Some keys)) ($"xattrs") = Ok (VList l)) ->
  (forall escape, get_value (xattr get' fsdecode escape d' f' (Some keys')) ($"xattrs") = Ok (VList l)) ->
  combine keys vals = combine keys' vals'.
Proof.
  intros H H' Tot Inj F F' K K' E E'. specialize (E (fun b => b)). specialize (E' (fun b => b)).
  rewrite xattr_value in E, E' by assumption. rewrite (xattr_all _ _ _ _ _ F) in E. rewrite (xattr_all _ _ _ _ _ F') in E'.
  rewrite <- E' in E. assert (E2 := f_equal (fun r => match r with Ok (VList x) => x | _ => [] end) E). cbv beta iota in E2.
  apply xattr_lines in E2; [|exact (combine_forall (fun k : str => ~ In 61%N k) keys vals K)|exact (combine_forall (fun k : str => ~ In 61%N k) keys' vals' K')].
  assert (J : forall x y : list (str * str), map (fun kv => (fst kv, text fsdecode (fun b => b) (snd kv))) x = map (fun kv => (fst kv, text fsdecode (fun b => b) (snd kv))) y -> x = y).
  { clear -Tot Inj. induction x as [|[k v] x IH]; intros [|[k' v'] y] Q; try discriminate; [reflexivity|]. cbn [map fst snd] in Q.
    injection Q as Qk Qv Q. apply IH in Q as ->. subst k'. unfold text in Qv. destruct (Tot v) as [a Ea], (Tot v') as [b Eb]. rewrite Ea, Eb in Qv. subst b.
    rewrite (Inj v v') by congruence. reflexivity. }
  exact (J _ _ E2).
Qed.
