(** Empty files and directories, mount points. *)
From Coq Require Import List NArith ZArith Bool Lia.
From Verif Require Import Py OsPath PathSpec ExprSpec GrammarSpec EntrySpec EntryModel EntryProofs PathModel TypeModel RegistryModel TestModel ArgumentsModel ArgumentsSpec
  SearchModel SearchSpec SearchProofs SearchTreeProofs AttributeModel AttributeProofs DeviceSpec.
Import ListNotations.
Local Open Scope Z_scope.

Lemma isdir_iff st : S_ISDIR (st_mode st) = true <-> directory st.
Proof.
  unfold directory. rewrite <- type_of_mode_spec. unfold type_of_mode. destruct (S_ISDIR _); [tauto|].
  split; [discriminate|]. repeat match goal with |- context [if ?b then _ else _] => destruct b end; discriminate.
Qed.
Lemma isreg_iff st : S_ISREG (st_mode st) = true <-> regular st.
Proof.
  unfold regular. rewrite <- type_of_mode_spec. unfold type_of_mode, S_ISDIR, S_ISREG.
  destruct (Z.eqb_spec (S_IFMT (st_mode st)) 16384) as [->|N]; [split; discriminate|].
  destruct (S_IFMT (st_mode st) =? 32768); [tauto|].
  split; [discriminate|]. repeat match goal with |- context [if ?b then _ else _] => destruct b end; discriminate.
Qed.
Lemma entry_status sd r st e : mk_entry sd r st = Ok e -> e_status e = st /\ e_start e = sd.
Proof.
  unfold mk_entry. destruct (split _) as [d n]. destruct n as [|c n]; [discriminate|]. intros [= <-]. split; reflexivity.
Qed.

Section Devices.
  Variable inode_of : entry -> inode.
  Variable scandir : str -> option (list str).
  Variable readlink : str -> option str.
  Variable realpath : str -> str.
  Variable exists_ : str -> bool.
  Variable lstat_dev : str -> option Z.
  Variable users groups : Z -> option str.
  Variable mounts : list EntryModel.mount.
  Variable memo : list (Z * str) * list (Z * str).
  Notation file_attribute := (file_attribute inode_of scandir readlink realpath exists_ lstat_dev users groups mounts memo).
  Notation real_other := (real_other inode_of scandir readlink realpath exists_ lstat_dev users groups mounts memo).

  Lemma empty_iff e : e_empty scandir e = true <-> Empty scandir e.
  Proof.
    unfold e_empty, Empty, size_of. rewrite <- isdir_iff, <- isreg_iff. destruct (S_ISDIR (st_mode (e_status e))) eqn:D.
    - assert (R : S_ISREG (st_mode (e_status e)) = false).
      { unfold S_ISDIR, S_ISREG in *. apply Z.eqb_eq in D. now rewrite D. }
      rewrite R. destruct (scandir (e_path e)) as [[|]|]; intuition congruence.
    - destruct (S_ISREG (st_mode (e_status e))); [rewrite Z.eqb_eq|]; intuition congruence.
  Qed.
  Lemma empty_value e : exists b, file_attribute e ($"empty") = Ok (Some (VBool b)) /\ (b = true <-> Empty scandir e).
  Proof.
    exists (e_empty scandir e). split; [|apply empty_iff].
    unfold AttributeProofs.file_attribute, file_other, file_value. names. cbv zeta. cbn [bindr]. reflexivity.
  Qed.
  Lemma pseudo_type_iff t : In t pseudo_fs <-> pseudo_type t.
  Proof.
    unfold pseudo_type. rewrite <- !in_app_iff. rewrite <- !str_in_iff.
    assert (E : forall l l', forallb (fun x => str_in x l') l = true -> str_in t l = true -> str_in t l' = true).
    { intros l l' F H. apply str_in_iff in H. rewrite forallb_forall in F. exact (F t H). }
    split; apply E; vm_compute; reflexivity.
  Qed.
  Lemma mount_values e : let m := e_mpath mounts e in
    file_attribute e ($"mpath") = Ok (Some (VStr (fst (fst m)))) /\ file_attribute e ($"devname") = Ok (Some (VStr (snd (fst m)))) /\ file_attribute e ($"fstype") = Ok (Some (VStr (snd m))) /\ exists b, file_attribute e ($"pseudofs") = Ok (Some (VBool b)) /\ (b = true <-> pseudo_type (snd m)).
  Proof.
    cbv zeta. repeat split; [..|exists (str_in (snd (e_mpath mounts e)) pseudo_fs); split; [|rewrite str_in_iff; apply pseudo_type_iff]];
      unfold AttributeProofs.file_attribute, file_other, file_value; names; cbv zeta; cbn [bindr]; reflexivity.
  Qed.
  Lemma nearest_values e t : e_abspath e = SLASH :: t ->
    (forall m, In m mounts -> normal (m_path m) /\ e_abspath e <> m_path m) ->
    (exists m, In m mounts /\ contains (m_path m) (e_abspath e)) ->
    exists m b, nearest mounts (e_abspath e) m /\ file_attribute e ($"mpath") = Ok (Some (VStr (rstrip_p (N.eqb SLASH) (m_path m) ++ [SLASH]))) /\ file_attribute e ($"devname") = Ok (Some (VStr (snd (fst m)))) /\ file_attribute e ($"fstype") = Ok (Some (VStr (snd m))) /\ file_attribute e ($"pseudofs") = Ok (Some (VBool b)) /\ (b = true <-> pseudo_type (snd m)).
  Proof.
    intros A H X. destruct (nearest_mount mounts (e_abspath e) t A H X) as (m & N & G).
    destruct (mount_values e) as (V1 & V2 & V3 & b & V4 & V5). unfold e_mpath in *. rewrite G in *. exists m, b. cbn [fst snd] in *. split; [exact N|]. repeat (split; [assumption|]). exact V5.
  Qed.
  Lemma mount_shown e : file_attribute e ($"mount") = Ok (Some (VBool (e_mount realpath lstat_dev e))).
  Proof. unfold AttributeProofs.file_attribute, file_other, file_value. names. cbv zeta. cbn [bindr]. reflexivity. Qed.
  Lemma mount_iff e p : lstat_dev (realpath (join (e_path e) ($".."))) = Some p -> realpath (join (e_path e) ($"..")) <> e_path e ->
    e_mount realpath lstat_dev e = true <-> directory (e_status e) /\ st_dev (e_status e) <> p.
  Proof.
    intros L N. unfold e_mount, directory. rewrite <- type_of_mode_spec, L.
    destruct (str_eqb (type_of_mode (st_mode (e_status e))) ($"directory")) eqn:E; cbn [negb].
    - apply str_eqb_eq in E. apply str_eqb_neq in N. cbv zeta. rewrite N, negb_true_iff, Z.eqb_neq. tauto.
    - apply str_eqb_neq in E. split; [discriminate|]. intros [K _]. contradiction.
  Qed.
  Lemma mount_false e : ~ directory (e_status e) -> e_mount realpath lstat_dev e = false.
  Proof.
    unfold e_mount, directory. rewrite <- type_of_mode_spec. intros N. apply str_eqb_neq in N. now rewrite N.
  Qed.

  Variable cwd : str.
  Variable device : str -> Z.
  Variable listing : str -> list file.
  Notation upwards := (upwards realpath lstat_dev cwd device listing).
  Notation contents := (contents cwd listing).
  Notation entry_at := (entry_at cwd device).
  Notation start_device a d := (device (start_path cwd (absolute_paths a) d)).

  Lemma mount_place a d names f e p : upwards a d -> Place (contents a d) names f -> entry_at a d names f e ->
    ParentDevice (contents a d) (start_device a d) names p ->
    exists b, file_attribute e ($"mount") = Ok (Some (VBool b)) /\ (b = true <-> directory (f_status f) /\ st_dev (f_status f) <> p).
  Proof.
    intros U P E H. exists (e_mount realpath lstat_dev e). split; [apply mount_shown|].
    destruct (entry_status _ _ _ _ E) as [S _]. rewrite <- S.
    destruct (S_ISDIR (st_mode (e_status e))) eqn:D.
    - apply isdir_iff in D. rewrite S in D. destruct (U names f e p P E D H) as [U1 U2]. now apply mount_iff.
    - assert (K : ~ directory (e_status e)) by (intros K; apply isdir_iff in K; congruence).
      rewrite (mount_false e K). split; [discriminate|]. now intros [X _].
  Qed.
  Lemma place_entry a d names f : valid (contents a d) -> start_path cwd (absolute_paths a) d <> [] ->
    Place (contents a d) names f -> exists e, entry_at a d names f e.
  Proof.
    intros V N P. destruct (place_valid _ _ _ V P) as (_ & _ & F).
    exact (entry_ok (start_dir cwd device (absolute_paths a) d) N names (f_status f) (place_nonempty _ _ _ P) F).
  Qed.
  Lemma crossing a d names f : upwards a d -> valid (contents a d) -> start_path cwd (absolute_paths a) d <> [] ->
    Place (contents a d) names f -> directory (f_status f) -> st_dev (f_status f) <> start_device a d ->
    exists k m g e, names = k ++ m /\ k <> [] /\ Place (contents a d) k g /\ directory (f_status g) /\ entry_at a d k g e /\
      file_attribute e ($"mount") = Ok (Some (VBool true)).
  Proof.
    intros U V N P. induction P as [f Hf|names g f Hg IH D Hf]; intros Df Dv.
    - assert (P : Place (contents a d) [f_name f] f) by now apply place_here.
      destruct (place_entry a d _ _ V N P) as [e E].
      destruct (mount_place a d _ f e (start_device a d) U P E) as (b & Eb & B); [apply parent_start|].
      exists [f_name f], [], f, e. split; [reflexivity|]. split; [discriminate|]. split; [exact P|]. split; [exact Df|]. split; [exact E|].
      rewrite Eb. do 3 f_equal. now apply B.
    - destruct (Z.eq_dec (st_dev (f_status f)) (st_dev (f_status g))) as [Q|Q].
      + destruct IH as (k & m & h & e & E1 & E2 & E3); [exact D|congruence|]. exists k, (m ++ [f_name f]), h, e.
        split; [subst names; now rewrite app_assoc|]. split; [exact E2|exact E3].
      + assert (P : Place (contents a d) (names ++ [f_name f]) f) by exact (place_below _ _ _ _ Hg D Hf).
        destruct (place_entry a d _ _ V N P) as [e E].
        destruct (mount_place a d _ f e (st_dev (f_status g)) U P E) as (b & Eb & B); [now apply parent_dir|].
        exists (names ++ [f_name f]), [], f, e. split; [now rewrite app_nil_r|]. split; [exact (place_nonempty _ _ _ P)|].
        split; [exact P|]. split; [exact Df|]. split; [exact E|]. rewrite Eb. do 3 f_equal. now apply B.
  Qed.

  (** ** Tests *)
  Variable R : Type.
  Variable rcompile : str -> res R.
  Variable rsearch : R -> str -> bool.
  Variable parse_time : str -> res Z.
  Variable debug : bool.
  Variable case : case_mode.
  Variable registered : list plugin.
  Variable init_plugin : str -> res unit.
  Variable reference_value : str * str -> str -> res value.
  Variable plugin_value : entry -> str * str -> option value.
  Hypothesis H1 : find_plugin registered ($"file") = Some file_plugin.
  Hypothesis H2 : init_plugin ($"file") = Ok tt.
  Notation Legal := (Legal R rcompile parse_time debug case registered init_plugin reference_value).
  Notation Holds e s := (Holds R rcompile rsearch parse_time debug case registered init_plugin reference_value
    (attribute_value real_other plugin_value e) s).
  Lemma flag_holds n v b : In n [$"empty"; $"mount"] -> In (v, b) [($"yes", true); ($"no", false)] ->
    Legal (n ++ $"=" ++ v) /\ forall e, Holds e (n ++ $"=" ++ v) <-> file_attribute e n = Ok (Some (VBool b)).
  Proof.
    intros Hn Hv.
    assert (Hf : In n flags) by (cbn [flags In] in *; tauto).
    destruct (boolean_test R rcompile rsearch parse_time debug case registered init_plugin reference_value real_other plugin_value H1 H2
      n v b Hf Hv) as (_ & L & T).
    split; [exact L|]. intros e. rewrite (T e). cbn [In] in Hn. destruct Hn as [<-|[<-|[]]].
    - change (attribute_value real_other plugin_value e ($"file", $"empty")) with (Some (VBool (e_empty scandir e))).
      unfold AttributeProofs.file_attribute, file_other, file_value. names. cbv zeta. cbn [bindr]. split; congruence.
    - change (attribute_value real_other plugin_value e ($"file", $"mount")) with (Some (VBool (e_mount realpath lstat_dev e))).
      rewrite mount_shown. split; congruence.
  Qed.
  Lemma empty_holds e : (Holds e ($"empty=yes") <-> Empty scandir e) /\ (Holds e ($"empty=no") <-> ~ Empty scandir e).
  Proof.
    destruct (empty_value e) as (b & E & B).
    destruct (flag_holds ($"empty") ($"yes") true) as [_ Y]; [now left|now left|].
    destruct (flag_holds ($"empty") ($"no") false) as [_ F]; [now left|right; now left|].
    specialize (Y e). specialize (F e). change ($"empty" ++ $"=" ++ $"yes") with ($"empty=yes") in Y. change ($"empty" ++ $"=" ++ $"no") with ($"empty=no") in F.
    rewrite E in Y, F. split; [rewrite Y, <- B|rewrite F, <- B]; destruct b; intuition congruence.
  Qed.
  Notation Reported := (Reported R rcompile rsearch parse_time debug case registered init_plugin reference_value real_other plugin_value cwd device listing).
  Lemma mount_excluded a ess e : In ($"mount=yes") (a_exclude a) ->
    (forall d, In d (a_directories a) -> upwards a d /\ valid (contents a d) /\ start_path cwd (absolute_paths a) d <> []) ->
    Reported a ess e -> directory (e_status e) -> st_dev (e_status e) = start_dev (e_start e).
  Proof.
    intros X Hd (d & names & f & Id & P & E & C & _) D. destruct (Hd d Id) as (U & V & N).
    destruct (entry_status _ _ _ _ E) as [S1 S2]. rewrite S1 in *. rewrite S2. cbn [start_dir start_dev].
    destruct (Z.eq_dec (st_dev (f_status f)) (start_device a d)) as [Q|Q]; [exact Q|exfalso].
    destruct (crossing a d names f U V N P D Q) as (k & m & g & e' & -> & Nk & Pg & _ & Eg & M).
    apply (C k m g e' eq_refl Nk Pg Eg). left. exists ($"mount=yes"). split; [exact X|].
    destruct (flag_holds ($"mount") ($"yes") true) as [_ Y]; [right; now left|now left|]. specialize (Y e').
    change ($"mount" ++ $"=" ++ $"yes") with ($"mount=yes") in Y. now apply Y.
  Qed.
End Devices.
