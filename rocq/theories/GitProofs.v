From Coq Require Import List NArith ZArith Bool Lia.
From Verif Require Import Py OsPath PathModel PathSpec PathProofs IgnoreSpec IgnoreListProofs IgnoreTreeProofs DirectoryProofs GitModel GitSpec.
Import ListNotations.
Local Open Scope nat_scope.

Lemma abs_inj a b : Forall plain_name a -> Forall plain_name b -> abs_dir a = abs_dir b -> a = b.
Proof.
  intros A B E. assert (D : forall l : list str, l = [] \/ l <> []) by (intros [|x l]; [now left|right; discriminate]).
  destruct (D a) as [->|Na], (D b) as [->|Nb].
  - reflexivity.
  - exfalso. symmetry in E. revert E. exact (abs_dir_nonroot b Nb B).
  - exfalso. revert E. exact (abs_dir_nonroot a Na A).
  - apply (f_equal (split_on SLASH)) in E. rewrite !split_abs in E by assumption. congruence.
Qed.
Lemma abs_length l : Forall plain_name l -> length l <= length (abs_dir l).
Proof.
  intros F. unfold abs_dir. rewrite app_length. change (length ($"/")) with 1.
  assert (G : length l <= S (length (join_with ($"/") l))).
  { induction F as [|x l ((Nx & _) & _) F IH]; [cbn; lia|]. destruct l as [|y l].
    - cbn [join_with length]. destruct x; [contradiction|cbn [length]; lia].
    - change (join_with ($"/") (x :: y :: l)) with (x ++ ($"/") ++ join_with ($"/") (y :: l)). rewrite !app_length.
      change (length ($"/")) with 1. cbn [length] in *. lia. }
  lia.
Qed.
(** os.path.join with a relative path *)
Lemma os_join_abs r l : Forall plain_name r -> l <> [] -> Forall plain_name l ->
  OsPath.os_join (abs_dir r) (join_with ($"/") l) = abs_dir (r ++ l).
Proof.
  intros Fr Nl Fl. unfold OsPath.os_join.
  assert (H : starts_with ($"/") (join_with ($"/") l) = false).
  { destruct l as [|x l]; [contradiction|]. inversion Fl as [|? ? ((X1 & X2) & _) _]; subst. destruct x as [|c x]; [contradiction|].
    assert (C : c <> 47%N) by (intros ->; apply X2; now left).
    rewrite <- absolute_starts. destruct l; cbn; now apply N.eqb_neq. }
  rewrite H. destruct r as [|y r].
  - reflexivity.
  - assert (E : ends_with ($"/") (abs_dir (y :: r)) = false).
    { destruct (ends_with ($"/") (abs_dir (y :: r))) eqn:X; [|reflexivity]. apply ends_with_iff in X as [t X].
      exfalso. apply (abs_last (y :: r)); [discriminate|exact Fr|]. rewrite X. change ($"/") with [SLASH]. apply last_last. }
    destruct (abs_dir (y :: r)) as [|c s] eqn:A; [discriminate|]. rewrite E. rewrite <- A. unfold abs_dir.
    change ($"/") with [SLASH]. rewrite join_with_app by (discriminate || exact Nl). now rewrite <- !app_assoc.
Qed.
Lemma dot_git_plain : plain_name ($".git").
Proof. split; [split; [discriminate|cbn; intuition discriminate]|split; discriminate]. Qed.
Lemma home_path (comps : list str) (is_dir : bool) : Forall plain_name comps -> comps <> [] ->
  (if is_dir then abs_dir comps else OsPath.dirname (abs_dir comps)) = abs_dir (home comps is_dir) /\ Forall plain_name (home comps is_dir).
Proof.
  intros F N. destruct is_dir; [split; [reflexivity|exact F]|]. cbn [home]. destruct (exists_last N) as (l & x & ->).
  rewrite removelast_last. apply Forall_app in F as [Fl Fx]. inversion Fx as [|? ? ((_ & X) & _) _]; subst.
  split; [now apply dirname_abs|exact Fl].
Qed.

(** ** Lines *)
Lemma take_word_app w c r : (forall x, In x w -> is_space x = false) -> is_space c = true -> take_word (w ++ c :: r) = (w, c :: r).
Proof.
  intros W C. induction w as [|x w IH]; cbn [app take_word]; [now rewrite C|].
  rewrite (W x (or_introl eq_refl)). rewrite IH; [reflexivity|]. intros y Hy. apply W. now right.
Qed.
Lemma file_line_head l : good_path l -> exists c t, file_line l = c :: t /\ is_space c = false.
Proof.
  intros (N & F & H). destruct l as [|x l]; [contradiction|]. inversion F as [|? ? ((X & _) & _) _]; subst.
  destruct x as [|c x]; [contradiction|]. unfold file_line. destruct l; cbn; eauto.
Qed.
Lemma change_words c : good_change c ->
  split_once (change_line c) = Ok (filter (fun x => negb (is_space x)) [ch_index c; ch_file c], file_line (ch_path c)).
Proof.
  destruct c as [x y p]. intros (Sx & Sy & Ne & Gp). cbn [ch_index ch_file ch_path] in *. unfold change_line, split_once. cbn [ch_index ch_file ch_path].
  destruct (file_line_head p Gp) as (c & t & -> & C).
  assert (Sp : is_space 32%N = true) by reflexivity.
  assert (T : lstrip_p is_space (c :: t) = c :: t) by (cbn [lstrip_p]; now rewrite C).
  destruct (is_space x) eqn:Ex, (is_space y) eqn:Ey.
  - destruct Ne; discriminate.
  - cbn [app lstrip_p filter]. rewrite Ex, Ey. cbn [take_word negb]. rewrite Ey, Sp. cbn [lstrip_p]. rewrite Sp, C. reflexivity.
  - cbn [app lstrip_p filter]. rewrite Ex, Ey. cbn [take_word negb]. rewrite Ex, Ey. cbn [lstrip_p]. rewrite Ey, Sp, C. reflexivity.
  - cbn [app lstrip_p filter]. rewrite Ex, Ey. cbn [take_word negb]. rewrite Ex, Ey, Sp. cbn [lstrip_p]. rewrite Sp, C. reflexivity.
Qed.
Lemma untracked_word c : good_change c ->
  str_eqb (filter (fun x => negb (is_space x)) [ch_index c; ch_file c]) ($"??") = true <-> untracked c.
Proof.
  destruct c as [x y p]. intros (Sx & Sy & Ne & _). unfold untracked. cbn [ch_index ch_file filter] in *. rewrite str_eqb_eq.
  destruct (is_space x) eqn:Ex, (is_space y) eqn:Ey; cbn [negb].
  - destruct Ne; discriminate.
  - split; [discriminate|]. intros [-> _]. discriminate.
  - split; [discriminate|]. intros [_ ->]. discriminate.
  - split; [intros H; injection H as -> ->; split; reflexivity|intros [-> ->]; reflexivity].
Qed.
Lemma status_ok r changes : Forall plain_name r -> Forall good_change changes ->
  exists l, status (abs_dir r) (map change_line changes) = Ok l /\
    forall p, In p l <-> exists c, In c changes /\ ~ untracked c /\ p = abs_dir (r ++ ch_path c).
Proof.
  intros Fr F. induction F as [|c changes G F (l & E & I)]; cbn [map status].
  - exists []. split; [reflexivity|]. intros p. split; [intros []|intros (c & [] & _)].
  - rewrite change_words by exact G. cbn [bindr fst snd]. rewrite E. cbn [bindr]. eexists. split; [reflexivity|]. intros p.
    pose proof (untracked_word c G) as U.
    assert (J : OsPath.os_join (abs_dir r) (file_line (ch_path c)) = abs_dir (r ++ ch_path c)).
    { destruct G as (_ & _ & _ & (N & Fp & _)). now apply os_join_abs. }
    destruct (str_eqb _ _).
    + rewrite I. split; [intros (k & H1 & H2 & H3); exists k; split; [now right|auto]|].
      intros (k & [<-|H1] & H2 & H3); [exfalso; apply H2, U; reflexivity|eauto].
    + cbn [In]. rewrite I. split.
      * intros [<-|(k & H1 & H2 & H3)]; [|exists k; split; [now right|auto]]. exists c. split; [now left|].
        split; [|now rewrite J]. intros X. apply U in X. discriminate.
      * intros (k & [<-|H1] & H2 & H3); [left; now rewrite J|right; eauto].
Qed.
Lemma filelist_ok r files : Forall plain_name r -> Forall good_path files ->
  forall p, In p (filelist (abs_dir r) (map file_line files)) <-> exists f, In f files /\ p = abs_dir (r ++ f).
Proof.
  intros Fr F p. unfold filelist. rewrite in_map_iff. split.
  - intros (x & <- & H). apply in_map_iff in H as (f & <- & H). exists f. split; [exact H|].
    rewrite Forall_forall in F. destruct (F f H) as (N & Fp & _). now apply os_join_abs.
  - intros (f & H & ->). exists (file_line f). split; [|now apply in_map].
    rewrite Forall_forall in F. destruct (F f H) as (N & Fp & _). now apply os_join_abs.
Qed.

(** ** Entries *)
Definition listed (paths : list str) (is_dir : bool) (abspath : str) : bool :=
  if is_dir then existsb (fun p => starts_with (abspath ++ ($"/")) p) paths else str_in abspath paths.
Lemma below_prefix a b : a <> [] -> Forall plain_name a -> Forall plain_name b ->
  (starts_with (abs_dir a ++ ($"/")) (abs_dir b) = true <-> exists rest, rest <> [] /\ b = a ++ rest).
Proof.
  intros Na Fa Fb. rewrite starts_with_iff. change ($"/") with [SLASH]. split.
  - intros [t E]. rewrite <- app_assoc in E.
    assert (Nb : b <> []).
    { intros ->. apply (f_equal (@length N)) in E. unfold abs_dir in E. rewrite !app_length in E. cbn in E. lia. }
    apply (f_equal (split_on SLASH)) in E. cbn [app] in E.
    rewrite DirectoryProofs.split_on_app_any, !split_abs in E by assumption. exists (split_on SLASH t). split; [apply split_on_nonnil|].
    cbn [app] in E. congruence.
  - intros (rest & N & ->). exists (join_with [SLASH] rest). unfold abs_dir. change ($"/") with [SLASH].
    rewrite join_with_app by assumption. now rewrite <- !app_assoc.
Qed.

Section Git.
  Variable isdir : str -> bool.
  Variable ls_files porcelain : str -> list str.
  Variable files : list str -> list (list str).
  Variable changes : list str -> list change.
  Notation git := (git isdir).
  Hypothesis parses : forall r, Forall plain_name r -> git r -> exists st, status (abs_dir r) (porcelain (abs_dir r)) = Ok st.
  Notation find_repo := (find_repo isdir ls_files porcelain).
  Notation process := (process isdir ls_files porcelain).
  Notation process_all := (process_all isdir ls_files porcelain).

  (** What is right for a directory *)
  Definition answer (d : list str) (x : repo) : Prop :=
    match x with
    | None => no_repo git d
    | Some (rd, fl, st) => exists r, nearest_repo git d r /\ rd = abs_dir r /\ fl = filelist rd (ls_files rd) /\
        status rd (porcelain rd) = Ok st
    end.
  Definition cache_ok (c : cache) : Prop :=
    forall d x, Forall plain_name d -> lookup (abs_dir d) c = Some x -> answer d x.

  Lemma cache_add c d x : Forall plain_name d -> cache_ok c -> answer d x -> cache_ok ((abs_dir d, x) :: c).
  Proof.
    intros Fd C A d' x' F'. cbn [lookup]. destruct (str_eqb (abs_dir d) (abs_dir d')) eqn:E.
    - apply str_eqb_eq in E. apply abs_inj in E; [|assumption..]. subst d'. intros H. injection H as <-. exact A.
    - apply C. exact F'.
  Qed.
  Lemma git_join d : Forall plain_name d -> OsPath.os_join (abs_dir d) ($".git") = abs_dir (d ++ [$".git"]).
  Proof. intros F. apply (os_join_abs d [$".git"]); [exact F|discriminate|]. constructor; [exact dot_git_plain|constructor]. Qed.
  Lemma prefix_snoc {A} (l : list A) x r rest : l ++ [x] = r ++ rest -> (r = l ++ [x] /\ rest = []) \/ exists rest', l = r ++ rest'.
  Proof.
    intros E. destruct rest as [|y rest] using rev_ind; [left; rewrite app_nil_r in E; now split|right].
    rewrite app_assoc in E. apply app_inj_tail in E as [E _]. eauto.
  Qed.
  Lemma nearest_up d x r : ~ git (d ++ [x]) -> nearest_repo git d r -> nearest_repo git (d ++ [x]) r.
  Proof.
    intros N ((rest & ->) & G & M). split; [exists (rest ++ [x]); now rewrite app_assoc|]. split; [exact G|].
    intros r' rest' E G'. apply prefix_snoc in E as [[-> _]|[rest'' E]]; [contradiction|]. eapply M; eauto.
  Qed.
  Lemma none_up d x : ~ git (d ++ [x]) -> no_repo git d -> no_repo git (d ++ [x]).
  Proof.
    intros N M r rest E G. apply prefix_snoc in E as [[-> _]|[rest' E]]; [contradiction|]. exact (M r rest' E G).
  Qed.
  Lemma find_repo_ok d : Forall plain_name d -> forall fuel c, cache_ok c -> length d < fuel ->
    exists x c', find_repo fuel c (abs_dir d) = Ok (x, c') /\ answer d x /\ cache_ok c'.
  Proof.
    induction d as [|n d IH] using rev_ind; intros F fuel c C L.
    - destruct fuel as [|fuel]; [cbn in L; lia|]. cbn [GitModel.find_repo].
      destruct (lookup (abs_dir []) c) as [x|] eqn:Lk; [exists x, c; auto|].
      pose proof (git_join [] F) as J.
      destruct (isdir (OsPath.os_join (abs_dir []) ($".git"))) eqn:I.
      + rewrite J in I. destruct (parses [] F I) as (st & Es). rewrite Es. cbn [bindr].
        do 2 eexists. split; [reflexivity|]. match goal with |- answer [] ?x /\ _ => assert (A : answer [] x) end.
        { exists []. split; [|auto]. split; [now exists []|]. split; [exact I|]. intros r' rest' E _.
          symmetry in E. apply app_eq_nil in E as [-> _]. reflexivity. }
        split; [exact A|now apply cache_add].
      + change (str_eqb (abs_dir []) ($"/")) with true. cbv iota. do 2 eexists. split; [reflexivity|].
        assert (A : answer [] None).
        { intros r rest E G. symmetry in E. apply app_eq_nil in E as [-> _]. unfold git in G. rewrite <- J in G. congruence. }
        split; [exact A|now apply cache_add].
    - destruct fuel as [|fuel]; [lia|]. cbn [GitModel.find_repo].
      destruct (lookup (abs_dir (d ++ [n])) c) as [x|] eqn:Lk; [exists x, c; auto|].
      pose proof (git_join _ F) as J.
      destruct (isdir (OsPath.os_join (abs_dir (d ++ [n])) ($".git"))) eqn:I.
      + rewrite J in I. destruct (parses _ F I) as (st & Es). rewrite Es. cbn [bindr].
        do 2 eexists. split; [reflexivity|]. match goal with |- answer _ ?x /\ _ => assert (A : answer (d ++ [n]) x) end.
        { exists (d ++ [n]). split; [|auto]. split; [exists []; now rewrite app_nil_r|]. split; [exact I|]. intros r' rest' E _.
          rewrite E, app_length. lia. }
        split; [exact A|now apply cache_add].
      + pose proof F as F0. apply Forall_app in F as [Fd Fn]. inversion Fn as [|? ? ((_ & Xn) & _) _]; subst.
        assert (Nr : str_eqb (abs_dir (d ++ [n])) ($"/") = false).
        { apply str_eqb_neq. apply (abs_dir_nonroot (d ++ [n])); [destruct d; discriminate|exact F0]. }
        rewrite Nr, dirname_abs by assumption.
        rewrite app_length in L. cbn [length] in L.
        destruct (IH Fd fuel c C) as (x & c' & E & A & C'); [lia|]. rewrite E. cbn [bindr fst snd].
        do 2 eexists. split; [reflexivity|].
        assert (Ng : ~ git (d ++ [n])) by (unfold git; rewrite <- J; congruence).
        assert (A' : answer (d ++ [n]) x).
        { destruct x as [[[rd fl] st]|]; cbn [answer] in *; [|now apply none_up].
          destruct A as (r & Nr' & rest). exists r. split; [now apply nearest_up|exact rest]. }
        split; [exact A'|now apply cache_add].
  Qed.

  (** Only the repository *)
  Lemma process_repo comps is_dir c : comps <> [] -> Forall plain_name comps -> cache_ok c ->
    exists x c', process c (abs_dir comps) is_dir = Ok (x, c') /\ right_repo isdir comps is_dir x /\ cache_ok c'.
  Proof.
    intros N F C. unfold GitModel.process. destruct (home_path comps is_dir F N) as [Eh Fh]. rewrite Eh.
    destruct (find_repo_ok _ Fh (S (length (abs_dir (home comps is_dir)))) c C) as (x & c' & E & A & C').
    { pose proof (abs_length _ Fh). lia. }
    rewrite E. cbn [bindr fst snd]. destruct x as [[[rd fl] st]|]; [|do 2 eexists; split; [reflexivity|split; [exact A|exact C']]].
    do 2 eexists. split; [reflexivity|]. split; [|exact C'].
    cbn [answer] in A. destruct A as (r & Nr & -> & _). exists r. cbn [g_repo_dir g_repo]. split; [exact Nr|]. split; [reflexivity|].
    rewrite str_eqb_eq. split; [|now intros ->]. destruct Nr as ((rest & Er) & _).
    apply abs_inj; [|assumption]. rewrite Er in Fh. now apply Forall_app in Fh.
  Qed.
  Lemma process_all_repo entries : Forall (fun e => fst e <> [] /\ Forall plain_name (fst e)) entries -> forall c, cache_ok c ->
    Forall2 (fun e x => exists y, x = Ok y /\ right_repo isdir (fst e) (snd e) y) entries
      (process_all c (map (fun e => (abs_dir (fst e), snd e)) entries)).
  Proof.
    induction 1 as [|[comps d] entries [N F] _ IH]; intros c C; cbn [map GitModel.process_all fst snd]; [constructor|].
    destruct (process_repo comps d c N F C) as (x & c' & E & R & C'). cbn [fst snd] in *. rewrite E. constructor; [eauto|]. now apply IH.
  Qed.

  Hypothesis ls_prints : forall r, Forall plain_name r -> git r ->
    ls_files (abs_dir r) = map file_line (files r) /\ Forall good_path (files r).
  Hypothesis porcelain_prints : forall r, Forall plain_name r -> git r ->
    porcelain (abs_dir r) = map change_line (changes r) /\ Forall good_change (changes r).
  Notation right := (right isdir files changes).
  Lemma nearest_plain d r : Forall plain_name d -> nearest_repo git d r -> Forall plain_name r.
  Proof. intros F ((rest & ->) & _). now apply Forall_app in F as [F _]. Qed.
  Lemma listed_iff comps is_dir r (ps : list (list str)) l : comps <> [] -> Forall plain_name comps -> Forall plain_name r ->
    Forall (fun f => Forall plain_name f) ps -> (forall p, In p l <-> exists f, In f ps /\ p = abs_dir (r ++ f)) ->
    (listed l is_dir (abs_dir comps) = true <-> exists f, In f ps /\ concerns comps is_dir (r ++ f)).
  Proof.
    intros N F Fr Fp H. rewrite Forall_forall in Fp. unfold listed, concerns. destruct is_dir.
    - rewrite existsb_exists. split.
      + intros (p & I & S). apply H in I as (f & I & ->). exists f. split; [exact I|].
        apply below_prefix in S; auto. apply Forall_app. split; [exact Fr|now apply Fp].
      + intros (f & I & S). exists (abs_dir (r ++ f)). split; [apply H; eauto|].
        apply below_prefix; auto. apply Forall_app. split; [exact Fr|now apply Fp].
    - rewrite str_in_iff, H. split; intros (f & I & E); exists f; (split; [exact I|]).
      + apply abs_inj in E; [congruence|exact F|]. apply Forall_app. split; [exact Fr|now apply Fp].
      + now rewrite E.
  Qed.
  Lemma process_ok comps is_dir c : comps <> [] -> Forall plain_name comps -> cache_ok c ->
    exists x c', process c (abs_dir comps) is_dir = Ok (x, c') /\ right comps is_dir x /\ cache_ok c'.
  Proof.
    intros N F C. unfold GitModel.process. destruct (home_path comps is_dir F N) as [Eh Fh]. rewrite Eh.
    destruct (find_repo_ok _ Fh (S (length (abs_dir (home comps is_dir)))) c C) as (x & c' & E & A & C').
    { pose proof (abs_length _ Fh). lia. }
    rewrite E. cbn [bindr fst snd]. destruct x as [[[rd fl] st]|]; [|do 2 eexists; split; [reflexivity|split; [exact A|exact C']]].
    do 2 eexists. split; [reflexivity|]. split; [|exact C'].
    cbn [answer] in A. destruct A as (r & Nr & -> & -> & Es). pose proof (nearest_plain _ _ Fh Nr) as Fr.
    pose proof Nr as (_ & G & _). destruct (ls_prints r Fr G) as [El Gl]. destruct (porcelain_prints r Fr G) as [Ep Gp].
    exists r. cbn [g_repo_dir g_repo g_tracked g_dirty]. split; [exact Nr|]. split; [reflexivity|]. split.
    { rewrite str_eqb_eq. split; [apply abs_inj; assumption|now intros ->]. }
    split.
    - apply (listed_iff comps is_dir r (files r)); auto.
      + eapply Forall_impl; [|exact Gl]. intros f (_ & X & _). exact X.
      + rewrite El. now apply filelist_ok.
    - rewrite Ep in Es. destruct (status_ok r (changes r) Fr Gp) as (l & Es' & I). rewrite Es in Es'. injection Es' as <-.
      match goal with |- ?x = true <-> _ => change x with (listed st is_dir (abs_dir comps)) end.
      rewrite (listed_iff comps is_dir r (map ch_path (filter (fun c => negb (str_eqb (filter (fun x => negb (is_space x)) [ch_index c; ch_file c]) ($"??"))) (changes r))));
        auto.
      + rewrite Forall_forall in Gp. split.
        * intros (f & J & K). apply in_map_iff in J as (k & <- & J). apply filter_In in J as [J U]. exists k. split; [exact J|].
          split; [|exact K]. intros X. apply (untracked_word k (Gp k J)) in X. rewrite X in U. discriminate.
        * intros (k & J & U & K). exists (ch_path k). split; [|exact K]. apply in_map. apply filter_In. split; [exact J|].
          pose proof (untracked_word k (Gp k J)) as X. destruct (str_eqb _ _); [exfalso; apply U, X; reflexivity|reflexivity].
      + apply Forall_forall. intros f J. apply in_map_iff in J as (k & <- & J). apply filter_In in J as [J _].
        rewrite Forall_forall in Gp. destruct (Gp k J) as (_ & _ & _ & (_ & X & _)). exact X.
      + rewrite Forall_forall in Gp. intros p. rewrite I. split.
        * intros (k & J & U & ->). exists (ch_path k). split; [|reflexivity]. apply in_map. apply filter_In. split; [exact J|].
          pose proof (untracked_word k (Gp k J)) as X. destruct (str_eqb _ _); [exfalso; apply U, X; reflexivity|reflexivity].
        * intros (f & J & ->). apply in_map_iff in J as (k & <- & J). apply filter_In in J as [J U]. exists k. split; [exact J|].
          split; [|reflexivity]. intros X. apply (untracked_word k (Gp k J)) in X. rewrite X in U. discriminate.
  Qed.
  Lemma process_all_ok entries : Forall (fun e => fst e <> [] /\ Forall plain_name (fst e)) entries -> forall c, cache_ok c ->
    Forall2 (fun e x => exists y, x = Ok y /\ right (fst e) (snd e) y) entries
      (process_all c (map (fun e => (abs_dir (fst e), snd e)) entries)).
  Proof.
    induction 1 as [|[comps d] entries [N F] _ IH]; intros c C; cbn [map GitModel.process_all fst snd]; [constructor|].
    destruct (process_ok comps d c N F C) as (x & c' & E & R & C'). cbn [fst snd] in *. rewrite E. constructor; [eauto|]. now apply IH.
  Qed.
  Lemma cache_nil : cache_ok [].
  Proof. intros d x _ H. discriminate. Qed.
End Git.

Lemma prints_parses isdir porcelain changes : (forall r, Forall plain_name r -> git isdir r ->
    porcelain (abs_dir r) = map change_line (changes r) /\ Forall good_change (changes r)) ->
  forall r, Forall plain_name r -> git isdir r -> exists st, status (abs_dir r) (porcelain (abs_dir r)) = Ok st.
Proof.
  intros H r F G. destruct (H r F G) as [-> Gc]. destruct (status_ok r _ F Gc) as (st & E & _). eauto.
Qed.
(** A start directory with two slashes *)
Lemma two_slashes_loop isdir ls_files porcelain fuel : isdir ($"//.git") = false ->
  find_repo isdir ls_files porcelain fuel [] ($"//") = Err OutOfFuel.
Proof.
  intros H. induction fuel as [|fuel IH]; [reflexivity|]. cbn [find_repo lookup].
  change (OsPath.os_join ($"//") ($".git")) with ($"//.git"). rewrite H.
  change (str_eqb ($"//") ($"/")) with false. cbv iota. change (OsPath.dirname ($"//")) with ($"//"). now rewrite IH.
Qed.
