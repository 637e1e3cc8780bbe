(** Proofs about the array of --json. *)
From Coq Require Import List NArith ZArith Bool Lia.
From Verif Require Import Py TypeModel FieldModel JsonModel JsonSpec JsonProofs PrintModel ArrayModel.
Import ListNotations.
Local Open Scope nat_scope.

(** ** An unfinished array is not read as one *)
Lemma skip_ws_app s q c t : skip_ws s = c :: t -> skip_ws (s ++ q) = c :: t ++ q.
Proof.
  induction s as [|x s IH]; [discriminate|]. cbn [skip_ws app]. destruct (_ || _)%bool eqn:E.
  - exact IH.
  - intros [= <- <-]. reflexivity.
Qed.
Lemma skip_ws_in s c t : skip_ws s = c :: t -> s <> [].
Proof. now destruct s. Qed.
Lemma prepend_inv {A B} (a : list A) (o : option (list A * B)) l r : prepend a o = Some (l, r) -> exists k, o = Some (k, r) /\ l = a ++ k.
Proof. destruct o as [[k x]|]; [|discriminate]. cbn. intros [= <- <-]. eauto. Qed.
Lemma read_chars_app s q : forall n u r, length s <= n -> read_chars s = Some (u, r) -> read_chars (s ++ q) = Some (u, r ++ q).
Proof.
  intros n. revert s. induction n as [|n IH]; intros s u r L.
  - destruct s; [discriminate|cbn in L; lia].
  - destruct s as [|c t]; [discriminate|]. cbn [read_chars app length] in *. destruct (N.eqb c 34); [intros [= <- <-]; reflexivity|].
    destruct (N.eqb c 92).
    + destruct t as [|x t]; [discriminate|]. cbn [app length] in *. destruct (N.eqb x 117).
      * destruct t as [|h1 [|h2 [|h3 [|h4 t]]]]; try discriminate. cbn [app length] in *. destruct (hex4_value h1 h2 h3 h4) as [v|]; [|discriminate].
        intros H. apply prepend_inv in H as (k & H & ->). rewrite (IH t k r); [reflexivity|lia|exact H].
      * destruct (short_escape x) as [v|]; [|discriminate]. intros H. apply prepend_inv in H as (k & H & ->). rewrite (IH t k r); [reflexivity|lia|exact H].
    + destruct (c <? 32)%N; [discriminate|]. intros H. apply prepend_inv in H as (k & H & ->). rewrite (IH t k r); [reflexivity|lia|exact H].
Qed.
Lemma read_string_app s q u r : read_string s = Some (u, r) -> read_string (s ++ q) = Some (u, r ++ q).
Proof. destruct s as [|c t]; [discriminate|]. cbn [read_string app]. destruct (N.eqb c 34); [|discriminate]. apply (read_chars_app t q (length t)). lia. Qed.
Lemma take_digits_more s q d c r : take_digits s = (d, c :: r) -> take_digits (s ++ q) = (d, c :: r ++ q).
Proof.
  revert d. induction s as [|x s IH]; intros d; [discriminate|]. cbn [take_digits app]. destruct (_ && _)%bool.
  - destruct (take_digits s) as [d' r'] eqn:E. intros [= <- ->]. now rewrite (IH d' eq_refl).
  - intros [= <- <- <-]. reflexivity.
Qed.
Lemma read_natural_app s q n r : read_natural s = Some (n, r) -> r <> [] -> read_natural (s ++ q) = Some (n, r ++ q).
Proof.
  unfold read_natural. destruct (take_digits s) as [d r'] eqn:E. destruct d as [|c more]; [discriminate|].
  destruct (_ && _)%bool eqn:Z; [discriminate|]. destruct r' as [|x r'].
  - intros [= <- <-] N. now destruct N.
  - rewrite (take_digits_more _ _ _ _ _ E). rewrite Z. destruct (_ || _)%bool; [discriminate|]. intros [= <- <-] _. reflexivity.
Qed.
Lemma read_number_app s q v r : read_number s = Some (v, r) -> r <> [] -> read_number (s ++ q) = Some (v, r ++ q).
Proof.
  destruct s as [|c t]; [discriminate|]. unfold read_number at 1. intros H N. change ((c :: t) ++ q) with (c :: (t ++ q)). unfold read_number. destruct (N.eqb c 45).
  - destruct (read_natural t) as [[n r']|] eqn:E; [|discriminate]. injection H as <- <-. now rewrite (read_natural_app _ q _ _ E N).
  - destruct (read_natural (c :: t)) as [[n r']|] eqn:E; [|discriminate]. injection H as <- <-.
    change (c :: (t ++ q)) with ((c :: t) ++ q). now rewrite (read_natural_app _ q _ _ E N).
Qed.
Lemma starts_with_app w s q : starts_with w s = true -> starts_with w (s ++ q) = true /\ skipn (length w) (s ++ q) = skipn (length w) s ++ q.
Proof.
  revert s. induction w as [|c w IH]; intros s; [now split|]. destruct s as [|x s]; [discriminate|]. cbn [starts_with app length skipn].
  destruct (N.eqb c x); [|discriminate]. cbn [andb]. apply IH.
Qed.
Lemma read_word_app w v s q x r : read_word w v s = Some (x, r) -> read_word w v (s ++ q) = Some (x, r ++ q).
Proof.
  unfold read_word. destruct (starts_with w s) eqn:E; [|discriminate]. destruct (starts_with_app w s q E) as [-> ->]. intros [= <- <-]. reflexivity.
Qed.
Definition extends (read read' : str -> option (json * str)) : Prop :=
  forall s v r q, read s = Some (v, r) -> r <> [] -> read' (s ++ q) = Some (v, r ++ q).
Lemma read_elements_app read read' q : extends read read' -> forall n m s l r, n <= m -> read_elements read n s = Some (l, r) ->
  read_elements read' m (s ++ q) = Some (l, r ++ q).
Proof.
  intros X. induction n as [|n IH]; intros m s l r L; [discriminate|]. destruct m as [|m]; [lia|]. cbn [read_elements].
  destruct (read s) as [[v s']|] eqn:E; [|discriminate]. destruct (skip_ws s') as [|c t] eqn:W; [discriminate|].
  rewrite (X _ _ _ q E (skip_ws_in _ _ _ W)), (skip_ws_app _ q _ _ W). destruct (N.eqb c 93); [intros [= <- <-]; reflexivity|].
  destruct (N.eqb c 44); [|discriminate]. intros H. apply prepend_inv in H as (k & H & ->). rewrite (IH m t k r); [reflexivity|lia|exact H].
Qed.
Lemma read_member_app read read' q s k v r : extends read read' -> read_member read s = Some (k, v, r) -> r <> [] ->
  read_member read' (s ++ q) = Some (k, v, r ++ q).
Proof.
  intros X. unfold read_member. destruct (read_string (skip_ws s)) as [[k' s']|] eqn:E; [|discriminate].
  assert (S0 : exists c t, skip_ws s = c :: t) by (destruct (skip_ws s) as [|c t]; [discriminate E|eauto]). destruct S0 as (c0 & t0 & S0).
  rewrite (skip_ws_app s q _ _ S0). change (c0 :: t0 ++ q) with ((c0 :: t0) ++ q). rewrite S0 in E. rewrite (read_string_app _ q _ _ E).
  destruct (skip_ws s') as [|c t] eqn:W; [discriminate|]. rewrite (skip_ws_app _ q _ _ W). destruct (N.eqb c 58); [|discriminate].
  destruct (read t) as [[v' s'']|] eqn:Rd; [|discriminate]. intros [= <- <- <-] N. now rewrite (X _ _ _ q Rd N).
Qed.
Lemma read_members_app read read' q : extends read read' -> forall n m s l r, n <= m -> read_members read n s = Some (l, r) ->
  read_members read' m (s ++ q) = Some (l, r ++ q).
Proof.
  intros X. induction n as [|n IH]; intros m s l r L; [discriminate|]. destruct m as [|m]; [lia|]. cbn [read_members].
  destruct (read_member read s) as [[[k v] s']|] eqn:E; [|discriminate]. destruct (skip_ws s') as [|c t] eqn:W; [discriminate|].
  rewrite (read_member_app _ _ q _ _ _ _ X E (skip_ws_in _ _ _ W)), (skip_ws_app _ q _ _ W). destruct (N.eqb c 125); [intros [= <- <-]; reflexivity|].
  destruct (N.eqb c 44); [|discriminate]. intros H. apply prepend_inv in H as (k' & H & ->). rewrite (IH m t k' r); [reflexivity|lia|exact H].
Qed.
Definition is_number (v : json) : Prop := match v with JInt _ => True | _ => False end.
Lemma read_value_app : forall n m s v r q, n <= m -> read_value n s = Some (v, r) -> r <> [] \/ ~ is_number v ->
  read_value m (s ++ q) = Some (v, r ++ q).
Proof.
  induction n as [|n IH]; intros m s v r q L; [discriminate|]. destruct m as [|m]; [lia|]. cbn [read_value].
  assert (X : extends (read_value n) (read_value m)) by (intros s' v' r' q' E N; apply (IH m s' v' r' q'); [lia|exact E|now left]).
  destruct (skip_ws s) as [|c t] eqn:W; [discriminate|]. rewrite (skip_ws_app _ q _ _ W). intros H N.
  destruct (N.eqb c 34).
  { destruct (read_chars t) as [[u r']|] eqn:E; [|discriminate]. injection H as <- <-. rewrite (read_chars_app t q (length t) _ _ (le_n _) E). reflexivity. }
  destruct (N.eqb c 91).
  { destruct (skip_ws t) as [|d r'] eqn:W'; [discriminate|]. rewrite (skip_ws_app _ q _ _ W'). destruct (N.eqb d 93); [injection H as <- <-; reflexivity|].
    destruct (read_elements (read_value n) (length t) t) as [[l r'']|] eqn:E; [|discriminate]. injection H as <- <-.
    rewrite (read_elements_app _ _ q X (length t) (length (t ++ q)) t l r''); [reflexivity|rewrite app_length; lia|exact E]. }
  destruct (N.eqb c 123).
  { destruct (skip_ws t) as [|d r'] eqn:W'; [discriminate|]. rewrite (skip_ws_app _ q _ _ W'). destruct (N.eqb d 125); [injection H as <- <-; reflexivity|].
    destruct (read_members (read_value n) (length t) t) as [[l r'']|] eqn:E; [|discriminate]. injection H as <- <-.
    rewrite (read_members_app _ _ q X (length t) (length (t ++ q)) t l r''); [reflexivity|rewrite app_length; lia|exact E]. }
  change (c :: t ++ q) with ((c :: t) ++ q).
  destruct (N.eqb c 110); [exact (read_word_app _ _ _ _ _ _ H)|]. destruct (N.eqb c 116); [exact (read_word_app _ _ _ _ _ _ H)|].
  destruct (N.eqb c 102); [exact (read_word_app _ _ _ _ _ _ H)|]. apply read_number_app; [exact H|]. destruct N as [N|N]; [exact N|].
  exfalso. apply N. unfold read_number in H. destruct (N.eqb c 45).
  - destruct (read_natural t) as [[k r']|]; [|discriminate]. now injection H as <- <-.
  - destruct (read_natural (c :: t)) as [[k r']|]; [|discriminate]. now injection H as <- <-.
Qed.
(** the beginning of a text, if it is a text with a value other than a number *)
Lemma read_json_beginning p q v w : read_json p = Some v -> ~ is_number v -> read_json (p ++ q) = Some w -> v = w /\ skip_ws q = [].
Proof.
  unfold read_json. destruct (read_value (length p) p) as [[v' r]|] eqn:E; [|discriminate]. destruct (skip_ws r) as [|x t] eqn:W; [|discriminate].
  intros [= ->] N. rewrite (read_value_app (length p) (length (p ++ q)) p v r q); [|rewrite app_length; lia|exact E|now right].
  destruct (skip_ws (r ++ q)) eqn:W'; [|discriminate]. intros [= ->]. split; [reflexivity|].
  clear -W W'. induction r as [|c r IH]; [exact W'|]. cbn [skip_ws app] in *. destruct (_ || _)%bool; [auto|discriminate].
Qed.
Lemma read_json_array (p s : str) v : p = 91%N :: s -> read_json p = Some v -> exists l, v = JArr l.
Proof.
  intros Ep. unfold read_json. destruct (read_value (length p) p) as [[v' r]|] eqn:E; [|intros H; discriminate H].
  destruct (skip_ws r); [|intros H; discriminate H]. intros H. injection H as <-. subst p. cbn [length read_value] in E.
  change (skip_ws (91%N :: s)) with (91%N :: s) in E. cbn match in E.
  change (N.eqb 91 34) with false in E. change (N.eqb 91 91) with true in E. cbn match in E.
  destruct (skip_ws s) as [|d t]; [discriminate E|]. destruct (N.eqb d 93).
  - injection E as <- _. eauto.
  - destruct (read_elements _ _ s) as [[l r']|]; [|discriminate E]. injection E as <- _. eauto.
Qed.

(** ** What is written *)
Definition bytes_of (o : op) : str := match o with Write _ t => t | Flush => [] end.
Fixpoint text_of (l : list deed) : str :=
  match l with [] => [] | Do o :: l => bytes_of o ++ text_of l | Fork :: l => text_of l end.
Lemma text_of_app l k : text_of (l ++ k) = text_of l ++ text_of k.
Proof. induction l as [|[o|] l IH]; cbn [app text_of]; [reflexivity|now rewrite IH, app_assoc|exact IH]. Qed.
(** [careful e l]: forks only happen with an empty buffer, where e says that it
    is empty, and the buffer is empty in the end. *)
Fixpoint careful (e : bool) (l : list deed) : Prop :=
  match l with
  | [] => e = true
  | Fork :: l => e = true /\ careful e l
  | Do Flush :: l => careful true l
  | Do (Write _ _) :: l => careful false l
  end.
Definition quiet (p : process) : Prop := buffer p = [] /\ concat (calls p) = [] /\ Forall (fun o => o = Flush) (ops p).
Lemma act_bytes size tty b o ws b' : act size tty b o ws b' -> concat ws ++ b' = b ++ bytes_of o.
Proof.
  destruct 1 as [br t _ _|t _ _|br t ws b' _ E|_|ws _ E]; cbn [bytes_of concat].
  - reflexivity.
  - now rewrite !app_nil_r.
  - exact E.
  - now rewrite !app_nil_r.
  - now rewrite E, !app_nil_r.
Qed.
Lemma act_flushed size tty b ws b' : act size tty b Flush ws b' -> b' = [].
Proof. intros H. remember Flush as o eqn:E. destruct H; discriminate E || reflexivity. Qed.
Lemma quiet_step size tty c w c' w' : step size tty (State c w) (State c' w') -> Forall quiet c -> Forall quiet c' /\ w' = w.
Proof.
  intros H Q. remember (State c w) as x eqn:Ex. remember (State c' w') as y eqn:Ey.
  destruct H as [before after b o l ws b' w0 A|before after b x0 xs l w0].
  - injection Ex as <- <-. injection Ey as <- <-. apply Forall_app in Q as [Q1 Q2]. inversion Q2 as [|p k Qp Qk Ep]. subst.
    destruct Qp as (B & C & F). cbn [buffer calls ops] in *. inversion F as [|o' l' Fo Fl]. subst.
    pose proof (act_flushed _ _ _ _ _ A) as E. pose proof (act_bytes _ _ _ _ _ _ A) as G. subst. cbn [bytes_of app] in G. rewrite app_nil_r in G.
    split; [|reflexivity]. apply Forall_app. split; [exact Q1|]. constructor; [now repeat split|exact Qk].
  - injection Ex as <- <-. injection Ey as <- <-. apply Forall_app in Q as [Q1 Q2]. inversion Q2 as [|p k Qp Qk Ep]. subst.
    destruct Qp as (B & C & F). cbn [buffer calls ops concat] in *. apply app_eq_nil in C as [-> C].
    split; [|now rewrite app_nil_r]. apply Forall_app. split; [exact Q1|]. constructor; [now repeat split|exact Qk].
Qed.
Definition inv (text : str) (x : world) : Prop :=
  let m := w_main x in
  Forall quiet (w_workers x) /\
  (exists e, (e = true -> m_buffer m = []) /\ careful e (m_deeds m)) /\
  exists rest, w_out x ++ concat (m_calls m) ++ m_buffer m ++ text_of (m_deeds m) ++ rest = text /\ (m_failed m = false -> rest = []).
Lemma inv_move size tty text x y : move size tty x y -> inv text x -> inv text y.
Proof.
  intros [b o l f ws b' c w A|b x0 xs l f c w|b l f c w|b xs l f c w|m c w c' w' St] (Q & (e & Be & Ca) & rest & T & Fr);
    cbn [w_main w_workers w_out m_buffer m_calls m_deeds m_failed] in *.
  - split; [exact Q|]. split.
    + cbn [w_main m_buffer m_deeds]. destruct o as [br t|].
      * exists false. split; [discriminate|exact Ca].
      * exists true. split; [intros _; exact (act_flushed _ _ _ _ _ A)|exact Ca].
    + exists rest. split; [|exact Fr]. cbn [w_main w_out m_buffer m_calls m_deeds]. pose proof (act_bytes _ _ _ _ _ _ A) as G.
      rewrite <- T. cbn [concat text_of app]. f_equal. rewrite (app_assoc (concat ws)), G, <- !app_assoc. reflexivity.
  - split; [exact Q|]. split; [exists e; split; assumption|]. exists rest. split; [|exact Fr].
    cbn [w_main w_out m_buffer m_calls m_deeds]. rewrite <- T. cbn [concat]. rewrite <- !app_assoc. reflexivity.
  - destruct Ca as [-> Ca]. specialize (Be eq_refl). subst b. split.
    + apply Forall_app. split; [exact Q|]. constructor; [|constructor]. now repeat constructor.
    + split; [exists true; split; [reflexivity|exact Ca]|]. exists rest. split; [exact T|exact Fr].
  - split; [exact Q|]. split; [exists false; split; [discriminate|reflexivity]|]. exists (text_of l ++ rest). split; [|discriminate].
    cbn [w_main w_out m_buffer m_calls m_deeds text_of bytes_of app]. exact T.
  - destruct (quiet_step _ _ _ _ _ _ St Q) as [Q' ->]. split; [exact Q'|]. split; [exists e; split; assumption|]. exists rest. split; assumption.
Qed.
Lemma careful_writes l k : Forall (fun d => exists br t, d = Do (Write br t)) l -> careful false k -> forall e, l <> [] \/ e = false -> careful e (l ++ k).
Proof.
  induction l as [|d l IH]; intros F C e H; [destruct H as [H| ->]; [now destruct H|exact C]|].
  inversion F as [|d' l' (br & t & ->) Fl]. subst. cbn [app careful]. apply IH; auto.
Qed.
Lemma records_writes c records : Forall (fun d => exists br t, d = Do (Write br t)) (records_deeds c records).
Proof.
  revert c. induction records as [|r records IH]; intros c; [constructor|]. cbn [records_deeds]. apply Forall_app. split; [|apply IH].
  unfold record_deeds. apply Forall_app. split.
  - destruct c; repeat constructor; unfold put; eauto.
  - rewrite Forall_forall. intros d H. apply in_map_iff in H as (s & <- & _). unfold put. eauto.
Qed.
Lemma main_careful workers records : careful true (main_deeds true workers records).
Proof.
  unfold main_deeds. set (k := records_deeds false records ++ _).
  assert (K : forall e, careful e k).
  { intros e. subst k. rewrite app_assoc. apply careful_writes.
    - apply Forall_app. split; [apply records_writes|]. repeat constructor; unfold put; eauto.
    - reflexivity.
    - left. intros H. apply app_eq_nil in H as [_ H]. discriminate H. }
  clearbody k. assert (St : forall w e, careful e (start_deeds true w ++ k)).
  { induction w as [|w IH]; intros e; [apply K|]. cbn [start_deeds app careful]. split; [reflexivity|apply IH]. }
  exact (St workers false).
Qed.
Lemma text_put l : text_of (map put l) = concat l.
Proof. induction l as [|s l IH]; [reflexivity|]. cbn. now rewrite IH. Qed.
Lemma text_start flushes w : text_of (start_deeds flushes w) = [].
Proof. induction w as [|w IH]; [reflexivity|]. cbn [start_deeds]. destruct flushes; exact IH. Qed.
Lemma text_records records : text_of (records_deeds true records) = concat (map (fun r => 44%N :: concat r) records).
Proof.
  induction records as [|r records IH]; [reflexivity|]. cbn [records_deeds map concat]. rewrite text_of_app, IH. f_equal.
  unfold record_deeds. rewrite text_of_app, text_put. reflexivity.
Qed.
Lemma text_main flushes workers records : text_of (main_deeds flushes workers records) = $"[" ++ join_with ($",") (map (@concat _) records) ++ $"]" ++ [10%N].
Proof.
  unfold main_deeds. rewrite !text_of_app, text_start. change (text_of (print_deeds ($"[") [])) with ($"["). f_equal. cbn [app]. f_equal.
  destruct records as [|r records]; [reflexivity|]. cbn [records_deeds]. rewrite text_of_app, text_records. unfold record_deeds. cbn [app]. rewrite text_put.
  revert r. induction records as [|r' records IH]; intros r; [cbn; now rewrite app_nil_r|].
  change (join_with ($",") (map (@concat _) (r :: r' :: records))) with (concat r ++ $"," ++ join_with ($",") (map (@concat _) (r' :: records))).
  rewrite <- IH. reflexivity.
Qed.
Lemma inv_reached size tty workers records x : moves size tty (launch (main_deeds true workers records)) x ->
  inv ($"[" ++ join_with ($",") (map (@concat _) records) ++ $"]" ++ [10%N]) x.
Proof.
  intros H. remember (launch _) as x0 eqn:E. induction H as [x|x y z _ IH M]; [|eapply inv_move; eauto]. subst.
  split; [constructor|]. split; [exists true; split; [reflexivity|apply main_careful]|]. exists []. split; [|reflexivity].
  cbn [launch w_main w_out m_buffer m_calls m_deeds concat app]. rewrite app_nil_r. apply text_main.
Qed.
(** at any moment *)
Lemma out_beginning size tty workers records x : moves size tty (launch (main_deeds true workers records)) x ->
  exists rest, $"[" ++ join_with ($",") (map (@concat _) records) ++ $"]" ++ [10%N] = w_out x ++ rest.
Proof. intros H. destruct (inv_reached _ _ _ _ _ H) as (_ & _ & rest & T & _). rewrite <- T. eauto. Qed.
(** in the end *)
Lemma out_whole size tty workers records x : moves size tty (launch (main_deeds true workers records)) x ->
  m_calls (w_main x) = [] -> m_deeds (w_main x) = [] -> m_failed (w_main x) = false ->
  w_out x = $"[" ++ join_with ($",") (map (@concat _) records) ++ $"]" ++ [10%N].
Proof.
  intros H C D F. destruct (inv_reached _ _ _ _ _ H) as (_ & (e & B & Ca) & rest & T & R). rewrite C, D in *. rewrite (R F) in T. cbn [careful] in Ca.
  rewrite (B Ca) in T. cbn [concat text_of app] in T. rewrite app_nil_r in T. exact T.
Qed.

(** ** The run that is not interrupted *)
Lemma moves_trans size tty x y z : moves size tty x y -> moves size tty y z -> moves size tty x z.
Proof. intros H K. induction K as [y|y u v _ IH M]; [exact H|]. exact (moves_more size tty _ _ _ (IH H) M). Qed.
Lemma calls_done size tty b xs l f c w : moves size tty (World (Main b xs l f) c w) (World (Main b [] l f) c (w ++ concat xs)).
Proof.
  revert w. induction xs as [|x xs IH]; intros w; [cbn; rewrite app_nil_r; constructor|].
  eapply moves_trans; [eapply moves_more; [constructor|constructor]|]. cbn [concat]. rewrite app_assoc. apply IH.
Qed.
Lemma act_exists size tty b o : exists ws b', act size tty b o ws b'.
Proof.
  destruct o as [br t|].
  - destruct (Nat.le_gt_cases (length (b ++ t)) size) as [L|L].
    + destruct (tty && br)%bool eqn:E; [|do 2 eexists; now apply act_keep]. apply andb_true_iff in E as [E ->]. do 2 eexists. now apply act_break.
    + exists [b ++ t], []. apply act_overflow; [exact L|]. cbn. now rewrite !app_nil_r.
  - destruct (Nat.le_gt_cases (length b) size) as [L|L]; [do 2 eexists; now apply act_flush|].
    exists [b], []. apply act_flush_long; [exact L|]. cbn. now rewrite app_nil_r.
Qed.
Lemma run_through size tty l : forall b f c w, exists x, moves size tty (World (Main b [] l f) c w) x /\
  m_calls (w_main x) = [] /\ m_deeds (w_main x) = [] /\ m_failed (w_main x) = f.
Proof.
  induction l as [|[o|] l IH]; intros b f c w.
  - eexists. split; [constructor|]. now repeat split.
  - destruct (act_exists size tty b o) as (ws & b' & A). destruct (IH b' f c (w ++ concat ws)) as (x & M & E). exists x. split; [|exact E].
    eapply moves_trans; [|exact M]. eapply moves_trans; [eapply moves_more; [constructor|apply move_do; exact A]|apply calls_done].
  - destruct (IH b f (c ++ [Process b [] [Flush]]) w) as (x & M & E). exists x. split; [|exact E].
    eapply moves_trans; [|exact M]. eapply moves_more; [constructor|apply move_fork].
Qed.
