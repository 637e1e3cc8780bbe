(** The array of --json, record by record; some runs. *)
From Coq Require Import List NArith ZArith Bool Lia.
From Verif Require Import Py TypeModel FieldModel JsonModel JsonSpec JsonProofs PrintModel ArrayModel ArrayProofs.
Import ListNotations.
Local Open Scope nat_scope.

Section Records.
  Variable records : list (list (str * option value)).
  Variable pieces : list (list str).
  Hypothesis Same : Forall2 (fun p r => concat p = dumps r) pieces records.
  Variable size : nat.
  Variable tty : bool.
  Variable workers : nat.
  Notation array := ($"[" ++ join_with ($",") (map dumps records) ++ $"]" ++ [10%N]).
  Lemma pieces_text : map (@concat _) pieces = map dumps records.
  Proof. induction Same as [|p r pieces' records' E _ IH]; [reflexivity|]. cbn [map]. rewrite IH by (now inversion Same). f_equal. exact E. Qed.
  Variable x : world.
  Hypothesis M : moves size tty (launch (main_deeds true workers pieces)) x.
  Lemma array_beginning : exists rest, array = w_out x ++ rest.
  Proof. rewrite <- pieces_text. exact (out_beginning _ _ _ _ _ M). Qed.
  Lemma array_whole : m_calls (w_main x) = [] -> m_deeds (w_main x) = [] -> m_failed (w_main x) = false -> w_out x = array.
  Proof. intros C D F. rewrite <- pieces_text. exact (out_whole _ _ _ _ _ M C D F). Qed.
  Lemma array_read v : Forall unicode_record records -> read_json (w_out x) = Some v ->
    v = JArr (map json_record records) /\ (w_out x = array \/ w_out x ++ [10%N] = array).
  Proof.
    intros U Rd. destruct array_beginning as (rest & E). pose proof (read_array records U) as Ra. rewrite E in Ra.
    assert (N : ~ is_number v).
    { destruct (w_out x) as [|c s] eqn:Eo; [discriminate Rd|]. injection E as Ec _. subst c.
      destruct (read_json_array _ s v eq_refl Rd) as (l & ->). intros []. }
    destruct (read_json_beginning _ rest v _ Rd N Ra) as [-> W]. split; [reflexivity|].
    destruct rest as [|c rest] using rev_ind; [left; now rewrite app_nil_r in E|]. clear IHrest. right.
    assert (Ec : c = 10%N /\ $"[" ++ join_with ($",") (map dumps records) ++ $"]" = w_out x ++ rest).
    { rewrite !app_assoc in E. apply app_inj_tail in E as [E1 E2]. split; [now symmetry|]. rewrite <- E1. now rewrite <- app_assoc. }
    destruct Ec as [-> Ec]. destruct rest as [|d rest] using rev_ind; [rewrite E; reflexivity|]. clear IHrest. exfalso.
    rewrite !app_assoc in Ec. apply app_inj_tail in Ec as [_ Ec]. clear -W Ec. change 93%N with (N.of_nat 93) in Ec.
    assert (K : forall k, skip_ws ((k ++ [d]) ++ [10%N]) = [] -> d = 93%N -> False).
    { intros k H ->. induction k as [|y k IH]; [discriminate H|]. cbn [app skip_ws] in H. destruct (_ || _)%bool; [exact (IH H)|discriminate H]. }
    apply (K rest W). symmetry. exact Ec.
  Qed.
End Records.

(** An exception before the first process is started *)
Lemma failed_run size : 1 <= size -> exists (pieces : list (list str)) (records : list (list (str * option value))) workers x,
  Forall2 (fun p r => concat p = dumps r) pieces records /\
  moves size false (launch (main_deeds true workers pieces)) x /\
  m_failed (w_main x) = true /\ m_calls (w_main x) = [] /\ m_deeds (w_main x) = [] /\ w_workers x = [] /\
  w_out x = $"[" /\ read_json (w_out x) = None.
Proof.
  intros L. exists [], [], 1, (World (Main [] [] [] true) [] ($"[")). split; [constructor|]. split; [|repeat split].
  eapply moves_more; [|exact (move_call size false [] ($"[") [] [] true [] [])].
  eapply moves_more; [|apply move_do; apply (act_flush size false ($"[")); exact L].
  eapply moves_more; [|apply move_fail]. eapply moves_more; [apply moves_refl|].
  apply (move_do size false [] (Write false ($"[")) _ false [] ($"[")).
  apply (act_keep size false [] false ($"[")); [reflexivity|exact L].
Qed.
(** A process that is started while the bracket is in the buffer *)
Lemma unflushed_run size : 3 <= size -> exists x, moves size false (launch (main_deeds false 1 [])) x /\
  (m_calls (w_main x) = [] /\ m_deeds (w_main x) = [] /\ m_failed (w_main x) = false) /\
  Forall (fun p => calls p = [] /\ ops p = []) (w_workers x) /\ read_json (w_out x) = None.
Proof.
  intros L. exists (World (Main [] [] [] false) [Process [] [] []] ($"[[]" ++ [10%N])).
  assert (K : forall b t, length (b ++ t) <= 3 -> act size false b (Write (has_break t) t) [] (b ++ t)).
  { intros b t E. apply act_keep; [reflexivity|]. exact (Nat.le_trans _ 3 _ E L). }
  assert (Fl : forall b, length b <= 3 -> act size false b Flush [b] []).
  { intros b E. apply act_flush. exact (Nat.le_trans _ 3 _ E L). }
  split; [|repeat split; repeat constructor].
  eapply moves_more; [|exact (move_call size false [] ($"[]" ++ [10%N]) [] [] false [Process [] [] []] ($"["))].
  eapply moves_more; [|apply move_do; apply (Fl ($"[]" ++ [10%N])); vm_compute; lia].
  eapply moves_more; [|apply move_do; apply (K ($"[]") [10%N]); vm_compute; lia].
  eapply moves_more; [|apply move_do; apply (K ($"[") ($"]")); vm_compute; lia].
  eapply moves_more; [|apply move_worker; exact (step_call size false [] [] [] ($"[") [] [] [])].
  eapply moves_more; [|apply move_worker; apply (step_act size false [] [] ($"[") Flush [] [$"["] [] []); apply Fl; vm_compute; lia].
  eapply moves_more; [|exact (move_fork size false ($"[") _ false [] [])].
  eapply moves_more; [|apply move_do; apply (K ($"[") []); vm_compute; lia].
  eapply moves_more; [apply moves_refl|]. apply (move_do size false [] (Write (has_break ($"[")) ($"["))). apply (K [] ($"[")). vm_compute. lia.
Qed.
