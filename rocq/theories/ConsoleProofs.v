(** Proofs about the output on the console. *)
From Coq Require Import List NArith ZArith Bool Lia.
From Verif Require Import Py PathModel EntryModel EntrySpec TypeModel FieldModel CountModel CountProofs TemplateProofs JsonModel JsonSpec JsonProofs
  ConsoleModel ConsoleSpec.
Import ListNotations.

(** * Colours *)
Lemma dict_set_values {V} (k : str) (v : V) d p : In p (dict_set str_eqb k v d) -> snd p = v \/ In p d.
Proof.
  induction d as [|[k' v'] d IH]; cbn [dict_set]; [intros [<-|[]]; now left|].
  destruct (str_eqb k k'); intros [<-|H]; cbn; auto. destruct (IH H); auto.
Qed.
Lemma split_once_some c s a b : split_once c s = Some (a, b) -> s = a ++ c :: b.
Proof.
  revert a. induction s as [|x s IH]; intros a; cbn [split_once]; [discriminate|].
  destruct (N.eqb_spec x c) as [->|]; [now intros [= <- <-]|].
  destruct (split_once c s) as [[a' b']|]; [|discriminate]. intros [= <- <-]. cbn [app]. now rewrite (IH a' eq_refl).
Qed.
Section Env.
  Variable env : str.
  Definition values_ok (acc : list (str * str) * list (str * str)) : Prop :=
    (forall p, In p (fst acc) -> colour_value env (snd p)) /\
    (forall p, In p (snd acc) -> exists v, colour_value env v /\ snd p = esc v).
  Lemma read_rules_ok parts acc : (forall p, In p parts -> In p (split_on 58%N env)) -> values_ok acc -> values_ok (fold_left read_rule parts acc).
  Proof.
    revert acc. induction parts as [|p parts IH]; intros acc Sub V; cbn [fold_left]; [exact V|].
    apply IH; [intros q Hq; apply Sub; now right|]. destruct V as [V1 V2]. unfold read_rule.
    destruct (split_once 61%N p) as [[key v]|] eqn:E; [|now split].
    assert (CV : colour_value env v).
    { right. exists key. apply split_once_some in E. apply Sub. left. exact E. }
    destruct (Nat.eqb (length key) 2).
    - split; cbn [fst snd]; [|exact V2]. intros q Hq. apply dict_set_values in Hq as [->|Hq]; auto.
    - destruct (slice (snd (splitext key)) (Some 1%Z) None) as [|c ext]; [now split|].
      split; cbn [fst snd]; [exact V1|]. intros q Hq. apply dict_set_values in Hq as [->|Hq]; eauto.
  Qed.
  Lemma dict_get_in_str {V} k (v : V) d : dict_get str_eqb k d = Some v -> In (k, v) d.
  Proof.
    induction d as [|[k' v'] d IH]; cbn [dict_get]; [discriminate|].
    destruct (str_eqb k k') eqn:E; [|intros H; right; auto]. intros [= <-]. apply str_eqb_eq in E as ->. now left.
  Qed.
  (** all rules are known, and all sequences are values *)
  Lemma read_colours_ok : env <> [] -> let c := read_colours env in
    (exists r, colour_value env r /\ co_reset c = esc r) /\
    (forall k, In k [$"di"; $"ex"; $"ln"; $"or"] -> dict_get str_eqb k (co_rules c) = Some None \/
      exists v, colour_value env v /\ dict_get str_eqb k (co_rules c) = Some (Some (esc v, co_reset c))) /\
    (forall ext a, dict_get str_eqb ext (co_exts c) = Some a -> exists v, colour_value env v /\ a = esc v).
  Proof.
    intros NE. unfold read_colours. destruct env as [|c0 env0] eqn:EE; [easy|]. rewrite <- EE in *. clear EE c0 env0.
    assert (V : values_ok (fold_left read_rule (split_on 58%N env) ([], []))).
    { apply read_rules_ok; [auto|]. split; intros p []. }
    destruct (fold_left read_rule (split_on 58%N env) ([], [])) as [rules exts]. destruct V as [V1 V2]. cbn [fst snd] in V1, V2.
    cbn [co_reset co_rules co_exts]. split; [|split].
    - destruct (dict_get str_eqb ($"rs") rules) as [v|] eqn:E.
      + exists v. split; auto. apply dict_get_in_str in E. now apply V1 in E.
      + exists ($"0"). split; auto. now left.
    - set (reset := esc _). intros k Hk.
      assert (G : dict_get str_eqb k (map (fun k => (k, match dict_get str_eqb k rules with Some v => Some (esc v, reset) | None => None end)) [$"di"; $"ex"; $"ln"; $"or"])
                  = Some (match dict_get str_eqb k rules with Some v => Some (esc v, reset) | None => None end)).
      { cbn [In] in Hk. destruct Hk as [<-|[<-|[<-|[<-|[]]]]]; reflexivity. }
      destruct (dict_get str_eqb k rules) as [v|] eqn:E; [right|left; exact G]. exists v. split; [|exact G].
      apply dict_get_in_str in E. now apply V1 in E.
    - intros ext a E. apply dict_get_in_str in E. now apply V2 in E.
  Qed.
  Lemma decorated_refl p : Decorated env p p.
  Proof. induction p; constructor; auto. Qed.
  Lemma decorated_app p t p' t' : Decorated env p t -> Decorated env p' t' -> Decorated env (p ++ p') (t ++ t').
  Proof.
    intros H H'. induction H as [|c p t H IH|v p t C H IH]; cbn [app]; [exact H'|now constructor|].
    rewrite <- app_assoc. cbn [app]. now constructor.
  Qed.
  Lemma decorated_esc v : colour_value env v -> Decorated env [] (esc v).
  Proof.
    intros C. destruct v as [|c v]; [constructor|]. unfold esc. apply (dec_esc env (c :: v) [] []); [exact C|constructor].
  Qed.
  Lemma decorated_around v w p : colour_value env v -> colour_value env w -> Decorated env p (esc v ++ p ++ esc w).
  Proof.
    intros C C'. apply (decorated_app [] _ p); [now apply decorated_esc|]. rewrite <- (app_nil_r p) at 1.
    apply decorated_app; [apply decorated_refl|now apply decorated_esc].
  Qed.
End Env.

(** * Fields *)

(** a rendered string shows a text and knows its length *)
Definition RendersIn (st : style) (env p : str) (s : string) : Prop := shown st env p (s_value s) /\ s_length s = length p.
Section Fields.
  Variable get : centry -> str * str -> res value.
  Variable human : ty -> Z -> str.
  Variable st : style.
  Variable env : str.
  Variable follow : bool.
  Hypothesis S : st = Plain \/ (env <> [] /\ st = Coloured (read_colours env)).
  Notation Renders := (RendersIn st env).

  Lemma renders_plain p : Renders p (plain p).
  Proof. split; [|reflexivity]. destruct S as [->|[_ ->]]; cbn; [reflexivity|apply decorated_refl]. Qed.
  Lemma colorize_ok k p : In k [$"di"; $"ex"; $"ln"; $"or"] -> exists s, colorize st k p = Ok s /\ Renders p s.
  Proof.
    intros Hk. destruct S as [->|[NE ->]]; cbn [colorize].
    - eexists. split; [reflexivity|]. split; reflexivity.
    - destruct (read_colours_ok env NE) as ((r & Cr & Er) & R & _). destruct (R k Hk) as [->|(v & Cv & ->)].
      + eexists. split; [reflexivity|]. split; [apply decorated_refl|reflexivity].
      + eexists. split; [reflexivity|]. split; [|reflexivity]. cbn [s_value shown]. rewrite Er. now apply decorated_around.
  Qed.
  Lemma render_file_ok ext p : Renders p (render_file st ext p).
  Proof.
    destruct S as [->|[NE ->]]; cbn [render_file]; [split; reflexivity|].
    destruct (read_colours_ok env NE) as ((r & Cr & Er) & _ & X).
    destruct (dict_get str_eqb ext (co_exts (read_colours env))) as [a|] eqn:E; [|split; [apply decorated_refl|reflexivity]].
    destruct (X ext a E) as (v & Cv & ->). split; [|reflexivity]. cbn [s_value shown]. rewrite Er. now apply decorated_around.
  Qed.
  Lemma renders_app p q s t : Renders p s -> Renders q t -> Renders (p ++ q) (String (s_value s ++ s_value t) (s_length s + s_length t)%nat).
  Proof.
    intros [H1 L1] [H2 L2]. split; cbn [s_value s_length]; [|rewrite app_length; lia].
    destruct S as [->|[_ ->]]; cbn [shown] in *; [congruence|now apply decorated_app].
  Qed.
  Lemma render_name_ok e : exists s, render_name st follow e = Ok s /\ Renders (e_name (c_entry e)) s.
  Proof.
    unfold render_name. destruct (is_symlink e && negb follow).
    - destruct (c_broken e); apply colorize_ok; cbn [In]; auto.
    - destruct (executable_of (mode_of e)); [apply colorize_ok; cbn [In]; auto|]. eexists. split; [reflexivity|apply render_file_ok].
  Qed.
  Lemma render_path_ok e h : good_entry e ->
    exists s, render_path st follow e h = Ok s /\ Renders (if is_symlink e && h then e_path (c_entry e) ++ $" -> " ++ c_link e else e_path (c_entry e)) s.
  Proof.
    intros (In_ & D). unfold render_path. destruct (is_dir e) eqn:Di.
    - replace (is_symlink e) with false. 2: { unfold is_dir, is_symlink in *. apply str_eqb_eq in Di. now rewrite Di. }
      apply colorize_ok. cbn [In]. auto.
    - destruct D as [D|D]; [discriminate|]. destruct (render_name_ok e) as (s & -> & Rn). cbn [bindr].
      assert (X : exists t, match e_dir (c_entry e) with [] => Ok s | d => do dirname <- colorize st ($"di") (d ++ [SLASH]);
                    Ok (String (s_value dirname ++ s_value s) (s_length dirname + s_length s)%nat) end = Ok t /\ Renders (e_path (c_entry e)) t).
      { destruct In_ as [(E & P)|[(E & P)|(E1 & E2 & P)]]; [|contradiction|].
        - rewrite E, P. eauto.
        - rewrite P. destruct (e_dir (c_entry e)) as [|c d]; [easy|]. destruct (colorize_ok ($"di") ((c :: d) ++ [SLASH]) ltac:(cbn [In]; auto)) as (t & -> & Rt).
          cbn [bindr]. eexists. split; [reflexivity|]. change ((c :: d) ++ SLASH :: e_name (c_entry e)) with ((c :: d) ++ [SLASH] ++ e_name (c_entry e)).
          rewrite app_assoc. now apply renders_app. }
      destruct X as (t & -> & Rt). cbn [bindr]. destruct (is_symlink e && h); [|eauto]. eexists. split; [reflexivity|].
      assert (Y := renders_app _ _ _ _ Rt (renders_plain ($" -> " ++ c_link e))). cbn [s_value s_length plain] in Y.
      rewrite app_length in Y. change (length ($" -> ")) with 4%nat in Y. rewrite Nat.add_assoc in Y. exact Y.
  Qed.
  Lemma is_attribute_eq f n : is_attribute f n = true <-> f_attribute f = ($"file", n).
  Proof.
    unfold is_attribute. rewrite andb_true_iff, !str_eqb_eq. destruct (f_attribute f) as [a b]. cbn [fst snd].
    split; [now intros [-> ->]|now intros [= -> ->]].
  Qed.
  Lemma is_attribute_neq f n : is_attribute f n = false <-> f_attribute f <> ($"file", n).
  Proof. rewrite <- is_attribute_eq. now destruct (is_attribute f n). Qed.
  Lemma special_dec f : special f \/ ~ special f.
  Proof.
    destruct (is_attribute f ($"dir")) eqn:E1; [left; apply is_attribute_eq in E1; left; auto|].
    destruct (is_attribute f ($"name")) eqn:E2; [left; apply is_attribute_eq in E2; right; left; auto|].
    destruct (is_attribute f ($"path")) eqn:E3; [left; apply is_attribute_eq in E3; right; right; left; auto|].
    right. apply is_attribute_neq in E1, E2, E3. intros [H|[H|[H|[]]]]; congruence.
  Qed.
  Lemma render_field_ok e f : good_entry e ->
    (get e (f_attribute f) = Err KeyErr \/ exists v, get e (f_attribute f) = Ok v /\ conforms (f_type f) v = true) ->
    (exists s p, render_field get human st follow e f = Ok s /\ PlainText get human e f p /\ Renders p s) \/
    (render_field get human st follow e f = Err KeyErr /\ Missing get e f).
  Proof.
    intros Ge Gf. unfold render_field.
    destruct (is_attribute f ($"dir")) eqn:E1.
    { apply is_attribute_eq in E1. left. destruct (colorize_ok ($"di") (e_dir (c_entry e)) ltac:(cbn [In]; auto)) as (s & -> & R).
      exists s, (e_dir (c_entry e)). split; auto. split; auto. now constructor. }
    destruct (is_attribute f ($"name")) eqn:E2.
    { apply is_attribute_eq in E2. left. destruct (render_name_ok e) as (s & -> & R). exists s, (e_name (c_entry e)). split; auto. split; auto. now apply pt_name. }
    destruct (is_attribute f ($"path")) eqn:E3.
    { apply is_attribute_eq in E3. left. destruct (render_path_ok e (has_modifier f ($"h")) Ge) as (s & -> & R).
      assert (M : has_modifier f ($"h") = true <-> f_modifier f = Some ($"h")).
      { unfold has_modifier. destruct (f_modifier f) as [d|]; [|split; discriminate]. rewrite str_eqb_eq. split; [now intros ->|now intros [= ->]]. }
      exists s. eexists. split; [reflexivity|]. split; [|exact R]. destruct (is_symlink e && has_modifier f ($"h")) eqn:B.
      - apply andb_true_iff in B as [B1 B2]. apply pt_link; auto. now apply M.
      - apply pt_path; auto. intros [M1 M2]. apply M in M1. rewrite M1, M2 in B. discriminate. }
    apply is_attribute_neq in E1, E2, E3.
    assert (NS : ~ special f) by (intros [H|[H|[H|[]]]]; congruence).
    destruct Gf as [G|(v & G & C)]; rewrite G; cbn [bindr].
    - right. split; auto. now split.
    - left. destruct (output_conforms human (f_type f) (f_modifier f) v C) as [s Es]. rewrite Es. cbn [bindr].
      exists (plain s), s. split; auto. split; [|apply renders_plain]. now apply pt_other with v.
  Qed.
  Lemma pad_ok s p w : Renders p s -> Padded w p (s_value s) (pad_string s w).
  Proof.
    intros [_ L]. unfold pad_string, Padded. rewrite L. exists (Z.to_nat (Z.max 0 (Z.abs w - Z.of_nat (length p)))). split; [lia|].
    destruct (Z.ltb_spec w 0); [left|right]; auto.
  Qed.
  Lemma format_field_ok e f : good_entry e ->
    (get e (f_attribute f) = Err KeyErr \/ exists v, get e (f_attribute f) = Ok v /\ conforms (f_type f) v = true) ->
    (forall w, f_width f = Some w -> exists n, py_int w = Some n) ->
    (exists s, format_field get human st follow e f = Ok s /\ Cell get human st env e f s /\ ~ Missing get e f) \/
    (format_field get human st follow e f = Err KeyErr /\ Missing get e f).
  Proof.
    intros Ge Gf W. unfold format_field. destruct (render_field_ok e f Ge Gf) as [(s & p & -> & P & R)|(-> & M)]; [left|right; auto]. cbn [bindr].
    assert (NM : ~ Missing get e f) by (intros [NS G]; destruct P as [E|E|E _|E _ _|v t _ G' _]; try (apply NS; cbn [special In]; unfold special; rewrite E; cbn [In]; tauto); congruence).
    destruct (f_width f) as [w|] eqn:Ew.
    - destruct (W w eq_refl) as [n En]. rewrite En. eexists. split; [reflexivity|]. split; auto.
      apply (cell_wide get human st env e f w n p (s_value s)); auto; [apply R|now apply pad_ok].
    - eexists. split; [reflexivity|]. split; auto. apply (cell_text get human st env e f p); auto. apply R.
  Qed.

  (** * Lines *)
  Variable all : bool.
  Lemma has_n f : has_modifier f ($"n") = true <-> f_modifier f = Some ($"n").
  Proof. unfold has_modifier. destruct (f_modifier f) as [d|]; [|split; discriminate]. rewrite str_eqb_eq. split; [now intros ->|now intros [= ->]]. Qed.
  Lemma format_fields_ok e fields : good_entry e -> good_fields get e fields ->
    (exists cells, format_fields get human st follow all e fields = Ok (Some cells) /\ Forall2 (Cell get human st env e) fields cells /\ ~ Suppressed get all e fields) \/
    (format_fields get human st follow all e fields = Ok None /\ Suppressed get all e fields).
  Proof.
    intros Ge. induction fields as [|f fields IH]; intros G; cbn [format_fields].
    - left. exists []. split; auto. split; auto. intros (_ & f & [] & _).
    - destruct (G f (or_introl eq_refl)) as [Gf W]. specialize (IH ltac:(intros g Hg; apply G; now right)).
      assert (Skip : forall c, Cell get human st env e f c -> (~ Missing get e f \/ all = true \/ f_modifier f = Some ($"n")) ->
        (exists cells, (do o <- format_fields get human st follow all e fields; Ok (match o with Some l => Some (c :: l) | None => None end)) = Ok (Some cells) /\
          Forall2 (Cell get human st env e) (f :: fields) cells /\ ~ Suppressed get all e (f :: fields)) \/
        ((do o <- format_fields get human st follow all e fields; Ok (match o with Some l => Some (c :: l) | None => None end)) = Ok None /\ Suppressed get all e (f :: fields))).
      { intros c C K. destruct IH as [(cells & -> & F & NS)|(-> & A & g & I & Sg)]; cbn [bindr].
        - left. eexists. split; [reflexivity|]. split; auto. intros (A & g & [<-|I] & Mg & Ng); [|apply NS; split; eauto].
          destruct K as [K|[K|K]]; congruence.
        - right. split; auto. split; auto. exists g. split; [now right|auto]. }
      destruct (format_field_ok e f Ge Gf W) as [(s & -> & C & NM)|(-> & M)]; [apply Skip; auto|].
      destruct (all || has_modifier f ($"n")) eqn:O.
      + apply Skip; [now apply cell_missing|]. apply orb_true_iff in O as [O|O]; auto. right. right. now apply has_n.
      + apply orb_false_iff in O as [A N]. right. split; auto. split; auto. exists f. split; [now left|]. split; auto. rewrite <- has_n. congruence.
  Qed.
  Lemma process_ok sep e fields : good_entry e -> good_fields get e fields ->
    (exists cells, process get human st follow all sep fields e = Ok (Some (join_with sep cells)) /\ Forall2 (Cell get human st env e) fields cells /\ ~ Suppressed get all e fields) \/
    (process get human st follow all sep fields e = Ok None /\ Suppressed get all e fields).
  Proof.
    intros Ge G. unfold process. destruct (format_fields_ok e fields Ge G) as [(cells & -> & F & N)|(-> & Su)]; cbn [bindr]; [left|right; auto].
    eexists. split; [reflexivity|]. auto.
  Qed.
End Fields.

(** without colours cells are determined *)
Lemma plain_text_fun get human e f p q : PlainText get human e f p -> PlainText get human e f q -> p = q.
Proof.
  intros H H'. destruct H as [E|E|E M|E M L|v s NS G O]; destruct H' as [E'|E'|E' M'|E' M' L'|v' s' NS' G' O']; try reflexivity; try congruence;
    try (exfalso; apply NS'; unfold special; rewrite E; cbn [In]; tauto); try (exfalso; apply NS; unfold special; rewrite E'; cbn [In]; tauto).
  all: try (rewrite E in E'; vm_compute in E'; discriminate E'); exfalso; match goal with H : ~ (_ /\ _) |- _ => apply H; auto end.
Qed.
Lemma padded_fun w p t a b : Padded w p t a -> Padded w p t b -> a = b.
Proof. intros (n & E & A) (m & E' & B). assert (n = m) by lia. subst m. destruct A as [[? ->]|[? ->]], B as [[? ->]|[? ->]]; auto; lia. Qed.
Lemma cell_missing_text get human e f p : PlainText get human e f p -> Missing get e f -> False.
Proof.
  intros P [NS G]. destruct P as [E|E|E _|E _ _|v t _ G' _]; try (apply NS; unfold special; rewrite E; cbn [In]; tauto). congruence.
Qed.
Lemma cell_fun get human env e f a b : Cell get human Plain env e f a -> Cell get human Plain env e f b -> a = b.
Proof.
  intros H H'. destruct H as [p t P Sh W|w n p t out P Sh W I Pa|M]; destruct H' as [p' t' P' Sh' W'|w' n' p' t' out' P' Sh' W' I' Pa'|M']; cbn [shown] in *; try congruence;
    try solve [exfalso; eapply cell_missing_text; eauto].
  - subst. eapply plain_text_fun; eauto.
  - subst t t'. assert (p = p') by (eapply plain_text_fun; eauto). subst p'. assert (w = w') by congruence. subst w'. assert (n = n') by congruence. subst n'.
    eapply padded_fun; eauto.
Qed.

(** * Records *)
Section Records.
  Variable get : centry -> str * str -> res value.
  Variable human : ty -> Z -> str.
  Lemma has_h f : has_modifier f ($"h") = true <-> f_modifier f = Some ($"h").
  Proof. unfold has_modifier. destruct (f_modifier f) as [d|]; [|split; discriminate]. rewrite str_eqb_eq. split; [now intros ->|now intros [= ->]]. Qed.
  Lemma record_value_ok e f v : record_value get human e f = Ok v <-> RecordValue get human e f v.
  Proof.
    unfold record_value. split.
    - destruct (get e (f_attribute f)) as [x|[]] eqn:G; try discriminate; [|intros [= <-]; now constructor].
      destruct (has_modifier f ($"h")) eqn:H.
      + destruct (output human (f_type f) (f_modifier f) x) as [s|] eqn:O; cbn [bindr]; [|discriminate]. intros [= <-].
        apply rv_human with x; auto. now apply has_h.
      + intros [= <-]. apply rv_value; auto. rewrite <- has_h. congruence.
    - intros [G|x s G M O|x G M]; rewrite G; [reflexivity| |].
      + apply has_h in M. now rewrite M, O.
      + rewrite <- has_h in M. now destruct (has_modifier f ($"h")).
  Qed.
  Lemma record_value_total e f : (get e (f_attribute f) = Err KeyErr \/ exists v, get e (f_attribute f) = Ok v /\ conforms (f_type f) v = true) ->
    exists v, record_value get human e f = Ok v.
  Proof.
    intros [G|(v & G & C)]; unfold record_value; rewrite G; [eauto|]. destruct (has_modifier f ($"h")); [|eauto].
    destruct (output_conforms human (f_type f) (f_modifier f) v C) as [s ->]. cbn [bindr]. eauto.
  Qed.
  Lemma str_eqb_id k k' : str_eqb k k' = true <-> (fun x : str => x) k = (fun x : str => x) k'.
  Proof. apply str_eqb_eq. Qed.
  Lemma in_dict_set {V} k (v : V) d : NoDup (map fst d) -> forall k' v', In (k', v') (dict_set str_eqb k v d) <-> (k' = k /\ v' = v) \/ (k' <> k /\ In (k', v') d).
  Proof.
    induction d as [|[a b] d IH]; intros ND k' v'; cbn [dict_set].
    - cbn [In]. split; [intros [[= <- <-]|[]]; auto|]. intros [[-> ->]|[_ []]]. now left.
    - cbn [map fst] in ND. inversion ND as [|? ? NI ND']; subst. destruct (str_eqb k a) eqn:E.
      + apply str_eqb_eq in E as <-. cbn [In]. split.
        * intros [[= <- <-]|I]; [now left|]. right. split; [|now right]. intros ->. apply NI. apply in_map_iff. exists (k, v'). auto.
        * intros [[-> ->]|[N [[= <- <-]|I]]]; auto. now elim N.
      + cbn [In]. rewrite (IH ND' k' v'). split.
        * intros [[= <- <-]|[H|[N I]]]; auto. right. split; auto. intros ->. rewrite (proj2 (str_eqb_eq k k) eq_refl) in E. discriminate.
        * intros [H|[N [H|I]]]; auto.
  Qed.
  Lemma nodup_dict_set {V} k (v : V) d : NoDup (map fst d) -> NoDup (map fst (dict_set str_eqb k v d)).
  Proof.
    induction d as [|[a b] d IH]; cbn [dict_set map fst]; intros ND; [constructor; [intros []|constructor]|].
    inversion ND as [|? ? NI ND']; subst. destruct (str_eqb k a) eqn:E; cbn [map fst]; [now constructor|]. constructor; [|auto].
    intros I. apply in_map_iff in I as ([a' b'] & Ea & I). cbn in Ea. subst a'. apply (in_dict_set k v d ND') in I as [[-> _]|[_ I]].
    - rewrite (proj2 (str_eqb_eq k k) eq_refl) in E. discriminate.
    - apply NI. apply in_map_iff. exists (a, b'). auto.
  Qed.
  (** the loop of to_dict *)
  Lemma to_dict_spec e : forall fields r0 done, IsRecord get human e done r0 ->
    (forall f, In f fields -> exists v, record_value get human e f = Ok v) ->
    exists r, to_dict_from get human e fields r0 = Ok r /\ IsRecord get human e (done ++ fields) r.
  Proof.
    induction fields as [|f fields IH]; intros r0 done R T; cbn [to_dict_from].
    - exists r0. rewrite app_nil_r. auto.
    - destruct (T f (or_introl eq_refl)) as [v Ev]. rewrite Ev. cbn [bindr].
      destruct (IH (dict_set str_eqb (f_alias f) v r0) (done ++ [f])) as (r & E & H).
      + destruct R as [ND R]. split; [now apply nodup_dict_set|]. intros k w. rewrite in_dict_set by exact ND. rewrite R. split.
        * intros [[-> ->]|[N (b & g & a & E & Ek & NI & V)]].
          -- exists done, f, []. split; auto. split; auto. split; [auto|]. now apply record_value_ok.
          -- exists b, g, (a ++ [f]). subst done. split; [now rewrite <- app_assoc|]. split; auto. split; auto.
             rewrite map_app, in_app_iff. cbn [map In]. intros [X|[X|[]]]; auto.
        * intros (b & g & a & E & Ek & NI & V). destruct a as [|x a] using rev_ind.
          -- apply app_inj_tail in E as [-> <-]. left. split; auto. apply record_value_ok in V. congruence.
          -- right. rewrite app_comm_cons, app_assoc in E. apply app_inj_tail in E as [E <-].
             rewrite map_app, in_app_iff in NI. cbn [map In] in NI. split; [intros ->; apply NI; auto|]. exists b, g, a. repeat (split; auto).
      + intros g Hg. apply T. now right.
      + exists r. split; auto. rewrite <- app_assoc in H. exact H.
  Qed.
  Lemma to_dict_ok fields e : good_fields get e fields -> exists r, to_dict get human fields e = Ok r /\ IsRecord get human e fields r.
  Proof.
    intros G. apply (to_dict_spec e fields [] []).
    - split; [constructor|]. intros k v. split; [intros []|]. intros (b & f & a & E & _). destruct b; discriminate.
    - intros f Hf. apply record_value_total. now apply G.
  Qed.
  Lemma is_record_keys e fields r : IsRecord get human e fields r -> (forall f, In f fields -> exists v, RecordValue get human e f v) ->
    forall k, In k (map fst r) <-> In k (map f_alias fields).
  Proof.
    intros [ND R] T k. split.
    - intros I. apply in_map_iff in I as ([k' v] & <- & I). apply R in I as (b & f & a & -> & <- & _). rewrite map_app. apply in_or_app. right. now left.
    - intros I. assert (X : exists b f a, fields = b ++ f :: a /\ f_alias f = k /\ ~ In k (map f_alias a)).
      { clear -I. induction fields as [|f fields IH]; [destruct I|]. destruct (in_dec (list_eq_dec N.eq_dec) k (map f_alias fields)) as [J|J].
        - destruct (IH J) as (b & g & a & -> & H). exists (f :: b), g, a. auto.
        - destruct I as [<-|I]; [|contradiction]. exists [], f, fields. auto. }
      destruct X as (b & f & a & E & Ek & NI). destruct (T f) as [v Hv]; [rewrite E; apply in_or_app; right; now left|].
      apply in_map_iff. exists (k, v). split; auto. apply R. exists b, f, a. auto.
  Qed.

  (** * JSON *)
  Lemma print_records records : forall out, fst (fold_left print_record records (out, true)) = out ++ concat (map (fun r => $"," ++ dumps r) records).
  Proof.
    induction records as [|r records IH]; intros out; cbn [fold_left map concat]; [now rewrite app_nil_r|].
    unfold print_record at 2. cbn [fst snd]. rewrite IH, <- !app_assoc. reflexivity.
  Qed.
  Lemma join_comma r records : dumps r ++ concat (map (fun r => $"," ++ dumps r) records) = join_with ($",") (map dumps (r :: records)).
  Proof.
    revert r. induction records as [|r' records IH]; intros r; cbn [map concat]; [cbn [join_with]; apply app_nil_r|].
    rewrite <- app_assoc, IH. reflexivity.
  Qed.
  Lemma json_text fields entries records : mapr (to_dict get human fields) entries = Ok records ->
    json_console get human fields entries = Ok ($"[" ++ join_with ($",") (map dumps records) ++ $"]" ++ [10%N]).
  Proof.
    intros E. unfold json_console. rewrite E. cbn [bindr]. f_equal. destruct records as [|r records]; [reflexivity|].
    cbn [fold_left]. unfold print_record at 2. cbn [fst snd]. rewrite print_records. cbn [app]. rewrite <- join_comma, <- !app_assoc. reflexivity.
  Qed.
  Lemma to_dicts_ok fields entries : (forall e, In e entries -> good_fields get e fields) ->
    exists records, mapr (to_dict get human fields) entries = Ok records /\ Forall2 (fun e r => IsRecord get human e fields r) entries records.
  Proof.
    induction entries as [|e entries IH]; intros G; cbn [mapr]; [exists []; auto|].
    destruct (to_dict_ok fields e (G e (or_introl eq_refl))) as (r & -> & R). cbn [bindr].
    destruct IH as (records & -> & Rs); [intros x Hx; apply G; now right|]. cbn [bindr]. eexists. split; [reflexivity|]. auto.
  Qed.
  Lemma json_whole fields entries : (forall e, In e entries -> good_fields get e fields) ->
    exists records, Forall2 (fun e r => IsRecord get human e fields r) entries records /\
      json_console get human fields entries = Ok ($"[" ++ join_with ($",") (map dumps records) ++ $"]" ++ [10%N]) /\
      (Forall unicode_record records -> exists text, json_console get human fields entries = Ok text /\ read_json text = Some (JArr (map json_record records))).
  Proof.
    intros G. destruct (to_dicts_ok fields entries G) as (records & E & R). exists records. split; auto.
    assert (T := json_text fields entries records E). split; auto. intros U. eexists. split; [exact T|]. now apply read_array.
  Qed.
  Lemma jsonl_whole fields e : good_fields get e fields ->
    exists r, IsRecord get human e fields r /\ jsonl_line get human fields e = Ok (dumps r ++ [10%N]) /\
      (unicode_record r -> read_json (dumps r ++ [10%N]) = Some (json_record r)).
  Proof.
    intros G. destruct (to_dict_ok fields e G) as (r & E & R). exists r. split; auto. unfold jsonl_line. rewrite E. split; [reflexivity|]. apply read_line.
  Qed.
End Records.

(** * Which console *)
Lemma json_collected o : json_is o ($"json") = true -> o_exec o = false -> o_batch o = false -> o_count o = false ->
  setup_processing o = CollectiveConsole JsonConsole.
Proof.
  intros J E B C. unfold setup_processing, console_class. rewrite J, E, B, C. rewrite !orb_true_r. reflexivity.
Qed.
Lemma json_only_collected o : setup_processing o <> ImmediateConsole JsonConsole.
Proof.
  unfold setup_processing, console_class. destruct (json_is o ($"json")); rewrite ?orb_true_r.
  - destruct (o_exec o || o_batch o); discriminate.
  - destruct (o_sort o || o_count o || o_limit o || o_batch o || false); [destruct (o_exec o || o_batch o); discriminate|].
    destruct (o_exec o); [discriminate|]. destruct (o_count o); [discriminate|]. destruct (json_is o ($"jsonl")); [discriminate|].
    destruct (if str_eqb (o_colour o) ($"auto") then o_isatty o else str_eqb (o_colour o) ($"always")); discriminate.
Qed.

(** * As they are used in P_Console *)
Lemma to_dict_whole get human fields e : good_fields get e fields ->
  exists r, to_dict get human fields e = Ok r /\ IsRecord get human e fields r /\ forall k, In k (map fst r) <-> In k (map f_alias fields).
Proof.
  intros G. destruct (to_dict_ok get human fields e G) as (r & E & R). exists r. split; auto. split; auto. apply (is_record_keys get human e); auto.
  intros f Hf. destruct (record_value_total get human e f) as [v V]; [now apply G|]. exists v. now apply record_value_ok.
Qed.
Lemma field_rendered get human st env follow e f :
  (st = Plain \/ (env <> [] /\ st = Coloured (read_colours env))) -> good_entry e -> good_fields get e [f] -> ~ Missing get e f ->
  exists s p, render_field get human st follow e f = Ok s /\ PlainText get human e f p /\ shown st env p (s_value s) /\ s_length s = length p.
Proof.
  intros S Ge Gf NM. destruct (render_field_ok get human st env follow S e f Ge (proj1 (Gf f (or_introl eq_refl)))) as [(s & p & E & P & R1 & R2)|(_ & M)]; [|contradiction].
  exists s, p. auto.
Qed.
Lemma field_padded get human st env follow e f w n :
  (st = Plain \/ (env <> [] /\ st = Coloured (read_colours env))) -> good_entry e -> good_fields get e [f] ->
  f_width f = Some w -> py_int w = Some n -> ~ Missing get e f ->
  exists p t out, PlainText get human e f p /\ shown st env p t /\ format_field get human st follow e f = Ok out /\ Padded n p t out.
Proof.
  intros S Ge Gf W I NM. destruct (field_rendered get human st env follow e f S Ge Gf NM) as (s & p & E & P & R1 & R2).
  exists p, (s_value s), (pad_string s n). split; auto. split; auto. unfold format_field. rewrite E. cbn [bindr]. rewrite W, I. split; [reflexivity|].
  apply (pad_ok st env). now split.
Qed.
Lemma json_one_process o : setup_processing o <> ImmediateConsole JsonConsole /\
  (o_json o = Some ($"json") -> o_exec o = false -> o_batch o = false -> o_count o = false -> setup_processing o = CollectiveConsole JsonConsole).
Proof.
  split; [apply json_only_collected|]. intros J. apply json_collected. unfold json_is. rewrite J. reflexivity.
Qed.
Lemma strip_value v t : forallb (fun c => N.eqb c 59 || (N.leb 48 c && N.leb c 57)) v = true -> strip_from true (v ++ 109%N :: t) = strip_from false t.
Proof.
  induction v as [|c v IH]; intros H; [reflexivity|]. cbn [forallb] in H. apply andb_true_iff in H as [H1 H2]. cbn [app strip_from].
  replace (N.eqb c 109) with false; [cbn [negb]; auto|]. symmetry. apply N.eqb_neq. intros ->. discriminate H1.
Qed.
Lemma strip_decorated env p t : sgr env -> ~ In 27%N p -> Decorated env p t -> strip_sgr t = p.
Proof.
  intros G NI D. unfold strip_sgr. induction D as [|c p t D IH|v p t C D IH]; [reflexivity| |].
  - cbn [strip_from]. replace (N.eqb c 27) with false; [f_equal; apply IH; intros X; apply NI; now right|].
    symmetry. apply N.eqb_neq. intros ->. apply NI. now left.
  - cbn [strip_from N.eqb]. change (strip_from false (27%N :: 91%N :: v ++ 109%N :: t)) with (strip_from true (v ++ 109%N :: t)).
    rewrite strip_value; auto.
Qed.
