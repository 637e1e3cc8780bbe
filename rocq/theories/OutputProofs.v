(** What a search prints. *)
From Coq Require Import List NArith ZArith Bool Lia Permutation.
From Verif Require Import Py Re PathSpec EntrySpec ExprSpec GrammarSpec TypeSpec WalkModel WalkSpec.
From Verif Require Import PathModel EntryModel EntryProofs TypeModel RegistryModel TestModel FieldModel FieldSyntax FieldSyntaxProofs SortModel SortSpec SortProofs SortRunProofs NaturalProofs
  ConsoleModel ConsoleSpec ConsoleProofs ArgumentsModel ArgumentsSpec SliceProofs SearchModel SearchSpec SearchProofs SearchTreeProofs SearchEndProofs OutputModel OutputSpec.
Import ListNotations.
Local Open Scope Z_scope.

Lemma mapr_in {A B} (f : A -> res B) l out b : mapr f l = Ok out -> In b out -> exists a, In a l /\ f a = Ok b.
Proof.
  revert out. induction l as [|x l IH]; intros out; cbn [mapr]; [intros [= <-] []|].
  destruct (f x) as [y|] eqn:E; [|discriminate]. cbn [bindr]. destruct (mapr f l) as [r|]; [|discriminate]. cbn [bindr].
  intros [= <-] [<-|H]; [exists x; split; [now left|exact E]|]. destruct (IH r eq_refl H) as (a & Ia & Ea). exists a. split; [now right|exact Ea].
Qed.
Lemma ordered {A} (get : A -> str * str -> res value) sort reverse l k : finalize get sort reverse l = Ok k -> Ordered get sort reverse l k.
Proof.
  destruct sort as [fields|]; [|intros [= <-]; reflexivity]. exact (list_sort_spec (render get fields) reverse l k).
Qed.
Lemma ordered_perm {A} (get : A -> str * str -> res value) sort reverse l k : Ordered get sort reverse l k -> Permutation l k.
Proof. destruct sort as [fields|]; [intros (key & _ & P & _); exact P|intros ->; reflexivity]. Qed.
Lemma limited {A} limit (l : list A) : Limited limit l (entries_range limit l).
Proof. destruct limit as [[start stop]|]; [apply limit_picks|reflexivity]. Qed.
Lemma picks_in {A} P i (l k : list A) : Picks P i l k -> incl k l.
Proof. intros H. induction H; intros y Hy; [exact Hy| |right; auto]. destruct Hy as [<-|Hy]; [now left|right; auto]. Qed.
Lemma limited_in {A} limit (l k : list A) : Limited limit l k -> incl k l.
Proof. destruct limit as [s|]; [apply picks_in|intros ->; apply incl_refl]. Qed.

Section Output.
  Variable registered : list plugin.
  Variable init_plugin : str -> res unit.
  Variable other : entry -> str -> option value.
  Variable plugin_value : entry -> str * str -> option value.
  Hypothesis Hhonest : honest registered init_plugin other plugin_value.
  Notation value_of := (entry_value other plugin_value).
  Notation cvalue := (fun c : centry => value_of (c_entry c)).

  Lemma make_typed s f e : make_field registered init_plugin s = Ok f ->
    value_of e (f_attribute f) = Err KeyErr \/ exists v, value_of e (f_attribute f) = Ok v /\ conforms (f_type f) v = true.
  Proof.
    intros H. apply make_field_iff in H as (l & t & r & name & w & m & a & ty & _ & _ & _ & _ & _ & Ht & ->). cbn [f_attribute f_type].
    unfold entry_value. destruct (attribute_value other plugin_value e a) as [v|] eqn:E; [right|now left].
    exists v. split; [reflexivity|]. destruct Hhonest as (H1 & H2 & H3 & H4).
    pose proof (typed registered other plugin_value H1 H3 H4 e a ty v Ht E) as T. destruct ty, v; cbn in T |- *; tauto.
  Qed.
  Lemma fields_typed l fields entries : output_fields registered init_plugin l = Ok fields -> well_typed value_of fields entries.
  Proof. intros H e f _ Hf. destruct (mapr_in _ _ _ _ H Hf) as (s & _ & Es). exact (make_typed s f e Es). Qed.
  Lemma fields_good l fields c : output_fields registered init_plugin l = Ok fields -> good_fields cvalue c fields.
  Proof.
    intros H f Hf. destruct (mapr_in _ _ _ _ H Hf) as (s & _ & Es). split; [exact (make_typed s f (c_entry c) Es)|].
    intros w Hw. eexists. exact (make_field_width _ _ _ _ _ Es Hw).
  Qed.

  Variable human : ty -> Z -> str.
  Variable st : style.
  Variable env : str.
  Hypothesis Hst : st = Plain \/ (env <> [] /\ st = Coloured (read_colours env)).
  Variable follow all : bool.
  Variable separator : str.
  Variable link : entry -> str.
  Variable broken : entry -> bool.
  Notation complete := (complete link broken).
  Notation line fields e := (entry_line other plugin_value human st follow all separator link broken fields e).
  Notation lines_of fields l := (entry_lines other plugin_value human st follow all separator link broken fields l).

  Lemma lines_ok texts fields entries : output_fields registered init_plugin texts = Ok fields ->
    (forall e, In e entries -> good_entry (complete e)) ->
    exists ls, lines_of fields entries = Ok ls /\ Lines cvalue human st env all separator fields (map complete entries) ls.
  Proof.
    intros H. induction entries as [|e l IH]; intros G.
    - exists []. split; [reflexivity|constructor].
    - destruct IH as (ls & E & L); [intros x Hx; apply G; now right|]. unfold entry_lines in *. cbn [mapr map].
      assert (Gf := fields_good texts fields (complete e) H).
      unfold entry_line at 1. destruct (process_ok cvalue human st env follow Hst all separator (complete e) fields (G e (or_introl eq_refl)) Gf)
        as [(cells & -> & F & N)|(-> & S)]; cbn [bindr]; destruct (mapr _ l) as [m|]; try discriminate; cbn [bindr present] in *;
        injection E as ->; eexists; (split; [reflexivity|]); [apply lines_shown|apply lines_suppressed]; assumption.
  Qed.
  (** Whether there is a line *)
  Definition has_line (fields : list field) (e : entry) : bool :=
    match line fields e with Ok (Some _) => true | _ => false end.
  Lemma has_line_ok texts fields e : output_fields registered init_plugin texts = Ok fields -> good_entry (complete e) ->
    (has_line fields e = true <-> ~ Suppressed cvalue all (complete e) fields).
  Proof.
    intros H G. unfold has_line, entry_line.
    destruct (process_ok cvalue human st env follow Hst all separator (complete e) fields G (fields_good texts fields (complete e) H))
        as [(cells & -> & F & N)|(-> & S)]; split; intros; try reflexivity; try assumption; try discriminate. contradiction.
  Qed.
End Output.

(** "-o file" *)
Definition shown_anyway (p : str * ty) : field := Field ($"file", fst p) (fst p) (snd p) None (Some ($"n")).
Section File.
  Variable registered : list plugin.
  Variable init_plugin : str -> res unit.
  Hypothesis Hfile : find_plugin registered ($"file") = Some file_plugin.
  Hypothesis Hinit : init_plugin ($"file") = Ok tt.

  Lemma file_field p : In p (p_attrs file_plugin) -> make_field registered init_plugin (fst p ++ $":n") = Ok (shown_anyway p).
  Proof.
    intros H. unfold make_field.
    assert (X : match re_match field_re (strip (fst p ++ $":n")) with
                | Some (_, cs) => group 1 cs = Some (fst p) /\ group 2 cs = None /\ group 3 cs = Some ($"n")
                | None => False
                end /\ split_dot (fst p) = None /\ find_attr (fst p) file_plugin = Some (snd p)).
    { revert p H. apply Forall_forall. repeat (constructor; [vm_compute; repeat split|]). constructor. }
    destruct X as (X & D & F). destruct (re_match field_re _) as [[r cs]|]; [|destruct X]. destruct X as (-> & -> & ->).
    destruct (file_resolves registered init_plugin Hfile Hinit (fst p) (snd p) D F) as [E1 E2]. rewrite E1. cbn [bindr]. rewrite E2. reflexivity.
  Qed.
  Lemma mapr_app {A B} (f : A -> res B) l k x y : mapr f l = Ok x -> mapr f k = Ok y -> mapr f (l ++ k) = Ok (x ++ y).
  Proof.
    revert x. induction l as [|a l IH]; intros x; cbn [mapr app]; [intros [= <-] H; exact H|].
    destruct (f a) as [b|]; [|discriminate]. cbn [bindr]. destruct (mapr f l) as [z|]; [|discriminate]. cbn [bindr].
    intros [= <-] H. rewrite (IH z eq_refl H). reflexivity.
  Qed.
  Lemma file_fields : output_fields registered init_plugin (map (fun n => n ++ $":n") (get_file_attributes registered)) = Ok (map shown_anyway (p_attrs file_plugin)).
  Proof.
    unfold get_file_attributes, output_fields. rewrite Hfile, map_map.
    assert (G : forall l, incl l (p_attrs file_plugin) ->
      mapr (make_field registered init_plugin) (map (fun p => fst p ++ $":n") l) = Ok (map shown_anyway l)).
    { induction l as [|p l IH]; intros I; [reflexivity|]. cbn [map mapr].
      refine (eq_trans (f_equal (fun r => bindr r _) (file_field p (I p (or_introl eq_refl)))) _). cbn [bindr].
      rewrite IH by (intros x Hx; apply I; now right). reflexivity. }
    exact (G _ (incl_refl _)).
  Qed.
  Lemma expand_at names before after : ~ In ($"file") before ->
    expand_file names (before ++ $"file" :: after) = before ++ map (fun n => n ++ $":n") names ++ after.
  Proof.
    induction before as [|s l IH]; intros N; cbn [app expand_file]; [reflexivity|].
    destruct (str_eqb s ($"file")) eqn:E; [apply str_eqb_eq in E; subst s; exfalso; apply N; now left|].
    f_equal. apply IH. intros H. apply N. now right.
  Qed.
  Lemma expand_none names l : ~ In ($"file") l -> expand_file names l = l.
  Proof.
    induction l as [|s l IH]; intros N; cbn [expand_file]; [reflexivity|].
    destruct (str_eqb s ($"file")) eqn:E; [apply str_eqb_eq in E; subst s; exfalso; apply N; now left|].
    f_equal. apply IH. intros H. apply N. now right.
  Qed.
  Lemma all_fields before after x y : ~ In ($"file") before ->
    output_fields registered init_plugin before = Ok x -> output_fields registered init_plugin after = Ok y ->
    output_fields registered init_plugin (expand_file (get_file_attributes registered) (before ++ $"file" :: after)) =
      Ok (x ++ map shown_anyway (p_attrs file_plugin) ++ y).
  Proof.
    intros N Hx Hy. rewrite (expand_at _ _ _ N). apply mapr_app; [exact Hx|]. apply mapr_app; [exact file_fields|exact Hy].
  Qed.
  Lemma file_all (other : entry -> str -> option value) (plugin_value : entry -> str * str -> option value) (all : bool) link broken a before after x y :
    a_output a = before ++ $"file" :: after -> ~ In ($"file") before ->
    output_fields registered init_plugin before = Ok x -> output_fields registered init_plugin after = Ok y -> a_sort a = None ->
    exists fields, setup_fields registered init_plugin a = Ok (fields, None) /\
      fields = x ++ map shown_anyway (p_attrs file_plugin) ++ y /\
      forall e, Suppressed (fun c : centry => entry_value other plugin_value (c_entry c)) all (complete link broken e) fields <->
                Suppressed (fun c : centry => entry_value other plugin_value (c_entry c)) all (complete link broken e) (x ++ y).
  Proof.
    intros Ha N Hx Hy Hs. eexists. unfold setup_fields. rewrite Ha, Hs.
    rewrite (all_fields before after x y N Hx Hy). split; [reflexivity|]. split; [reflexivity|].
    intros e. unfold Suppressed. split; intros (E & f & I & M & Q); (split; [exact E|]); exists f; (split; [|split; [exact M|exact Q]]).
    - apply in_app_iff. apply in_app_iff in I as [I|I]; [now left|]. apply in_app_iff in I as [I|I]; [|now right].
      exfalso. apply in_map_iff in I as (p & <- & _). now apply Q.
    - apply in_app_iff. apply in_app_iff in I as [I|I]; [now left|right]. apply in_app_iff. now right.
  Qed.
End File.
