(** Proofs about the cache. *)
From Coq Require Import List NArith ZArith Bool Lia ZifyN.
From Verif Require Import Py CountModel JsonModel JsonSpec JsonProofs CacheModel CacheSpec.
Import ListNotations.

(** * Rows *)
Lemma in_replace r q rows : In q (replace_row r rows) -> q = r \/ In q rows.
Proof.
  induction rows as [|x rows IH]; cbn [replace_row]; [intros [<-|[]]; auto|].
  destruct (str_eqb (r_path r) (r_path x)); intros [<-|H]; cbn [In]; auto. destruct (IH H); auto.
Qed.
Lemma in_insert table r db t rows' q : In (t, rows') (insert table r db) -> In q rows' ->
  (t = table /\ q = r) \/ exists rows, In (t, rows) db /\ In q rows.
Proof.
  induction db as [|[t' rows] db IH]; cbn [insert]; [intros []|]. destruct (str_eqb table t') eqn:E.
  - apply str_eqb_eq in E as <-. intros [[= <- <-]|H] Hq.
    + apply in_replace in Hq as [->|Hq]; auto. right. exists rows. cbn [In]. auto.
    + right. exists rows'. cbn [In]. auto.
  - intros [[= <- <-]|H] Hq; [right; exists rows; cbn [In]; auto|].
    destruct (IH H Hq) as [X|(rs & X & Y)]; auto. right. exists rs. cbn [In]. auto.
Qed.
Lemma in_apply txn : forall db t rows' q, In (t, rows') (apply_txn db txn) -> In q rows' ->
  In (t, q) txn \/ exists rows, In (t, rows) db /\ In q rows.
Proof.
  unfold apply_txn. induction txn as [|[t0 r0] txn IH]; intros db t rows' q H Hq; cbn [fold_left] in H; [right; eauto|].
  destruct (IH _ _ _ _ H Hq) as [X|(rows & X & Y)]; [left; now right|]. cbn [fst snd] in X.
  destruct (in_insert _ _ _ _ _ _ X Y) as [[-> ->]|Z]; [left; now left|now right].
Qed.
Lemma dict_get_in_str {V} k (v : V) d : dict_get str_eqb k d = Some v -> In (k, v) d.
Proof.
  induction d as [|[k' v'] d IH]; cbn [dict_get]; [discriminate|].
  destruct (str_eqb k k') eqn:E; [|intros H; right; auto]. intros [= <-]. apply str_eqb_eq in E as ->. now left.
Qed.
Lemma in_dict_set {V} k (v : V) d q w : In (q, w) (dict_set str_eqb k v d) -> (q = k /\ w = v) \/ In (q, w) d.
Proof.
  induction d as [|[a b] d IH]; cbn [dict_set]; [intros [[= <- <-]|[]]; auto|].
  destruct (str_eqb k a) eqn:E; intros [[= <- <-]|H]; cbn [In]; auto.
  - apply str_eqb_eq in E. auto.
  - destruct (IH H); auto.
Qed.
Lemma in_add_row table r rows t l q : In (t, l) (add_row table r rows) -> In q l -> (t = table /\ q = r) \/ exists l', In (t, l') rows /\ In q l'.
Proof.
  unfold add_row. intros H Hq. apply in_dict_set in H as [[-> ->]|H]; [|eauto].
  destruct (dict_get str_eqb table rows) as [l0|] eqn:E.
  - apply dict_get_in_str in E. apply in_app_iff in Hq as [Hq|[<-|[]]]; eauto.
  - destruct Hq as [<-|[]]. auto.
Qed.
(** one row per path *)
Lemma replace_keys r rows q : In q (map r_path (replace_row r rows)) -> q = r_path r \/ In q (map r_path rows).
Proof. intros H. apply in_map_iff in H as (x & <- & H). apply in_replace in H as [->|H]; auto. right. now apply in_map. Qed.
Lemma replace_nodup r rows : NoDup (map r_path rows) -> NoDup (map r_path (replace_row r rows)).
Proof.
  induction rows as [|x rows IH]; cbn [replace_row map]; intros N; [constructor; [intros []|constructor]|].
  inversion N as [|? ? NI ND]; subst. destruct (str_eqb (r_path r) (r_path x)) eqn:E; cbn [map].
  - apply str_eqb_eq in E. rewrite E. now constructor.
  - constructor; auto. intros H. apply replace_keys in H as [H|H]; auto. rewrite H, (proj2 (str_eqb_eq _ _) eq_refl) in E. discriminate.
Qed.
Definition keyed (d : database) : Prop := forall t rows, In (t, rows) d -> NoDup (map r_path rows).
Lemma insert_keyed table r d : keyed d -> keyed (insert table r d).
Proof.
  induction d as [|[t rows] d IH]; intros K; cbn [insert]; [auto|].
  assert (K0 : NoDup (map r_path rows)) by (apply (K t); now left).
  assert (K1 : keyed d) by (intros t' rows' H; apply (K t'); now right).
  destruct (str_eqb table t); intros t' rows' [[= <- <-]|H]; eauto using replace_nodup. now apply (IH K1 t').
Qed.
Lemma apply_keyed txn : forall d, keyed d -> keyed (apply_txn d txn).
Proof. unfold apply_txn. induction txn as [|[t r] txn IH]; intros d K; cbn [fold_left]; auto. apply IH. now apply insert_keyed. Qed.
Lemma in_init table d t rows : In (t, rows) (init_table table d) -> In (t, rows) d \/ rows = [].
Proof.
  unfold init_table. intros H. apply filter_In in H as [H _]. destruct (existsb _ _); auto.
  apply in_app_iff in H as [H|[[= <- <-]|[]]]; auto.
Qed.
Lemma init_keyed table d : keyed d -> keyed (init_table table d).
Proof. intros K t rows H. apply in_init in H as [H| ->]; [now apply (K t)|constructor]. Qed.

(** * Histories *)
Section History.
  Variables V T F R : Type.
  Variable compute : str -> str -> F -> res (cached V).
  Variable tag_of : str -> F -> T.
  Variable finish : str -> str -> cached V -> R.
  Variable pickle_tag : T -> str.
  Variable dumps : cached V -> option str.
  Variable loads : str -> cached V.
  Variable steady : bool.
  Notation step := (step compute tag_of finish pickle_tag dumps loads steady).
  Notation run := (run compute tag_of finish pickle_tag dumps loads steady).
  Notation state := (state T F).

  (** like Computed, and the tags agree if nothing changed in between *)
  Definition row_of (s : state) (table : str) (r : row) : Prop :=
    exists path f0 f c data, In (path, f0) (past s) /\ In (path, f) (past s) /\ (steady = true -> tag_of table f0 = tag_of table f) /\
      r = Row (encode path) (pickle_tag (tag_of table f0)) data /\ compute table path f = Ok c /\ dumps c = Some data.
  Definition rows_of (s : state) (l : list (str * list row)) : Prop := forall t rows r, In (t, rows) l -> In r rows -> row_of s t r.
  Definition proc_ok (s : state) (p : process T) : Prop :=
    rows_of s (cached_rows p) /\ (forall t r, In (t, r) (txn p) -> row_of s t r) /\
    match doing p with
    | Idle => True
    | Computing table path tag => exists f, In (path, f) (past s) /\ tag = tag_of table f
    | Committing todo _ => rows_of s todo
    end.
  Definition inv (s : state) : Prop :=
    rows_of s (db s) /\ (forall i p, procs s i = Some p -> proc_ok s p) /\
    (forall path f, In (path, f) (past s) -> In (path, files s path) (past s)) /\ keyed (db s).

  Lemma row_of_past s s' t r : (forall x, In x (past s) -> In x (past s')) -> row_of s t r -> row_of s' t r.
  Proof. intros M (path & f0 & f & c & data & A & B & C & D & E & G). exists path, f0, f, c, data. auto 9. Qed.
  Lemma proc_past s s' p : (forall x, In x (past s) -> In x (past s')) -> proc_ok s p -> proc_ok s' p.
  Proof.
    intros M (A & B & C). split; [intros t rows r H1 H2; eapply row_of_past; eauto|]. split; [intros t r H; eapply row_of_past; eauto|].
    destruct (doing p) as [|table path tag|todo r]; auto.
    - destruct C as (f & C & D). eauto.
    - intros t rows q H1 H2. eapply row_of_past; eauto.
  Qed.
  Lemma inv_initial s : initial s -> inv s.
  Proof.
    intros (D & P & Pa). split; [rewrite D; intros t rows r []|]. split; [intros i p H; rewrite P in H; discriminate|].
    split; [intros path f H; now rewrite (Pa path f H)|rewrite D; intros t rows []].
  Qed.
  Lemma inv_proc s i o : inv s -> (forall p, o = Some p -> proc_ok s p) -> inv (with_proc i o s).
  Proof.
    intros (A & B & C & D) H. split; [exact A|]. split; [|split; [exact C|exact D]]. intros j p. cbn [procs with_proc]. unfold set_proc.
    destruct (Nat.eqb j i); intros E; [exact (H p E)|exact (B j p E)].
  Qed.
  Lemma publish_ok s p table rows : inv s -> proc_ok s p -> (forall r, In r rows -> row_of s table r) ->
    rows_of s (apply_txn (db s) (txn p ++ map (pair table) rows)).
  Proof.
    intros I (_ & B & _) H t rows' r Ht Hr. destruct (in_apply _ _ _ _ _ Ht Hr) as [X|(l & X & Y)]; [|now apply (proj1 I t l)].
    apply in_app_iff in X as [X|X]; [now apply B|]. apply in_map_iff in X as (q & [= <- <-] & X). auto.
  Qed.
  Lemma set_ok s p table path tag c data : inv s -> proc_ok s p -> doing p = Computing table path tag ->
    (steady = true -> tag = tag_of table (files s path)) -> compute table path (files s path) = Ok c -> dumps c = Some data ->
    rows_of s (add_row table (Row (encode path) (pickle_tag tag) data) (cached_rows p)).
  Proof.
    intros I (A & B & C) D St E Du t l q H Hq. apply in_add_row with (q := q) in H as [[-> ->]|(l' & X & Y)]; auto; [|now apply (A t l')].
    rewrite D in C. destruct C as (f & C & ->). exists path, f, (files s path), c, data.
    split; auto. split; [now apply (proj1 (proj2 (proj2 I)) path f)|auto].
  Qed.
  Lemma step_inv s e s' : inv s -> step s e s' -> inv s'.
  Proof.
    intros I St. assert (B := proj1 (proj2 I)).
    destruct St as [path f|i now P|i j p P Id Tx P'|i p name version P Id|i p table path f c P Id H St G|i p table path f P Id H St G|i p table path f x P Id H G
      |i p table path tag c data now P D St E Du p' Due|i p table path tag c data now P D St E Du p' Due|i p table path tag x P D E|i p table path tag c P D E Du
      |i p P D Nu|i p table rows todo r P D Ta|i p table rows todo r n P D Ta|i p table rows todo r P D Ta|i p r now P D|i p P].
    - destruct I as (A & _ & C & K). split; [|split; [|split; [|exact K]]].
      + intros t rows r H1 H2. eapply row_of_past; [|now apply (A t rows)]. intros x. cbn [past In]. auto.
      + intros i p H. eapply proc_past; [|now apply (B i)]. intros x. cbn [past In]. auto.
      + intros q g. cbn [past files In]. destruct (str_eqb q path) eqn:E.
        * apply str_eqb_eq in E as ->. intros _. now left.
        * intros [[= <- <-]|H]; [rewrite (proj2 (str_eqb_eq _ _) eq_refl) in E; discriminate|]. right. eauto.
    - apply inv_proc; auto. intros p [= <-]. split; [intros t rows r []|]. split; [intros t r []|exact Logic.I].
    - apply inv_proc; auto. intros q [= <-]. now apply (B i).
    - destruct I as (A & _ & C & K). split; [|split; [|split; [exact C|now apply init_keyed]]].
      + intros t rows r H1 H2. cbn [db] in H1. apply in_init in H1 as [H1| ->]; [now apply (A t rows)|destruct H2].
      + exact B.
    - exact I.
    - apply inv_proc; auto. intros q [= <-]. destruct (B i p P) as (X & Y & _). split; [exact X|]. split; [exact Y|]. cbn [doing become]. eauto.
    - exact I.
    - apply inv_proc; auto. intros q [= <-]. destruct (B i p P) as (X & Y & Z). split; [|split; [exact Y|exact Logic.I]].
      eapply set_ok; eauto.
    - apply inv_proc; auto. intros q [= <-]. destruct (B i p P) as (X & Y & Z).
      assert (W : rows_of s (cached_rows p')) by (eapply set_ok; eauto).
      split; [exact W|]. split; [exact Y|exact W].
    - apply inv_proc; auto. intros q [= <-]. destruct (B i p P) as (X & Y & _). split; [exact X|]. split; [exact Y|exact Logic.I].
    - apply inv_proc; auto. intros q [= <-]. destruct (B i p P) as (X & Y & _). split; [exact X|]. split; [exact Y|exact Logic.I].
    - apply inv_proc; auto. intros q [= <-]. destruct (B i p P) as (X & Y & _). split; [exact X|]. split; [exact Y|exact X].
    - assert (Pi := B i p P). destruct Pi as (X & Y & Z). rewrite D in Z. split; [|split; [|split; [apply I|]]].
      + assert (W : proc_ok s p) by (split; [exact X|]; split; [exact Y|]; rewrite D; exact Z).
        exact (publish_ok s p table rows I W (fun q Hq => Z table rows q (or_introl eq_refl) Hq)).
      + intros j q. cbn [procs]. unfold set_proc. destruct (Nat.eqb j i); [|apply B]. intros [= <-].
        split; [exact X|]. split; [intros t q []|]. intros t l q H1 H2. exact (Z t l q (or_intror H1) H2).
      + apply apply_keyed, I.
    - apply inv_proc; auto. intros q [= <-]. destruct (B i p P) as (X & Y & Z). split; [exact X|]. split; [|exact Z].
      intros t q H. cbn [txn] in H. apply in_app_iff in H as [H|H]; [now apply Y|]. apply in_map_iff in H as (x & [= <- <-] & H).
      rewrite D in Z. apply (Z table rows); [now left|]. rewrite <- (firstn_skipn n rows). apply in_app_iff. now left.
    - apply inv_proc; auto. intros q [= <-]. destruct (B i p P) as (X & Y & _). split; [exact X|]. split; [exact Y|exact Logic.I].
    - apply inv_proc; auto. intros q [= <-]. destruct (B i p P) as (X & Y & _). split; [intros t rows x []|]. split; [exact Y|exact Logic.I].
    - apply inv_proc; auto. discriminate.
  Qed.
  Lemma run_inv s l s' : initial s -> run s l s' -> inv s'.
  Proof. intros I H. induction H as [|l s1 e s2 H IH St]; [now apply inv_initial|]. eapply step_inv; eauto. Qed.

  (** what is in the database was computed *)
  Lemma database_computed s l s' table rows r : initial s -> run s l s' -> In (table, rows) (db s') -> In r rows ->
    Computed compute tag_of pickle_tag dumps s' table r.
  Proof.
    intros I H D Hr. destruct (proj1 (run_inv s l s' I H) table rows r D Hr) as (path & f0 & f & c & data & A & B & _ & C & E & G).
    exists path, f0, f, c, data. auto.
  Qed.
  Lemma database_keyed s l s' table rows : initial s -> run s l s' -> In (table, rows) (db s') -> NoDup (map r_path rows).
  Proof. intros I H. apply (run_inv s l s' I H). Qed.

  Hypothesis pickle_inj : forall t t', pickle_tag t = pickle_tag t' -> t = t'.
  Hypothesis loads_dumps : forall c data, dumps c = Some data -> loads data = c.
  Lemma get_computed s p table path tag c : inv s -> proc_ok s p -> cache_get pickle_tag loads (view s p) table path tag = Ok (Some c) ->
    exists path' f0 f, In (path', f0) (past s) /\ In (path', f) (past s) /\ (steady = true -> tag_of table f0 = tag_of table f) /\
      encode path' = encode path /\ tag = tag_of table f0 /\ compute table path' f = Ok c.
  Proof.
    intros I (_ & Tx & _). unfold cache_get. destruct (dict_get str_eqb table (view s p)) as [rows|] eqn:E; [|discriminate].
    destruct (find _ rows) as [r|] eqn:Fi; [|discriminate]. intros [= <-]. apply find_some in Fi as [Hr Eq].
    apply andb_true_iff in Eq as [E1 E2]. apply str_eqb_eq in E1, E2. apply dict_get_in_str in E. unfold view in E.
    assert (X : row_of s table r). { destruct (in_apply _ _ _ _ _ E Hr) as [H|(l & H & Hl)]; [now apply Tx|now apply (proj1 I table l)]. }
    destruct X as (path' & f0 & f & c & data & A & B & C & -> & G & H). cbn [r_path r_tag r_data] in *. exists path', f0, f.
    split; auto. split; auto. split; auto. split; [congruence|]. split; [now apply pickle_inj|]. rewrite (loads_dumps c data H). exact G.
  Qed.
  (** transparency *)
  Lemma found_direct s l s1 e s2 table path r : steady = true -> initial s -> run s l s1 -> step s1 e s2 -> functional compute tag_of s1 ->
    e = Found table path r -> Direct compute finish s1 table path r.
  Proof.
    intros Std I0 Ru St Fu. assert (I := run_inv _ _ _ I0 Ru). assert (B := proj1 (proj2 I)).
    destruct St as [path0 f|i now P|i j p P Id Tx P'|i p name version P Id|i p tb pa f c P Id H St G|i p tb pa f P Id H St G|i p tb pa f x P Id H G
      |i p tb pa tag c data now P D St E Du p' Due|i p tb pa tag c data now P D St E Du p' Due|i p tb pa tag x P D E|i p tb pa tag c P D E Du
      |i p P D Nu|i p tb rows todo q P D Ta|i p tb rows todo q n P D Ta|i p tb rows todo q P D Ta|i p q now P D|i p P]; try discriminate.
    - intros [= -> -> <-]. destruct (get_computed s1 p table path _ c I (B i p P) G) as (path' & f0 & f' & A1 & A2 & A3 & A4 & A5 & A6).
      exists c. split; [|reflexivity]. rewrite <- A6. apply Fu; auto; [apply (proj1 (proj2 (proj2 I)) path f H)|].
      rewrite <- A3 by exact Std. rewrite <- A5. symmetry. now apply St.
    - intros [= -> -> <-]. exists c. auto.
    - intros [= -> -> <-]. exists c. auto.
    - destruct q as [[? ?]|]; discriminate.
  Qed.
  (** errors *)
  Lemma raised_why s1 e s2 table path x : step s1 e s2 -> e = Raised table path x ->
    compute table path (files s1 path) = Err x \/ (exists c, compute table path (files s1 path) = Ok c /\ dumps c = None) \/
    (x = OperationalErr /\ exists i p t, procs s1 i = Some p /\ (t = table \/ exists todo q, doing p = Committing todo q /\ In t (map fst todo)) /\ dict_get str_eqb t (view s1 p) = None) \/
    (x = OperationalErr /\ exists i p t, procs s1 i = Some p /\ (exists todo q, doing p = Committing todo q /\ In t (map fst todo)) /\ dict_get str_eqb t (db s1) = None).
  Proof.
    intros St.
    destruct St as [path0 f|i now P|i j p P Id Tx P'|i p name version P Id|i p tb pa f c P Id H St G|i p tb pa f P Id H St G|i p tb pa f y P Id H G
      |i p tb pa tag c data now P D St E Du p' Due|i p tb pa tag c data now P D St E Du p' Due|i p tb pa tag y P D E|i p tb pa tag c P D E Du
      |i p P D Nu|i p tb rows todo q P D Ta|i p tb rows todo q n P D Ta|i p tb rows todo q P D Ta|i p q now P D|i p P]; try discriminate.
    - intros [= -> -> ->]. right. right. left. unfold cache_get in G. destruct (dict_get str_eqb table (view s1 p)) as [rows|] eqn:E.
      + destruct (find _ rows); discriminate.
      + injection G as <-. split; auto. exists i, p, table. auto.
    - intros [= -> -> ->]. auto.
    - intros [= -> -> <-]. right. left. eauto.
    - destruct q as [[a b]|]; [|discriminate]. intros [= -> -> <-]. right. right. right. split; auto. exists i, p, tb. split; auto. split; auto.
      exists ((tb, rows) :: todo), (Some (table, path)). split; auto. now left.
  Qed.
End History.

(** tables in a transaction and in the database are the same *)
Lemma insert_get t table r d : dict_get str_eqb t (insert table r d) = None <-> dict_get str_eqb t d = None.
Proof.
  induction d as [|[t' rows] d IH]; cbn [insert dict_get]; [reflexivity|].
  destruct (str_eqb table t'); cbn [dict_get]; destruct (str_eqb t t'); try reflexivity; try (split; discriminate). exact IH.
Qed.
Lemma apply_get t l : forall d, dict_get str_eqb t (apply_txn d l) = None <-> dict_get str_eqb t d = None.
Proof.
  unfold apply_txn. induction l as [|[a r] l IH]; intros d; cbn [fold_left]; [reflexivity|]. rewrite IH. apply insert_get.
Qed.

(** * Keys *)
Lemma hex4_inj a b s t : (a < 65536)%N -> (b < 65536)%N -> hex4 a ++ s = hex4 b ++ t -> a = b /\ s = t.
Proof.
  intros A B. destruct (hex4_read a A) as (w & x & y & z & -> & Ea), (hex4_read b B) as (w' & x' & y' & z' & -> & Eb).
  cbn [app]. intros [= -> -> -> -> ->]. split; congruence.
Qed.
Ltac Zify.zify_post_hook ::= Z.to_euclidean_division_equations.
Definition same_kind (c d : char) : Prop := (is_surrogate c = false /\ is_surrogate d = false) \/ (c <> 92%N /\ d <> 92%N).
Lemma cons_inj {A} (a b : A) l k : a :: l = b :: k -> a = b /\ l = k.
Proof. intros [= -> ->]. auto. Qed.
Ltac conses := repeat match goal with E : _ :: _ = _ :: _ |- _ => apply cons_inj in E as [? E] end.
Lemma utf8_inj c d s t : (c < 1114112)%N -> (d < 1114112)%N -> same_kind c d -> utf8_char c ++ s = utf8_char d ++ t -> c = d /\ s = t.
Proof.
  intros C D K. unfold utf8_char. unfold str, char in *. change ($"\u") with [92%N; 117%N].
  assert (SC : is_surrogate c = true -> (55296 <= c <= 57343)%N) by (unfold is_surrogate; rewrite andb_true_iff, !N.leb_le; auto).
  assert (SD : is_surrogate d = true -> (55296 <= d <= 57343)%N) by (unfold is_surrogate; rewrite andb_true_iff, !N.leb_le; auto).
  destruct (N.ltb_spec c 128), (N.ltb_spec d 128).
  { cbn [app]. intros E. conses. auto. }
  { destruct (N.ltb_spec d 2048); [cbn [app]; intros E; conses; exfalso; lia|]. destruct (is_surrogate d) eqn:Sd.
    - cbn [app]. intros E. conses. exfalso. destruct K as [[_ K]|[K _]]; [congruence|now elim K].
    - destruct (N.ltb_spec d 65536); cbn [app]; intros E; conses; exfalso; lia. }
  { destruct (N.ltb_spec c 2048); [cbn [app]; intros E; conses; exfalso; lia|]. destruct (is_surrogate c) eqn:Sc.
    - cbn [app]. intros E. conses. exfalso. destruct K as [[K _]|[_ K]]; [congruence|now elim K].
    - destruct (N.ltb_spec c 65536); cbn [app]; intros E; conses; exfalso; lia. }
  destruct (N.ltb_spec c 2048), (N.ltb_spec d 2048).
  { cbn [app]. intros E. conses. split; [lia|auto]. }
  { destruct (is_surrogate d); [cbn [app]; intros E; conses; exfalso; lia|].
    destruct (N.ltb_spec d 65536); cbn [app]; intros E; conses; exfalso; lia. }
  { destruct (is_surrogate c); [cbn [app]; intros E; conses; exfalso; lia|].
    destruct (N.ltb_spec c 65536); cbn [app]; intros E; conses; exfalso; lia. }
  destruct (is_surrogate c) eqn:Sc, (is_surrogate d) eqn:Sd.
  { specialize (SC eq_refl). specialize (SD eq_refl). rewrite <- !app_assoc. intros E. apply app_inv_head in E. apply hex4_inj in E; auto; lia. }
  { destruct (N.ltb_spec d 65536); cbn [app]; intros E; conses; exfalso; lia. }
  { destruct (N.ltb_spec c 65536); cbn [app]; intros E; conses; exfalso; lia. }
  destruct (N.ltb_spec c 65536), (N.ltb_spec d 65536); cbn [app]; intros E; conses; first [exfalso; lia|split; [lia|auto]].
Qed.
Lemma utf8_nonnil c : utf8_char c <> [].
Proof. unfold utf8_char. destruct (c <? 128)%N, (c <? 2048)%N, (is_surrogate c), (c <? 65536)%N; discriminate. Qed.
Lemma encode_inj p q : Forall (fun c => c < 1114112)%N p -> Forall (fun c => c < 1114112)%N q ->
  ((forall c, In c p \/ In c q -> is_surrogate c = false) \/ (~ In 92%N p /\ ~ In 92%N q)) -> encode p = encode q -> p = q.
Proof.
  intros P Q. revert q Q. induction P as [|c p Hc P IH]; intros q Q K E.
  - destruct q as [|d q]; auto. cbn [encode flat_map] in E. symmetry in E. apply app_eq_nil in E as [E _]. now apply utf8_nonnil in E.
  - destruct Q as [|d q Hd Q]; [cbn [encode flat_map] in E; apply app_eq_nil in E as [E _]; now apply utf8_nonnil in E|].
    cbn [encode flat_map] in E. apply utf8_inj in E as [-> E]; auto.
    + f_equal. apply IH; auto. destruct K as [K|[K1 K2]]; [left|right].
      * intros x [H|H]; apply K; cbn [In]; auto.
      * split; [intros H; apply K1|intros H; apply K2]; now right.
    + destruct K as [K|[K1 K2]]; [left; split; apply K; cbn [In]; auto|]. right.
      split; [intros ->; apply K1|intros ->; apply K2]; now left.
Qed.

(** * Names of tables *)
Lemma simple_lower c : simple c = true -> ascii_lower c = c.
Proof.
  unfold simple, ascii_lower. intros H. destruct (N.leb_spec 65 c), (N.leb_spec c 90); cbn [andb]; auto. exfalso.
  repeat (apply orb_true_iff in H as [H|H]); try (apply andb_true_iff in H as [H H']; apply N.leb_le in H, H'; lia). apply N.eqb_eq in H. lia.
Qed.
Lemma simple_percent c : simple c = true -> N.eqb c 37 = false.
Proof.
  intros H. apply N.eqb_neq. intros ->. discriminate H.
Qed.
Lemma like_all s : like ($"%") s = true.
Proof. induction s as [|c s IH]; [reflexivity|]. cbn in *. rewrite IH. now rewrite orb_true_r || reflexivity. Qed.
Lemma like_covers p : forall s, forallb simple p = true -> forallb simple s = true -> like (p ++ $"%") s = true <-> covers p s.
Proof.
  induction p as [|c p IH]; intros s P S.
  - cbn [app]. rewrite like_all. cbn. tauto.
  - cbn [forallb] in P. apply andb_true_iff in P as [Pc P]. cbn [app like]. rewrite (simple_percent c Pc).
    destruct s as [|d s]; [cbn [covers]; split; [discriminate|tauto]|]. cbn [forallb] in S. apply andb_true_iff in S as [Sd S]. cbn [covers].
    rewrite andb_true_iff, orb_true_iff, !N.eqb_eq, IH by auto. rewrite !simple_lower by auto. reflexivity.
Qed.
Lemma simple_digits n : forallb simple (str_of_N n) = true.
Proof.
  assert (H := str_of_N_digits n). apply forallb_forall. intros c Hc. rewrite forallb_forall in H. specialize (H c Hc).
  unfold is_d, between in H. apply andb_true_iff in H as [H1 H2]. apply N.leb_le in H1, H2. unfold simple.
  replace (48 <=? c)%N with true by (symmetry; now apply N.leb_le). replace (c <=? 57)%N with true by (symmetry; now apply N.leb_le).
  now rewrite orb_true_r.
Qed.
Lemma simple_table n v : forallb simple n = true -> forallb simple (sql_table_name n v) = true.
Proof. intros H. unfold sql_table_name. rewrite !forallb_app, H, simple_digits. reflexivity. Qed.
Lemma lstrip_all d s : forallb is_d d = true -> lstrip_p is_d (d ++ s) = lstrip_p is_d s.
Proof. induction d as [|c d IH]; cbn [app lstrip_p forallb]; auto. intros H. apply andb_true_iff in H as [-> H]. auto. Qed.
Lemma forallb_rev {A} (f : A -> bool) l : forallb f l = true -> forallb f (rev l) = true.
Proof. rewrite !forallb_forall. intros H x Hx. apply H. now apply in_rev. Qed.
Lemma rstrip_table m v : rstrip_digits (sql_table_name m v) = $"plugin_" ++ m ++ $"_".
Proof.
  unfold rstrip_digits, sql_table_name. rewrite !app_assoc, rev_app_distr, lstrip_all by apply forallb_rev, str_of_N_digits.
  rewrite rev_app_distr. cbn [rev app lstrip_p]. change (is_d 95%N) with false. cbv iota.
  change (rev (95%N :: rev (($"plugin_") ++ m)) = (($"plugin_") ++ m) ++ $"_"). cbn [rev]. now rewrite rev_involutive.
Qed.
Lemma covers_self p s : covers p (p ++ s).
Proof. induction p; cbn [app covers]; auto. Qed.
Lemma covers_common x p s : covers (x ++ p) (x ++ s) <-> covers p s.
Proof. induction x as [|c x IH]; cbn [app covers]; [reflexivity|]. rewrite IH. tauto. Qed.
(** exactly what init_table drops *)
Lemma init_others (m : str) v (d : database) (t : str) (rows : list row) : forallb simple m = true -> (forall t rows, In (t, rows) d -> forallb simple t = true) -> t <> sql_table_name m v ->
  (In (t, rows) (init_table (sql_table_name m v) d) <-> In (t, rows) d /\ ~ covers ($"plugin_" ++ m ++ $"_") t).
Proof.
  intros M D N. unfold init_table. rewrite rstrip_table. set (tables := filter (like (($"plugin_" ++ m ++ $"_") ++ $"%")) (map fst d)).
  assert (Tb : forall rows, In (t, rows) d -> (existsb (str_eqb t) tables = true <-> covers ($"plugin_" ++ m ++ $"_") t)).
  { intros rows' H. rewrite existsb_exists. rewrite <- like_covers; [|rewrite !forallb_app, M; reflexivity|eauto]. split.
    - intros (x & Hx & E). apply str_eqb_eq in E as <-. apply filter_In in Hx. apply Hx.
    - intros L. exists t. split; [|now apply str_eqb_eq]. apply filter_In. split; [|exact L]. apply in_map_iff. exists (t, rows'). auto. }
  rewrite filter_In. cbn [fst]. replace (str_eqb t (sql_table_name m v)) with false by (symmetry; apply not_true_iff_false; rewrite str_eqb_eq; exact N).
  cbn [negb]. rewrite andb_true_r, negb_true_iff. split.
  - intros [H E]. assert (X : In (t, rows) d).
    { destruct (existsb (str_eqb (sql_table_name m v)) tables); auto. apply in_app_iff in H as [H|[[= <- <-]|[]]]; auto. now elim N. }
    split; auto. rewrite <- (Tb rows X). congruence.
  - intros [H E]. split; [destruct (existsb (str_eqb (sql_table_name m v)) tables); auto; apply in_app_iff; auto|].
    apply not_true_iff_false. now rewrite (Tb rows H).
Qed.
Lemma init_own (m : str) v (d : database) : forallb simple m = true -> (forall t rows, In (t, rows) d -> forallb simple t = true) ->
  forall rows, In (sql_table_name m v, rows) (init_table (sql_table_name m v) d) <->
    In (sql_table_name m v, rows) d \/ (rows = [] /\ ~ In (sql_table_name m v) (map fst d)).
Proof.
  intros M D rows. unfold init_table. rewrite rstrip_table. set (tables := filter (like (($"plugin_" ++ m ++ $"_") ++ $"%")) (map fst d)). set (tb := sql_table_name m v).
  assert (Tb : existsb (str_eqb tb) tables = true <-> In tb (map fst d)).
  { rewrite existsb_exists. split.
    - intros (x & Hx & E). apply str_eqb_eq in E as <-. now apply filter_In in Hx.
    - intros H. exists tb. split; [|now apply str_eqb_eq]. apply filter_In. split; auto. apply like_covers.
      + rewrite !forallb_app, M. reflexivity.
      + apply simple_table, M.
      + unfold tb, sql_table_name. rewrite !app_assoc. apply covers_self. }
  rewrite filter_In. cbn [fst]. rewrite (proj2 (str_eqb_eq tb tb) eq_refl). cbn [negb]. rewrite andb_false_r. cbn [negb].
  destruct (existsb (str_eqb tb) tables) eqn:E.
  - split; [intros [H _]; auto|]. intros [H|[_ H]]; [auto|]. now elim H; apply Tb.
  - rewrite in_app_iff. split.
    + intros [[H|[[= <-]|[]]] _]; auto. right. split; auto. rewrite <- Tb. discriminate.
    + intros [H|[-> H]]; split; auto. right. now left.
Qed.
(** without underscores: the other name begins with this one *)
Lemma covers_prefix m n w : ~ In 95%N m -> covers (m ++ $"_") (n ++ $"_" ++ w) <-> exists x, n = m ++ x.
Proof.
  revert n. induction m as [|c m IH]; intros n N.
  - cbn [app covers]. split; [intros _; now exists n|]. intros _. change (covers [95%N] (n ++ 95%N :: w)). destruct n as [|d n]; cbn [app covers]; auto.
  - cbn [app]. destruct n as [|d n]; cbn [app covers].
    + split; [|intros (x & H); discriminate]. intros [[E|E] _]; exfalso; apply N; left; exact E.
    + specialize (IH n ltac:(intros H; apply N; now right)). cbn [app] in IH. rewrite IH. split.
      * intros [[E|E] (x & ->)]; [exfalso; apply N; now left|]. subst d. now exists x.
      * intros (x & [= <- ->]). split; eauto.
Qed.
Lemma covers_table m n w : covers ($"plugin_" ++ m ++ $"_") (sql_table_name n w) <-> covers (m ++ $"_") (n ++ $"_" ++ str_of_N w).
Proof. unfold sql_table_name. apply covers_common. Qed.

(** * Cleaning *)
Lemma deletes_committed stale : forall c, committed (fold_left (fun c tp => delete (fst tp) (snd tp) c) stale c) = committed c /\
  (stale <> [] -> in_transaction (fold_left (fun c tp => delete (fst tp) (snd tp) c) stale c) = true).
Proof.
  assert (X : forall stale c, in_transaction c = true -> in_transaction (fold_left (fun c tp => delete (fst tp) (snd tp) c) stale c) = true)
    by (induction stale0 as [|x l IH]; intros c H; cbn [fold_left]; auto).
  induction stale as [|x stale IH]; intros c; cbn [fold_left]; [split; [reflexivity|intros H; now elim H]|]. split; [exact (proj1 (IH (delete (fst x) (snd x) c)))|]. intros _. now apply X.
Qed.
Lemma clean_result exists_ d : (forall t rows r, In (t, rows) d -> In r rows -> exists_ (r_path r) = true) /\ clean_cache exists_ d = (Ok tt, d) \/
  (exists t rows r, In (t, rows) d /\ In r rows /\ exists_ (r_path r) = false) /\ clean_cache exists_ d = (Err OperationalErr, d).
Proof.
  unfold clean_cache, clean. cbn [current]. set (stale := flat_map _ d). destruct stale as [|x l] eqn:E.
  - left. split; [|reflexivity]. intros t rows r H Hr. destruct (exists_ (r_path r)) eqn:X; auto. exfalso.
    assert (Y : In (t, r_path r) stale).
    { unfold stale. apply in_flat_map. exists (t, rows). split; auto. cbn [fst snd]. apply in_map_iff. exists r. split; auto. apply filter_In. now rewrite X. }
    rewrite E in Y. destruct Y.
  - right. split.
    + assert (Y : In x stale) by (rewrite E; now left). unfold stale in Y. apply in_flat_map in Y as ([t rows] & H & Y).
      cbn [fst snd] in Y. apply in_map_iff in Y as (r & _ & Y). apply filter_In in Y as [Y1 Y2]. exists t, rows, r.
      split; auto. split; auto. now apply negb_true_iff.
    + destruct (deletes_committed (x :: l) (Connection d d false)) as [A B]. rewrite (B ltac:(discriminate)), A. reflexivity.
Qed.

(** * Tables in use *)
Lemma in_dict_get {V} k (d : list (str * V)) : dict_get str_eqb k d = None <-> ~ In k (map fst d).
Proof.
  induction d as [|[a v] d IH]; cbn [dict_get map fst In]; [tauto|]. destruct (str_eqb k a) eqn:E.
  - apply str_eqb_eq in E as <-. split; [discriminate|]. intros H. elim H. now left.
  - rewrite IH. split; [|tauto]. intros H [<-|X]; [|tauto]. rewrite (proj2 (str_eqb_eq _ _) eq_refl) in E. discriminate.
Qed.
Section Tables.
  Variables V T F R : Type.
  Variable compute : str -> str -> F -> res (cached V).
  Variable tag_of : str -> F -> T.
  Variable finish : str -> str -> cached V -> R.
  Variable pickle_tag : T -> str.
  Variable dumps : cached V -> option str.
  Variable loads : str -> cached V.
  Variable steady : bool.
  Notation step := (step compute tag_of finish pickle_tag dumps loads steady).
  (** why a call fails *)
  Lemma raised_reason s1 e s2 table path x : step s1 e s2 -> e = Raised table path x ->
    compute table path (files s1 path) = Err x \/ (exists c, compute table path (files s1 path) = Ok c /\ dumps c = None) \/
    (x = OperationalErr /\ exists t, ~ In t (map fst (db s1)) /\
       (t = table \/ exists i p todo q, procs s1 i = Some p /\ doing p = Committing todo q /\ In t (map fst todo))).
  Proof.
    intros St E. destruct (raised_why V T F R compute tag_of finish pickle_tag dumps loads steady s1 e s2 table path x St E)
      as [H|[H|[(-> & i & p & t & P & U & D)|(-> & i & p & t & P & (todo & q & U1 & U2) & D)]]]; auto; right; right; split; auto; exists t; rewrite <- in_dict_get.
    - split; [now apply (apply_get t (txn p))|]. destruct U as [U|(todo & q & U1 & U2)]; [auto|]. right. exists i, p, todo, q. auto.
    - split; auto. right. exists i, p, todo, q. auto.
  Qed.
  (** tables are dropped only when a plugin is initialised *)
  Lemma table_lost s1 e s2 t : step s1 e s2 -> In t (map fst (db s1)) -> ~ In t (map fst (db s2)) ->
    exists name version, db s2 = init_table (sql_table_name name version) (db s1).
  Proof.
    intros St H N. destruct St; try (elim N; exact H); [eexists; eexists; reflexivity|].
    exfalso. cbn [db] in N. apply in_dict_get in N. apply apply_get in N. now apply in_dict_get in N.
  Qed.
End Tables.
