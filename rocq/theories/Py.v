(** Foundations shared by all model files: Python strings, exceptions as
    values, integer conversion, slicing.  Nothing in this file is specific to
    ff; every definition names the Python operation it stands for. *)

From Coq Require Import List NArith ZArith Bool Lia ZifyBool.
From Coq Require Ascii String Decimal DecimalN DecimalFacts.
Import ListNotations.
Export String.StringSyntax.

(** A Python [str] is the list of its code points. *)
Definition char := N.
Definition str := list char.

(** String literals. [$"abc"] is the list of the code points of abc. *)
Fixpoint lit (s : String.string) : str :=
  match s with
  | String.EmptyString => []
  | String.String a t => Ascii.N_of_ascii a :: lit t
  end.
Arguments lit s%string_scope.
Notation "$ x" := (lit x) (at level 0, x at level 0, format "$ x").

(** Exceptions that can reach a caller. The constructor names are the Python
    class names (libff/exceptions.py, libff/parser.py:32, libff/argparse.py:31,
    and builtins). [OutOfFuel] is not a Python exception: it marks exhausted
    recursion fuel of a model function and is proved unreachable wherever a
    fuelled function is used.  [Unmodelled] is not one either: it marks a
    regular expression outside of the subset of Re.v. *)
Inductive exc :=
| ParserError | UsageError | ExpressionError | BadAttributeError | PluginErr
| ArgumentErr | ValueError | TypeErr | AttributeErr | KeyErr | IndexErr
| AssertionErr | OverflowErr | ReError | OSErr | SubprocessErr | OperationalErr
| OutOfFuel | Unmodelled.

(** Result of a Python call: a value or a raised exception. *)
Inductive res (A : Type) :=
| Ok (a : A)
| Err (e : exc).
Arguments Ok {A} a.
Arguments Err {A} e.

Definition bindr {A B} (r : res A) (f : A -> res B) : res B :=
  match r with Ok a => f a | Err e => Err e end.
Notation "'do' x <- r ; k" := (bindr r (fun x => k))
  (at level 200, x name, r at level 100, k at level 200).
Notation "'do' ' p <- r ; k" := (bindr r (fun x => match x with p => k end))
  (at level 200, p pattern, r at level 100, k at level 200).

Definition is_ok {A} (r : res A) : bool := match r with Ok _ => true | _ => false end.

(** Left-to-right evaluation of a list, stopping at the first exception. *)
Fixpoint mapr {A B} (f : A -> res B) (l : list A) : res (list B) :=
  match l with
  | [] => Ok []
  | x :: t => do y <- f x; do ys <- mapr f t; Ok (y :: ys)
  end.

(** String equality. *)
Fixpoint leqb {A} (eqb : A -> A -> bool) (a b : list A) : bool :=
  match a, b with
  | [], [] => true
  | x :: a', y :: b' => eqb x y && leqb eqb a' b'
  | _, _ => false
  end.
Definition str_eqb : str -> str -> bool := leqb N.eqb.

Lemma leqb_spec A (eqb : A -> A -> bool)
  (H : forall x y, eqb x y = true <-> x = y) a b :
  leqb eqb a b = true <-> a = b.
Proof.
  revert b; induction a as [|x a IH]; intros [|y b]; cbn; split; try easy.
  - rewrite andb_true_iff, H, IH. now intros [-> ->].
  - intros [= -> ->]. rewrite andb_true_iff. split; [now apply H|now apply IH].
Qed.

Lemma str_eqb_eq a b : str_eqb a b = true <-> a = b.
Proof. apply leqb_spec, N.eqb_eq. Qed.
Lemma str_eqb_refl a : str_eqb a a = true.
Proof. now apply str_eqb_eq. Qed.
Lemma str_eqb_neq a b : str_eqb a b = false <-> a <> b.
Proof.
  rewrite <- str_eqb_eq. destruct (str_eqb a b); split; congruence.
Qed.
Lemma str_eq_dec (a b : str) : {a = b} + {a <> b}.
Proof. apply list_eq_dec, N.eq_dec. Defined.

(** [x in (a, b, ...)] for a tuple or set of strings. *)
Definition str_in (x : str) (l : list str) : bool := existsb (str_eqb x) l.
Lemma str_in_iff x l : str_in x l = true <-> In x l.
Proof.
  unfold str_in. rewrite existsb_exists. split.
  - intros (y & Hy & E). apply str_eqb_eq in E. now subst.
  - intros H. exists x. split; [easy|apply str_eqb_refl].
Qed.

Lemma forallb_impl {A} (p q : A -> bool) l :
  (forall c, p c = true -> q c = true) -> forallb p l = true -> forallb q l = true.
Proof.
  intros H. induction l as [|c l IH]; [easy|]. cbn [forallb]. rewrite !andb_true_iff. intuition.
Qed.

(** Character classification, exact for code points below 256. *)
Definition between (a b c : N) : bool := (a <=? c)%N && (c <=? b)%N.

(** [\s], str.isspace *)
Definition is_space (c : char) : bool :=
  between 9 13 c || between 28 32 c || (c =? 133)%N || (c =? 160)%N.
(** [\d] *)
Definition is_d (c : char) : bool := between 48 57 c.
(** str.isdigit for one character: also the superscripts 2, 3, 1. *)
Definition is_isdigit (c : char) : bool :=
  is_d c || (c =? 178)%N || (c =? 179)%N || (c =? 185)%N.
Definition is_lower_az (c : char) : bool := between 97 122 c.
Definition is_upper_AZ (c : char) : bool := between 65 90 c.
(** [\w] *)
Definition is_w (c : char) : bool :=
  is_d c || is_lower_az c || is_upper_AZ c || (c =? 95)%N
  || (c =? 170)%N || (c =? 178)%N || (c =? 179)%N || (c =? 181)%N
  || (c =? 185)%N || (c =? 186)%N || between 188 190 c
  || between 192 214 c || between 216 246 c || between 248 255 c.

(** str.lower, one character: exact below 256 (all such mappings are +32). *)
Definition lower_c (c : char) : char :=
  if is_upper_AZ c || (between 192 222 c && negb (c =? 215)%N) then (c + 32)%N else c.
Definition lower (s : str) : str := map lower_c s.
(** str.upper, one character: a-z and the letters 224-254 (except 247).  The
    three Latin-1 letters whose upper case lies outside Latin-1 (181, 223,
    255) are left alone; no character above 127 has an upper case spelling
    that is one of the letters A, N, D, O, R, T. *)
Definition upper_c (c : char) : char :=
  if is_lower_az c || (between 224 254 c && negb (c =? 247)%N) then (c - 32)%N else c.
Definition upper (s : str) : str := map upper_c s.

Lemma lower_c_idem c : lower_c (lower_c c) = lower_c c.
Proof.
  unfold lower_c at 2 3.
  destruct (is_upper_AZ c || (between 192 222 c && negb (c =? 215)%N)) eqn:E;
    unfold lower_c.
  - destruct (is_upper_AZ (c+32)%N || (between 192 222 (c+32)%N && negb (c+32 =? 215)%N)) eqn:E';
      [|reflexivity].
    unfold is_upper_AZ, between in *. lia.
  - now rewrite E.
Qed.
Lemma lower_idem s : lower (lower s) = lower s.
Proof. unfold lower. rewrite map_map. apply map_ext, lower_c_idem. Qed.
Lemma lower_app a b : lower (a ++ b) = lower a ++ lower b.
Proof. apply map_app. Qed.

(** str.startswith *)
Fixpoint starts_with (p s : str) : bool :=
  match p, s with
  | [], _ => true
  | x :: p', y :: s' => N.eqb x y && starts_with p' s'
  | _, [] => false
  end.
Lemma starts_with_iff p s : starts_with p s = true <-> exists t, s = p ++ t.
Proof.
  revert s; induction p as [|x p IH]; intros s; cbn.
  - split; eauto.
  - destruct s as [|y s]; [split; [easy|intros [t [=]]]|].
    rewrite andb_true_iff, N.eqb_eq, IH. split.
    + intros (-> & t & ->). now exists t.
    + intros (t & [= -> ->]). split; eauto.
Qed.

(** str.endswith *)
Definition ends_with (p s : str) : bool := starts_with (rev p) (rev s).
Lemma ends_with_iff p s : ends_with p s = true <-> exists t, s = t ++ p.
Proof.
  unfold ends_with. rewrite starts_with_iff. split; intros [t H].
  - exists (rev t). rewrite <- (rev_involutive s), H, rev_app_distr, rev_involutive. reflexivity.
  - exists (rev t). rewrite H, rev_app_distr. reflexivity.
Qed.

(** [p in s] for strings: substring test. *)
Fixpoint is_sub (p s : str) : bool :=
  starts_with p s || match s with [] => false | _ :: s' => is_sub p s' end.
Lemma is_sub_iff p s : is_sub p s = true <-> exists a b, s = a ++ p ++ b.
Proof.
  induction s as [|c s IH]; cbn [is_sub]; rewrite orb_true_iff, starts_with_iff.
  - split.
    + intros [[t E]|H]; [|easy]. exists [], t. exact E.
    + intros (a & b & E). left. symmetry in E. apply app_eq_nil in E as [-> E]. eauto.
  - rewrite IH. split.
    + intros [[t E]|(a & b & ->)].
      * exists [], t. exact E.
      * now exists (c :: a), b.
    + intros ([|x a] & b & E); [left; eauto|].
      cbn in E. injection E as -> ->. right; eauto.
Qed.

(** [c in s] for a single character. *)
Definition has_char (c : char) (s : str) : bool := existsb (N.eqb c) s.
Lemma has_char_iff c s : has_char c s = true <-> In c s.
Proof.
  unfold has_char. rewrite existsb_exists. split.
  - intros (y & Hy & E). apply N.eqb_eq in E. now subst.
  - intros H. exists c. split; [easy|apply N.eqb_refl].
Qed.
Lemma has_char_false c s : has_char c s = false <-> ~ In c s.
Proof. rewrite <- has_char_iff. destruct (has_char c s); split; congruence. Qed.

(** str.split(c) for a one-character separator; never empty. *)
Fixpoint split_on (c : char) (s : str) : list str :=
  match s with
  | [] => [[]]
  | x :: t =>
      if N.eqb x c then [] :: split_on c t
      else match split_on c t with
           | [] => [[x]]
           | h :: r => (x :: h) :: r
           end
  end.
(** sep.join(parts) *)
Fixpoint join_with (sep : str) (l : list str) : str :=
  match l with
  | [] => []
  | [x] => x
  | x :: t => x ++ sep ++ join_with sep t
  end.

Lemma split_on_nonnil c s : split_on c s <> [].
Proof. destruct s; cbn; [easy|]. destruct (N.eqb _ _); [easy|]. now destruct (split_on c s). Qed.

Lemma join_split c s : join_with [c] (split_on c s) = s.
Proof.
  induction s as [|x t IH]; cbn [split_on]; [reflexivity|].
  pose proof (split_on_nonnil c t) as Hn.
  destruct (N.eqb_spec x c) as [->|].
  - cbn [join_with]. destruct (split_on c t) eqn:E; [easy|]. rewrite IH. reflexivity.
  - destruct (split_on c t) as [|h [|h' r]] eqn:E; [easy| |]; cbn in *; now rewrite IH.
Qed.

Lemma split_on_nosep c s : ~ In c s -> split_on c s = [s].
Proof.
  induction s as [|x t IH]; cbn; [easy|]. intros H.
  destruct (N.eqb_spec x c); [subst; tauto|].
  rewrite IH; tauto.
Qed.

Lemma split_on_app c a b : ~ In c a -> split_on c (a ++ c :: b) = a :: split_on c b.
Proof.
  induction a as [|x t IH]; cbn; intros H.
  - now rewrite N.eqb_refl.
  - destruct (N.eqb_spec x c); [subst; tauto|]. rewrite IH; tauto.
Qed.

Lemma split_on_parts c s x : In x (split_on c s) -> ~ In c x.
Proof.
  revert x; induction s as [|y t IH]; cbn; intros x.
  - intros [<-|[]] [].
  - destruct (N.eqb_spec y c) as [->|Hne].
    + intros [<-|H]; [intros []|now apply IH].
    + destruct (split_on c t) as [|h r]; cbn in *.
      * intros [<-|[]]. intros [?|[]]. congruence.
      * intros [<-|H].
        -- intros [?|Hc]; [congruence|]. eapply IH; eauto.
        -- apply IH. auto.
Qed.

Lemma split_join c l : l <> [] -> (forall x, In x l -> ~ In c x) ->
  split_on c (join_with [c] l) = l.
Proof.
  induction l as [|x [|y t] IH]; intros Hn H; [easy| |].
  - cbn. apply split_on_nosep, H. now left.
  - cbn [join_with app]. rewrite split_on_app by (apply H; now left).
    f_equal. apply IH; [easy|]. intros z Hz. apply H. now right.
Qed.

(** str.lstrip / rstrip / strip with a character predicate. *)
Fixpoint lstrip_p (p : char -> bool) (s : str) : str :=
  match s with
  | [] => []
  | x :: t => if p x then lstrip_p p t else s
  end.
Definition rstrip_p (p : char -> bool) (s : str) : str := rev (lstrip_p p (rev s)).
Definition strip_p (p : char -> bool) (s : str) : str := rstrip_p p (lstrip_p p s).
(** str.strip() *)
Definition strip : str -> str := strip_p is_space.

Lemma lstrip_p_id p s : match s with [] => True | c :: _ => p c = false end -> lstrip_p p s = s.
Proof. destruct s; cbn; [easy|]. now intros ->. Qed.
Lemma rstrip_p_id p s : match rev s with [] => True | c :: _ => p c = false end -> rstrip_p p s = s.
Proof. intros H. unfold rstrip_p. rewrite lstrip_p_id by exact H. apply rev_involutive. Qed.

(** Decimal digits. *)
Definition dig (c : char) : N := (c - 48)%N.
(** Value of a string of decimal digits. *)
Definition digits_val (s : str) : N := fold_left (fun a c => a * 10 + dig c)%N s 0%N.

(** int(s, 10): surrounding white space, an optional sign, decimal digits with
    single underscores between them.  [None] is ValueError.  Decimal digits
    outside of ASCII are not modelled (rejected). *)
Fixpoint int_digits (s : str) : option str :=
  match s with
  | [] => None
  | c :: t =>
      if is_d c then
        match t with
        | [] => Some [c]
        | u :: t' =>
            if (u =? 95)%N then option_map (cons c) (int_digits t')
            else option_map (cons c) (int_digits t)
        end
      else None
  end.
Definition py_int (s : str) : option Z :=
  let t := strip s in
  match t with
  | [] => None
  | c :: r =>
      if (c =? 43)%N then option_map (fun d => Z.of_N (digits_val d)) (int_digits r)
      else if (c =? 45)%N then option_map (fun d => (- Z.of_N (digits_val d))%Z) (int_digits r)
      else option_map (fun d => Z.of_N (digits_val d)) (int_digits t)
  end.

Lemma int_digits_all s : s <> [] -> forallb is_d s = true -> int_digits s = Some s.
Proof.
  induction s as [|c t IH]; [easy|]. intros _. cbn [forallb]. rewrite andb_true_iff.
  intros [Hc Ht]. cbn [int_digits]. rewrite Hc.
  destruct t as [|u t']; [reflexivity|].
  destruct (N.eqb_spec u 95) as [->|_].
  - cbn in Ht. discriminate.
  - rewrite IH; [reflexivity|easy|exact Ht].
Qed.

Lemma is_d_not_space c : is_d c = true -> is_space c = false.
Proof.
  unfold is_d, is_space, between. rewrite andb_true_iff, !N.leb_le. intros [H1 H2].
  repeat match goal with
  | |- context [(?a <=? ?b)%N] => destruct (N.leb_spec a b); cbn; try lia
  | |- context [(?a =? ?b)%N] => destruct (N.eqb_spec a b); cbn; try lia
  end; reflexivity.
Qed.

Lemma strip_digits s : forallb is_d s = true -> strip s = s.
Proof.
  intros H. unfold strip, strip_p.
  rewrite forallb_forall in H.
  rewrite lstrip_p_id.
  - apply rstrip_p_id. destruct (rev s) as [|c r] eqn:E; [easy|].
    apply is_d_not_space, H. rewrite in_rev, E. now left.
  - destruct s as [|c r]; [easy|]. apply is_d_not_space, H. now left.
Qed.

Lemma is_d_neq c k : is_d c = true -> is_d k = false -> (c =? k)%N = false.
Proof. intros H K. apply N.eqb_neq. intros ->. congruence. Qed.

Lemma py_int_digits s : s <> [] -> forallb is_d s = true ->
  py_int s = Some (Z.of_N (digits_val s)).
Proof.
  intros Hn H. unfold py_int. rewrite strip_digits by exact H.
  destruct s as [|c t]; [easy|]. cbv zeta.
  rewrite (int_digits_all (c :: t)) by assumption.
  cbn in H. apply andb_true_iff in H as [Hc _].
  rewrite !is_d_neq by (exact Hc || reflexivity). reflexivity.
Qed.

(** Decimal representation of integers: str(n). *)
Fixpoint uint_str (u : Decimal.uint) : str :=
  match u with
  | Decimal.Nil => []
  | Decimal.D0 u => 48%N :: uint_str u
  | Decimal.D1 u => 49%N :: uint_str u
  | Decimal.D2 u => 50%N :: uint_str u
  | Decimal.D3 u => 51%N :: uint_str u
  | Decimal.D4 u => 52%N :: uint_str u
  | Decimal.D5 u => 53%N :: uint_str u
  | Decimal.D6 u => 54%N :: uint_str u
  | Decimal.D7 u => 55%N :: uint_str u
  | Decimal.D8 u => 56%N :: uint_str u
  | Decimal.D9 u => 57%N :: uint_str u
  end.
Definition str_of_N (n : N) : str := uint_str (N.to_uint n).
Definition str_of_Z (z : Z) : str :=
  match z with
  | Z0 => [48%N]
  | Zpos p => str_of_N (Npos p)
  | Zneg p => 45%N :: str_of_N (Npos p)
  end.

Lemma uint_str_digits u : forallb is_d (uint_str u) = true.
Proof. induction u; cbn; auto. Qed.

Lemma uint_str_nonnil n : str_of_N n <> [].
Proof.
  unfold str_of_N. intros E.
  assert (H : N.to_uint n = Decimal.Nil) by (destruct (N.to_uint n); cbn in E; congruence).
  pose proof (DecimalN.Unsigned.of_to n) as H1. rewrite H in H1. cbn in H1. subst n.
  cbn in H. discriminate.
Qed.

Lemma str_of_N_digits n : forallb is_d (str_of_N n) = true.
Proof. apply uint_str_digits. Qed.

Lemma uint_acc_val u p :
  fold_left (fun a c => a * 10 + dig c)%N (uint_str u) (Npos p) = Npos (Pos.of_uint_acc u p).
Proof.
  revert p; induction u; intros p; cbn [uint_str fold_left Pos.of_uint_acc]; [reflexivity|..];
  match goal with |- fold_left _ _ ?x = Npos (Pos.of_uint_acc _ ?q) =>
    replace x with (Npos q) by (unfold dig; lia) end; apply IHu.
Qed.

Lemma uint_val u : digits_val (uint_str u) = N.of_uint u.
Proof.
  unfold digits_val, N.of_uint.
  induction u; cbn [uint_str fold_left Pos.of_uint]; try reflexivity;
  try (match goal with |- fold_left _ _ ?x = _ => replace x with 0%N by reflexivity end; exact IHu);
  match goal with |- fold_left _ _ ?x = Npos (Pos.of_uint_acc _ ?q) =>
    replace x with (Npos q) by reflexivity end; apply uint_acc_val.
Qed.

Lemma digits_val_str_of_N n : digits_val (str_of_N n) = n.
Proof. unfold str_of_N. rewrite uint_val. apply DecimalN.Unsigned.of_to. Qed.

Lemma str_of_N_inj n m : str_of_N n = str_of_N m -> n = m.
Proof. intros H. rewrite <- (digits_val_str_of_N n), H. apply digits_val_str_of_N. Qed.

Lemma digits_fold b x :
  fold_left (fun a c => a * 10 + dig c)%N b x
  = (x * 10 ^ N.of_nat (length b) + digits_val b)%N.
Proof.
  unfold digits_val. revert x. induction b as [|c b IH]; intros x.
  - cbn. lia.
  - cbn [fold_left length]. rewrite IH, (IH (0 * 10 + dig c)%N).
    rewrite Nat2N.inj_succ, N.pow_succ_r'. lia.
Qed.
Lemma digits_val_app a b :
  digits_val (a ++ b) = (digits_val a * 10 ^ N.of_nat (length b) + digits_val b)%N.
Proof. unfold digits_val at 1. rewrite fold_left_app. apply digits_fold. Qed.

Lemma str_of_Z_nonneg z : (0 <= z)%Z -> str_of_Z z = str_of_N (Z.to_N z).
Proof. destruct z; intros H; [reflexivity|reflexivity|lia]. Qed.

Lemma py_int_str_of_Z z : py_int (str_of_Z z) = Some z.
Proof.
  assert (P : forall n, py_int (str_of_N n) = Some (Z.of_N n)).
  { intros n. rewrite py_int_digits; [|apply uint_str_nonnil|apply str_of_N_digits].
    now rewrite digits_val_str_of_N. }
  destruct z as [|p|p]; [reflexivity|apply P|].
  cbn [str_of_Z]. set (d := str_of_N (Npos p)).
  assert (Hd : forallb is_d d = true) by apply str_of_N_digits.
  assert (Hn : d <> []) by apply uint_str_nonnil.
  unfold py_int.
  replace (strip (45%N :: d)) with (45%N :: d).
  2:{ unfold strip, strip_p. rewrite lstrip_p_id by reflexivity.
      symmetry. apply rstrip_p_id. cbn [rev].
      destruct (rev d) as [|c r] eqn:E; [reflexivity|]. cbn.
      apply is_d_not_space. rewrite forallb_forall in Hd. apply Hd.
      rewrite in_rev, E. now left. }
  cbv zeta. change (45 =? 43)%N with false. change (45 =? 45)%N with true. cbv iota.
  rewrite int_digits_all by assumption. unfold option_map.
  unfold d. rewrite digits_val_str_of_N. reflexivity.
Qed.

(** Python slicing l[start:stop] with step 1; [None] is an omitted bound. *)
Definition slice_bound (len : Z) (i : Z) : Z :=
  if (i <? 0)%Z then Z.max 0 (i + len) else Z.min i len.
Definition slice {A} (l : list A) (start stop : option Z) : list A :=
  let len := Z.of_nat (length l) in
  let a := match start with None => 0%Z | Some i => slice_bound len i end in
  let b := match stop with None => len | Some i => slice_bound len i end in
  firstn (Z.to_nat (b - a)) (skipn (Z.to_nat a) l).

(** Newline, slash and dot. *)
Definition NL : char := 10%N.
Definition SLASH : char := 47%N.
Definition DOT : char := 46%N.
