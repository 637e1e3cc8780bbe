(** Model of Python's [re] module for the subset of the syntax that ff uses:
    a compiler from pattern strings and a backtracking matcher.  The regular
    expressions of ff are transcribed as pattern strings, character by
    character, and go through this compiler.  Nothing here is specific to ff;
    the reference is CPython's Lib/re/_parser.py and the documentation of the
    module. *)
From Coq Require Import List NArith ZArith Bool Lia.
From Verif Require Import Py.
Import ListNotations.

(** Elements of a character set. *)
Inductive citem :=
| CChar (c : char)
| CRange (a b : char)
| CDigit (neg : bool)   (* \d, \D *)
| CSpace (neg : bool)   (* \s, \S *)
| CWord (neg : bool).   (* \w, \W *)

(** A one-character pattern: a set, possibly negated, possibly with
    re.IGNORECASE. *)
Record cls := Cls { c_icase : bool; c_neg : bool; c_items : list citem }.

Definition item_mem (i : citem) (c : char) : bool :=
  match i with
  | CChar x => N.eqb x c
  | CRange a b => between a b c
  | CDigit n => xorb n (is_d c)
  | CSpace n => xorb n (is_space c)
  | CWord n => xorb n (is_w c)
  end.
Definition items_mem (l : list citem) (c : char) : bool := existsb (fun i => item_mem i c) l.
Definition mem (p : cls) (c : char) : bool :=
  xorb (c_neg p)
    (items_mem (c_items p) c ||
     (c_icase p && (items_mem (c_items p) (lower_c c) || items_mem (c_items p) (upper_c c)))).

Lemma mem_pos l c : mem (Cls false false l) c = items_mem l c.
Proof. unfold mem. cbn [c_neg c_icase c_items andb]. now rewrite orb_false_r; destruct (items_mem l c). Qed.
Lemma mem_neg l c : mem (Cls false true l) c = negb (items_mem l c).
Proof. unfold mem. cbn [c_neg c_icase c_items andb]. now rewrite orb_false_r; destruct (items_mem l c). Qed.

(** Patterns.  Repetition is only supported on one-character patterns, which is
    all ff needs; [Opt] is the question mark on any pattern.  The booleans say
    "greedy". *)
Inductive re :=
| Eps
| Chr (p : cls)
| Cat (a b : re)
| Alt (a b : re)
| Star (greedy : bool) (p : cls)
| Opt (greedy : bool) (a : re)
| Grp (n : nat) (a : re)
| Bol
| Eol.

(** Text captured by the groups, latest first. *)
Definition caps := list (nat * str).
Fixpoint group (n : nat) (cs : caps) : option str :=
  match cs with
  | [] => None
  | (i, s) :: t => if Nat.eqb i n then Some s else group n t
  end.

(** Greedy and lazy repetition with continuation [k]. *)
Fixpoint star_g {R} (p : char -> bool) (s : str) (k : str -> option R) : option R :=
  match s with
  | c :: t =>
      if p c then match star_g p t k with Some x => Some x | None => k s end
      else k s
  | [] => k s
  end.
Fixpoint star_l {R} (p : char -> bool) (s : str) (k : str -> option R) : option R :=
  match k s with
  | Some x => Some x
  | None => match s with c :: t => if p c then star_l p t k else None | [] => None end
  end.

Definition orelse {R} (a b : option R) : option R := match a with Some _ => a | None => b end.

(** [$] without re.MULTILINE: at the end or before a newline at the end. *)
Definition at_end (s : str) : bool :=
  match s with [] => true | [c] => N.eqb c NL | _ => false end.

(** The backtracking matcher: [s] is the rest of the subject, [n0] the length
    of the whole subject, [k] the continuation. *)
Section Match.
  Variable n0 : nat.
  Fixpoint m {R} (r : re) (s : str) (cs : caps) (k : str -> caps -> option R) : option R :=
    match r with
    | Eps => k s cs
    | Chr p => match s with c :: t => if mem p c then k t cs else None | [] => None end
    | Cat a b => m a s cs (fun s' cs' => m b s' cs' k)
    | Alt a b => orelse (m a s cs k) (m b s cs k)
    | Star true p => star_g (mem p) s (fun s' => k s' cs)
    | Star false p => star_l (mem p) s (fun s' => k s' cs)
    | Opt true a => orelse (m a s cs k) (k s cs)
    | Opt false a => orelse (k s cs) (m a s cs k)
    | Grp n a => m a s cs (fun s' cs' => k s' ((n, firstn (length s - length s') s) :: cs'))
    | Bol => if Nat.eqb (length s) n0 then k s cs else None
    | Eol => if at_end s then k s cs else None
    end.
End Match.

(** regex.match(s): rest of the subject and captures. *)
Definition re_match (r : re) (s : str) : option (str * caps) :=
  m (length s) r s [] (fun s' cs => Some (s', cs)).
Definition re_matches (r : re) (s : str) : bool :=
  match re_match r s with Some _ => true | None => false end.

(** The successive non-overlapping matches found by finditer and split, each
    as (text skipped before it, text matched, captures), and the text after
    the last one.  None of the patterns used with these functions matches the
    empty string; an empty match is treated like none.  [fuel] is the length
    of the subject. *)
Fixpoint scan_from (n0 : nat) (fuel : nat) (r : re) (skipped : str) (s : str)
  : list (str * str * caps) * str :=
  match fuel with
  | O => ([], rev skipped ++ s)
  | S fuel =>
      match s with
      | [] => ([], rev skipped)
      | c :: t =>
          match m n0 r s [] (fun s' cs => Some (s', cs)) with
          | Some (s', cs) =>
              if Nat.ltb (length s') (length s) then
                let '(l, tail) := scan_from n0 fuel r [] s' in
                ((rev skipped, firstn (length s - length s') s, cs) :: l, tail)
              else scan_from n0 fuel r (c :: skipped) t
          | None => scan_from n0 fuel r (c :: skipped) t
          end
      end
  end.
Definition scan (r : re) (s : str) := scan_from (length s) (length s) r [] s.

(** regex.split(s) for a pattern that is one group as a whole. *)
Fixpoint split_list (l : list (str * str * caps)) (tail : str) : list str :=
  match l with
  | [] => [tail]
  | (skip, text, _) :: l => skip :: text :: split_list l tail
  end.
Definition re_split (r : re) (s : str) : list str :=
  let '(l, tail) := scan r s in split_list l tail.

(** * Compiler *)

(** Result of re.compile: a pattern, re.error, or a construct outside of the
    modelled subset. *)
Inductive cres (A : Type) := COk (a : A) | CErr | CUnmodelled.
Arguments COk {A} a.
Arguments CErr {A}.
Arguments CUnmodelled {A}.
Definition cbind {A B} (x : cres A) (f : A -> cres B) : cres B :=
  match x with COk a => f a | CErr => CErr | CUnmodelled => CUnmodelled end.

Definition is_alnum (c : char) : bool := is_d c || is_lower_az c || is_upper_AZ c.

(** A backslash followed by [c]: a category, or the character itself if it is
    not an ASCII letter or digit; other letters and digits are not modelled. *)
Definition escape_item (c : char) : cres citem :=
  if N.eqb c 100 then COk (CDigit false)
  else if N.eqb c 68 then COk (CDigit true)
  else if N.eqb c 115 then COk (CSpace false)
  else if N.eqb c 83 then COk (CSpace true)
  else if N.eqb c 119 then COk (CWord false)
  else if N.eqb c 87 then COk (CWord true)
  else if is_alnum c then CUnmodelled
  else COk (CChar c).

(** One character of a set and the rest; a backslash starts an escape. *)
Definition set_char (s : str) : cres (citem * str) :=
  match s with
  | [] => CErr
  | c :: t =>
      if N.eqb c 92 then
        match t with
        | [] => CErr
        | d :: t' => cbind (escape_item d) (fun i => COk (i, t'))
        end
      else COk (CChar c, t)
  end.

(** The elements of a set up to the closing bracket; [first] is true at the
    first element, where a closing bracket is a literal.  A range needs plain
    characters at both ends in ascending order. *)
Fixpoint set_items (fuel : nat) (first : bool) (acc : list citem) (s : str) : cres (list citem * str) :=
  match fuel with
  | O => CErr
  | S fuel =>
      match s with
      | [] => CErr
      | c :: t =>
          if N.eqb c 93 && negb first then COk (rev acc, t)
          else cbind (set_char s) (fun '(i, t1) =>
            match t1 with
            | [] => CErr
            | d :: t2 =>
                if N.eqb d 45 then
                  match t2 with
                  | [] => CErr
                  | e :: t3 =>
                      if N.eqb e 93 then COk (rev (CChar 45%N :: i :: acc), t3)
                      else cbind (set_char t2) (fun '(j, t4) =>
                        match i, j with
                        | CChar a, CChar b =>
                            if (a <=? b)%N then set_items fuel false (CRange a b :: acc) t4
                            else CErr
                        | _, _ => CErr
                        end)
                  end
                else set_items fuel false (i :: acc) t1
            end)
      end
  end.

(** The set after its opening bracket. *)
Definition parse_set (ic : bool) (s : str) : cres (cls * str) :=
  let '(neg, s) := match s with
                   | c :: t => if N.eqb c 94 then (true, t) else (false, s)
                   | [] => (false, s)
                   end in
  cbind (set_items (S (length s)) true [] s) (fun '(l, t) => COk (Cls ic neg l, t)).

(** A repetition operator at the head of the rest of the pattern. *)
Inductive quant := QNone | QStar (g : bool) | QPlus (g : bool) | QOpt (g : bool).
Definition parse_quant (s : str) : cres (quant * str) :=
  match s with
  | [] => COk (QNone, s)
  | c :: t =>
      let q := if N.eqb c 42 then Some QStar else if N.eqb c 43 then Some QPlus
               else if N.eqb c 63 then Some QOpt else None in
      match q with
      | None =>
          if N.eqb c 123 then
            match t with
            | d :: _ => if is_d d || N.eqb d 44 then CUnmodelled else COk (QNone, s)
            | [] => COk (QNone, s)
            end
          else COk (QNone, s)
      | Some q =>
          match t with
          | [] => COk (q true, t)
          | d :: t' =>
              if N.eqb d 63 then
                match t' with
                | e :: _ =>
                    if N.eqb e 42 || N.eqb e 43 || N.eqb e 63 || N.eqb e 123 then CUnmodelled
                    else COk (q false, t')
                | [] => COk (q false, t')
                end
              else if N.eqb d 42 then CErr
              else if N.eqb d 43 || N.eqb d 123 then CUnmodelled
              else COk (q true, t)
          end
      end
  end.
Definition apply_quant (q : quant) (r : re) : cres re :=
  match q, r with
  | QNone, _ => COk r
  | QStar g, Chr p => COk (Star g p)
  | QPlus g, Chr p => COk (Cat (Chr p) (Star g p))
  | QOpt g, _ => COk (Opt g r)
  | _, _ => CUnmodelled
  end.

Definition alt_opt (a : option re) (b : re) : re := match a with Some a => Alt a b | None => b end.

(** What follows a one-character pattern or group [r] in the text [t]. *)
Definition quantified (r : re) (t : str) : cres (re * str) :=
  cbind (parse_quant t) (fun '(q, t') => cbind (apply_quant q r) (fun r' => COk (r', t'))).

(** Drop the name of a group: everything up to and including the first [>]. *)
Fixpoint skip_name (s : str) : option str :=
  match s with
  | [] => None
  | c :: t => if N.eqb c 62 then Some t else skip_name t
  end.

Definition dot_cls : cls := Cls false true [CChar NL].
Definition char_cls (ic : bool) (c : char) : cls := Cls ic false [CChar c].

(** The body of a pattern up to the end or to an unmatched closing
    parenthesis.  [n] is the number of groups opened so far, [alts] the
    alternatives already complete, [cur] the current one. *)
Fixpoint pa (ic : bool) (fuel : nat) (s : str) (n : nat) (alts : option re) (cur : re)
  : cres (re * str * nat) :=
  match fuel with
  | O => CUnmodelled
  | S fuel =>
      let single (r : re) (t : str) :=
        cbind (quantified r t) (fun '(r', t') => pa ic fuel t' n alts (Cat cur r')) in
      match s with
      | [] => COk (alt_opt alts cur, [], n)
      | c :: t =>
          if N.eqb c 41 then COk (alt_opt alts cur, s, n)
          else if N.eqb c 124 then pa ic fuel t n (Some (alt_opt alts cur)) Eps
          else if N.eqb c 40 then
            let sub (wrap : re -> re) (n' : nat) (t : str) :=
              cbind (pa ic fuel t n' None Eps) (fun '(r, t', n'') =>
                match t' with
                | [] => CErr
                | _ :: t'' =>
                    cbind (quantified (wrap r) t'') (fun '(r', t3) =>
                      pa ic fuel t3 n'' alts (Cat cur r'))
                end) in
            match t with
            | q :: t1 =>
                if N.eqb q 63 then
                  match t1 with
                  | a :: t2 =>
                      if N.eqb a 58 then sub (fun r => r) n t2
                      else if N.eqb a 80 then
                        match t2 with
                        | b :: t3 =>
                            if N.eqb b 60 then
                              match skip_name t3 with
                              | Some t4 => sub (Grp (S n)) (S n) t4
                              | None => CErr
                              end
                            else CUnmodelled
                        | [] => CErr
                        end
                      else CUnmodelled
                  | [] => CErr
                  end
                else sub (Grp (S n)) (S n) t
            | [] => CErr
            end
          else if N.eqb c 91 then
            cbind (parse_set ic t) (fun '(p, t') => single (Chr p) t')
          else if N.eqb c 46 then single (Chr dot_cls) t
          else if N.eqb c 92 then
            match t with
            | [] => CErr
            | d :: t' => cbind (escape_item d) (fun i => single (Chr (Cls ic false [i])) t')
            end
          else if N.eqb c 94 then pa ic fuel t n alts (Cat cur Bol)
          else if N.eqb c 36 then pa ic fuel t n alts (Cat cur Eol)
          else if N.eqb c 42 || N.eqb c 43 || N.eqb c 63 then CErr
          else if N.eqb c 123 && match t with d :: _ => is_d d || N.eqb d 44 | [] => false end
          then CUnmodelled
          else single (Chr (char_cls ic c)) t
      end
  end.

(** re.compile(s) (with re.IGNORECASE if [ic]). *)
Definition compile (ic : bool) (s : str) : cres re :=
  cbind (pa ic (S (length s)) s 0 None Eps) (fun '(r, t, _) =>
    match t with [] => COk r | _ => CErr end).

(** * Facts about the matcher *)

Lemma orelse_some {R} (a b : option R) x : orelse a b = Some x ->
  a = Some x \/ (a = None /\ b = Some x).
Proof. destruct a; cbn; auto. Qed.
Lemma orelse_none {R} (a b : option R) : orelse a b = None <-> a = None /\ b = None.
Proof. destruct a; cbn; split; [discriminate|intros [? _]; discriminate|auto|now intros [_ ?]]. Qed.

(** Greedy repetition: success at the longest possible extension. *)
Lemma star_g_some {R} p s (k : str -> option R) x : star_g p s k = Some x ->
  exists a b, s = a ++ b /\ forallb p a = true /\ k b = Some x /\
    forall a' b', s = a' ++ b' -> forallb p a' = true -> length a < length a' -> k b' = None.
Proof.
  induction s as [|c t IH]; cbn [star_g].
  - intros H. exists [], []. repeat split; auto. intros [|? ?] ? E; [cbn; lia|discriminate].
  - destruct (p c) eqn:Ec.
    + destruct (star_g p t k) eqn:E.
      * intros [= <-]. destruct (IH eq_refl) as (a & b & -> & Ha & Hk & Hm).
        exists (c :: a), b. cbn. rewrite Ec. repeat split; auto.
        intros [|c' a'] b' E' H' L; [cbn in L; lia|]. injection E' as -> E'.
        cbn in H'. apply andb_true_iff in H' as [_ H']. eapply Hm; eauto. cbn in L. lia.
      * intros H. exists [], (c :: t). repeat split; auto.
        assert (G : forall s', star_g p s' k = None -> forall a' b', s' = a' ++ b' -> forallb p a' = true -> k b' = None).
        { clear. induction s' as [|c t IH]; cbn [star_g]; intros H a' b' E F.
          - destruct a'; [cbn in E; now subst|discriminate].
          - destruct a' as [|c' a'].
            + cbn in E. subst b'. destruct (p c); [|exact H].
              destruct (star_g p t k); [discriminate|exact H].
            + cbn in E. injection E as -> E. cbn in F. apply andb_true_iff in F as [F1 F2].
              rewrite F1 in H. destruct (star_g p t k) eqn:G; [discriminate|]. eapply IH; eauto. }
        intros [|c' a'] b' E' H' L; [cbn in L; lia|]. injection E' as -> E'.
        cbn in H'. apply andb_true_iff in H' as [_ H']. eapply G; eauto.
    + intros H. exists [], (c :: t). repeat split; auto.
      intros [|c' a'] b' E' H' L; [cbn in L; lia|]. injection E' as -> E'.
      cbn in H'. rewrite Ec in H'. discriminate.
Qed.
Lemma star_g_none {R} p s (k : str -> option R) : star_g p s k = None <->
  forall a b, s = a ++ b -> forallb p a = true -> k b = None.
Proof.
  split.
  - revert s. induction s as [|c t IH]; cbn [star_g]; intros H a' b' E F.
    + destruct a'; [cbn in E; now subst|discriminate].
    + destruct a' as [|c' a'].
      * cbn in E. subst b'. destruct (p c); [|exact H].
        destruct (star_g p t k); [discriminate|exact H].
      * cbn in E. injection E as -> E. cbn in F. apply andb_true_iff in F as [F1 F2].
        rewrite F1 in H. destruct (star_g p t k) eqn:G; [discriminate|]. eapply IH; eauto.
  - intros H. destruct (star_g p s k) eqn:E; [|reflexivity].
    apply star_g_some in E as (a & b & Es & Ha & Hk & _). rewrite (H a b) in Hk by assumption. discriminate.
Qed.
(** Immediate success after the maximal run. *)
Definition stops (p : char -> bool) (s : str) : Prop :=
  match s with [] => True | c :: _ => p c = false end.
Lemma star_g_run {R} p a b (k : str -> option R) x :
  forallb p a = true -> stops p b -> k b = Some x -> star_g p (a ++ b) k = Some x.
Proof.
  intros Ha Hb Hk. induction a as [|c a IH]; cbn [app].
  - destruct b as [|c b]; cbn [star_g]; [exact Hk|]. cbn in Hb. now rewrite Hb.
  - cbn in Ha. apply andb_true_iff in Ha as [Hc Ha]. cbn [star_g]. now rewrite Hc, IH.
Qed.
(** Success after giving back [b]. *)
Lemma star_g_back {R} p a b (k : str -> option R) x :
  forallb p a = true -> k b = Some x ->
  (forall a' b', b = a' ++ b' -> a' <> [] -> forallb p a' = true -> k b' = None) ->
  star_g p (a ++ b) k = Some x.
Proof.
  intros Ha Hk Hn. induction a as [|c a IH]; cbn [app].
  - destruct b as [|c b]; cbn [star_g]; [exact Hk|]. destruct (p c) eqn:Ec; [|exact Hk].
    assert (E : star_g p b k = None).
    { apply star_g_none. intros a' b' -> F. apply (Hn (c :: a')); [reflexivity|easy|].
      cbn. now rewrite Ec. }
    now rewrite E.
  - cbn in Ha. apply andb_true_iff in Ha as [Hc Ha]. cbn [star_g]. now rewrite Hc, IH.
Qed.

Lemma star_l_some {R} p s (k : str -> option R) x : star_l p s k = Some x ->
  exists a b, s = a ++ b /\ forallb p a = true /\ k b = Some x /\
    forall a' b', s = a' ++ b' -> length a' < length a -> k b' = None.
Proof.
  induction s as [|c t IH]; cbn [star_l].
  - destruct (k []) eqn:E; [|discriminate]. intros [= <-]. exists [], [].
    repeat split; auto. cbn. intros; lia.
  - destruct (k (c :: t)) eqn:E.
    + intros [= <-]. exists [], (c :: t). repeat split; auto. cbn. intros; lia.
    + destruct (p c) eqn:Ec; [|discriminate]. intros H.
      destruct (IH H) as (a & b & -> & Ha & Hk & Hm). exists (c :: a), b. cbn. rewrite Ec.
      repeat split; auto. intros [|c' a'] b' E' L.
      * cbn in E'. now subst.
      * injection E' as -> E'. eapply Hm; eauto. cbn in L. lia.
Qed.
Lemma star_l_none {R} p s (k : str -> option R) : star_l p s k = None <->
  forall a b, s = a ++ b -> forallb p a = true -> k b = None.
Proof.
  split.
  - revert s. induction s as [|c t IH]; cbn [star_l]; intros H a' b' E F.
    + destruct a'; [cbn in E; subst; now destruct (k [])|discriminate].
    + destruct (k (c :: t)) eqn:K; [discriminate|]. destruct a' as [|c' a'].
      * cbn in E. now subst.
      * cbn in E. injection E as -> E. cbn in F. apply andb_true_iff in F as [F1 F2].
        rewrite F1 in H. eapply IH; eauto.
  - intros H. destruct (star_l p s k) eqn:E; [|reflexivity].
    apply star_l_some in E as (a & b & Es & Ha & Hk & _). rewrite (H a b) in Hk by assumption. discriminate.
Qed.
(** Success after exactly [a] if every shorter attempt fails. *)
Lemma star_l_run {R} p a b (k : str -> option R) x :
  forallb p a = true -> k b = Some x ->
  (forall a1 a2, a = a1 ++ a2 -> a2 <> [] -> k (a2 ++ b) = None) ->
  star_l p (a ++ b) k = Some x.
Proof.
  intros Ha Hk Hn. induction a as [|c a IH]; cbn [app].
  - destruct b; cbn [star_l]; now rewrite Hk.
  - cbn in Ha. apply andb_true_iff in Ha as [Hc Ha]. cbn [star_l].
    assert (E := Hn [] (c :: a) eq_refl ltac:(easy)). cbn [app] in E. rewrite E, Hc. apply IH; [exact Ha|].
    intros a1 a2 -> H. now apply (Hn (c :: a1)).
Qed.

(** The language of a pattern: [D n0 r s s'] if the pattern can match a prefix
    of [s] leaving [s']. *)
Fixpoint D (n0 : nat) (r : re) (s s' : str) : Prop :=
  match r with
  | Eps => s' = s
  | Chr p => exists c, s = c :: s' /\ mem p c = true
  | Cat a b => exists t, D n0 a s t /\ D n0 b t s'
  | Alt a b => D n0 a s s' \/ D n0 b s s'
  | Star _ p => exists a, s = a ++ s' /\ forallb (mem p) a = true
  | Opt _ a => D n0 a s s' \/ s' = s
  | Grp _ a => D n0 a s s'
  | Bol => s' = s /\ length s = n0
  | Eol => s' = s /\ at_end s = true
  end.

Lemma m_sound {R} n0 r s cs (k : str -> caps -> option R) x : m n0 r s cs k = Some x ->
  exists s' cs', D n0 r s s' /\ k s' cs' = Some x.
Proof.
  revert s cs k x; induction r; intros s cs k x; cbn [m D].
  - eauto.
  - destruct s as [|c t]; [discriminate|]. destruct (mem p c) eqn:E; [|discriminate]. eauto 6.
  - intros H. apply IHr1 in H as (s1 & cs1 & D1 & H). apply IHr2 in H as (s2 & cs2 & D2 & H). eauto 8.
  - intros H. apply orelse_some in H as [H|[_ H]];
      [apply IHr1 in H as (s1 & cs1 & D1 & H)|apply IHr2 in H as (s1 & cs1 & D1 & H)]; eauto 6.
  - destruct greedy; intros H; [apply star_g_some in H|apply star_l_some in H];
      destruct H as (a & b & -> & Ha & Hk & _); exists b, cs; eauto.
  - destruct greedy; intros H; apply orelse_some in H as [H|[_ H]];
      try (apply IHr in H as (s1 & cs1 & D1 & H); eauto 6); exists s, cs; auto.
  - intros H. apply IHr in H as (s1 & cs1 & D1 & H). eauto.
  - destruct (Nat.eqb_spec (length s) n0); [|discriminate]. eauto 6.
  - destruct (at_end s) eqn:E; [|discriminate]. eauto 6.
Qed.
Lemma m_complete {R} n0 r s s' cs (k : str -> caps -> option R) : D n0 r s s' ->
  (forall cs', k s' cs' <> None) -> m n0 r s cs k <> None.
Proof.
  revert s s' cs k; induction r; intros s s' cs k; cbn [m D].
  - intros ->. auto.
  - intros (c & -> & ->). auto.
  - intros (t & D1 & D2) H. eapply IHr1; [exact D1|]. intros cs'. eapply IHr2; eauto.
  - intros [H|H] K E; apply orelse_none in E as [E1 E2]; [eapply IHr1|eapply IHr2]; eauto.
  - intros (a & -> & Ha) K E. destruct greedy;
      [rewrite star_g_none in E|rewrite star_l_none in E]; eapply K, E; eauto.
  - intros [H| ->] K E; destruct greedy; apply orelse_none in E as [E1 E2];
      try (eapply IHr; eauto; fail); eapply K; eauto.
  - intros H K. eapply IHr; [exact H|]. auto.
  - intros [-> ->] K. rewrite Nat.eqb_refl. auto.
  - intros [-> ->] K. auto.
Qed.
(** The same with the captured text: [Dc n0 r s cs s' cs'] if the pattern can
    match a prefix of [s] leaving [s'], extending the captures [cs] to [cs']. *)
Fixpoint Dc (n0 : nat) (r : re) (s : str) (cs : caps) (s' : str) (cs' : caps) : Prop :=
  match r with
  | Eps => s' = s /\ cs' = cs
  | Chr p => exists c, s = c :: s' /\ mem p c = true /\ cs' = cs
  | Cat a b => exists t ct, Dc n0 a s cs t ct /\ Dc n0 b t ct s' cs'
  | Alt a b => Dc n0 a s cs s' cs' \/ Dc n0 b s cs s' cs'
  | Star _ p => exists a, s = a ++ s' /\ forallb (mem p) a = true /\ cs' = cs
  | Opt _ a => Dc n0 a s cs s' cs' \/ (s' = s /\ cs' = cs)
  | Grp n a => exists ct, Dc n0 a s cs s' ct /\ cs' = (n, firstn (length s - length s') s) :: ct
  | Bol => s' = s /\ cs' = cs /\ length s = n0
  | Eol => s' = s /\ cs' = cs /\ at_end s = true
  end.
Lemma mc_sound {R} n0 r s cs (k : str -> caps -> option R) x : m n0 r s cs k = Some x ->
  exists s' cs', Dc n0 r s cs s' cs' /\ k s' cs' = Some x.
Proof.
  revert s cs k x; induction r; intros s cs k x; cbn [m Dc].
  - eauto.
  - destruct s as [|c t]; [discriminate|]. destruct (mem p c) eqn:E; [|discriminate]. eauto 8.
  - intros H. apply IHr1 in H as (s1 & cs1 & D1 & H). apply IHr2 in H as (s2 & cs2 & D2 & H). eauto 10.
  - intros H. apply orelse_some in H as [H|[_ H]];
      [apply IHr1 in H as (s1 & cs1 & D1 & H)|apply IHr2 in H as (s1 & cs1 & D1 & H)]; eauto 6.
  - destruct greedy; intros H; [apply star_g_some in H|apply star_l_some in H];
      destruct H as (a & b & -> & Ha & Hk & _); exists b, cs; eauto 6.
  - destruct greedy; intros H; apply orelse_some in H as [H|[_ H]];
      try (apply IHr in H as (s1 & cs1 & D1 & H); eauto 6); exists s, cs; auto.
  - intros H. apply IHr in H as (s1 & cs1 & D1 & H). eauto 8.
  - destruct (Nat.eqb_spec (length s) n0); [|discriminate]. eauto 8.
  - destruct (at_end s) eqn:E; [|discriminate]. eauto 8.
Qed.
Lemma mc_complete {R} n0 r s cs s' cs' (k : str -> caps -> option R) : Dc n0 r s cs s' cs' ->
  k s' cs' <> None -> m n0 r s cs k <> None.
Proof.
  revert s s' cs cs' k; induction r; intros s s' cs cs' k; cbn [m Dc].
  - intros [-> ->]. auto.
  - intros (c & -> & -> & ->). auto.
  - intros (t & ct & D1 & D2) H. eapply IHr1; [exact D1|]. eapply IHr2; eauto.
  - intros [H|H] K E; apply orelse_none in E as [E1 E2]; [eapply IHr1|eapply IHr2]; eauto.
  - intros (a & -> & Ha & ->) K E. destruct greedy;
      [rewrite star_g_none in E|rewrite star_l_none in E]; eapply K, E; eauto.
  - intros [H|[-> ->]] K E; destruct greedy; apply orelse_none in E as [E1 E2];
      try (eapply IHr; eauto; fail); now apply K.
  - intros (ct & H & ->) K. eapply IHr; [exact H|]. auto.
  - intros (-> & -> & ->) K. rewrite Nat.eqb_refl. auto.
  - intros (-> & -> & ->) K. auto.
Qed.
Lemma re_match_some r s s' cs : re_match r s = Some (s', cs) -> Dc (length s) r s [] s' cs.
Proof. intros H. apply mc_sound in H as (s1 & cs1 & H & [= -> ->]). exact H. Qed.
Lemma re_match_none r s : re_match r s = None <-> forall s' cs, ~ Dc (length s) r s [] s' cs.
Proof.
  split.
  - intros H s' cs Hd. eapply mc_complete; [exact Hd| |exact H]. discriminate.
  - intros H. destruct (re_match r s) as [[s' cs]|] eqn:E; [|reflexivity].
    apply re_match_some in E. now apply H in E.
Qed.

Lemma re_matches_iff r s : re_matches r s = true <-> exists s', D (length s) r s s'.
Proof.
  unfold re_matches, re_match. split.
  - destruct (m _ _ _ _ _) eqn:E; [|discriminate]. apply m_sound in E as (s' & cs & H & _). eauto.
  - intros [s' H]. destruct (m _ _ _ _ _) eqn:E; [reflexivity|].
    exfalso. eapply m_complete; [exact H| |exact E]. discriminate.
Qed.

(** Splitting loses nothing. *)
Lemma D_suffix n0 r s s' : D n0 r s s' -> exists a, s = a ++ s'.
Proof.
  revert s s'; induction r; intros s s'; cbn [D].
  - intros ->. now exists [].
  - intros (c & -> & _). now exists [c].
  - intros (t & H1 & H2). apply IHr1 in H1 as [a ->]. apply IHr2 in H2 as [b ->].
    exists (a ++ b). apply app_assoc.
  - intros [H|H]; auto.
  - intros (a & -> & _). now exists a.
  - intros [H| ->]; [auto|now exists []].
  - auto.
  - intros [-> _]. now exists [].
  - intros [-> _]. now exists [].
Qed.
Lemma firstn_sub {A} (a b : list A) : firstn (length (a ++ b) - length b) (a ++ b) = a.
Proof.
  rewrite app_length. replace (length a + length b - length b) with (length a) by lia.
  rewrite firstn_app, Nat.sub_diag, firstn_all. apply app_nil_r.
Qed.
Lemma m_first n0 r s s' cs :
  m n0 r s [] (fun s' cs => Some (s', cs)) = Some (s', cs) -> D n0 r s s' /\ exists a, s = a ++ s'.
Proof.
  intros H. apply m_sound in H as (s1 & cs1 & H & [= -> ->]). split; [exact H|].
  eapply D_suffix; eauto.
Qed.

(** Patterns without repetition and groups: the list of their words. *)
Fixpoint words (r : re) : option (list (list cls)) :=
  match r with
  | Eps => Some [[]]
  | Chr p => Some [[p]]
  | Cat a b =>
      match words a, words b with
      | Some l1, Some l2 => Some (flat_map (fun w => map (app w) l2) l1)
      | _, _ => None
      end
  | Alt a b =>
      match words a, words b with Some l1, Some l2 => Some (l1 ++ l2) | _, _ => None end
  | _ => None
  end.
Definition spells (w : list cls) (a : str) : Prop := Forall2 (fun p c => mem p c = true) w a.
Lemma Dc_words n0 r : forall l, words r = Some l -> forall s cs s' cs',
  Dc n0 r s cs s' cs' <-> cs' = cs /\ exists w a, In w l /\ s = a ++ s' /\ spells w a.
Proof.
  induction r; intros l; cbn [words]; try discriminate.
  - intros [= <-] s cs s' cs'. cbn [Dc]. split.
    + intros [-> ->]. split; [reflexivity|]. exists [], []. repeat split; [now left|constructor].
    + intros (-> & w & a & [<-|[]] & -> & H). inversion H; subst. auto.
  - intros [= <-] s cs s' cs'. cbn [Dc]. split.
    + intros (c & -> & Hc & ->). split; [reflexivity|]. exists [p], [c].
      repeat split; [now left|]. constructor; [exact Hc|constructor].
    + intros (-> & w & a & [<-|[]] & -> & H). inversion H as [|? c ? ? Hc Hn]; subst.
      inversion Hn; subst. exists c. auto.
  - destruct (words r1) as [l1|] eqn:E1; [|discriminate].
    destruct (words r2) as [l2|] eqn:E2; [|discriminate].
    intros [= <-] s cs s' cs'. cbn [Dc]. split.
    + intros (t & ct & H1 & H2). apply (IHr1 _ eq_refl) in H1 as (-> & w1 & a1 & I1 & -> & S1).
      apply (IHr2 _ eq_refl) in H2 as (-> & w2 & a2 & I2 & -> & S2). split; [reflexivity|].
      exists (w1 ++ w2), (a1 ++ a2). repeat split.
      * apply in_flat_map. exists w1. split; [exact I1|]. now apply in_map.
      * apply app_assoc.
      * now apply Forall2_app.
    + intros (-> & w & a & I & -> & S). apply in_flat_map in I as (w1 & I1 & I).
      apply in_map_iff in I as (w2 & <- & I2). apply Forall2_app_inv_l in S as (a1 & a2 & S1 & S2 & ->).
      exists (a2 ++ s'), cs. split.
      * apply (IHr1 _ eq_refl). split; [reflexivity|]. exists w1, a1. rewrite <- app_assoc. auto.
      * apply (IHr2 _ eq_refl). split; [reflexivity|]. exists w2, a2. auto.
  - destruct (words r1) as [l1|] eqn:E1; [|discriminate].
    destruct (words r2) as [l2|] eqn:E2; [|discriminate].
    intros [= <-] s cs s' cs'. cbn [Dc]. rewrite (IHr1 _ eq_refl), (IHr2 _ eq_refl). split.
    + intros [(-> & w & a & I & H)|(-> & w & a & I & H)]; (split; [reflexivity|]); exists w, a;
        (split; [|exact H]); apply in_or_app; auto.
    + intros (-> & w & a & I & H). apply in_app_or in I as [I|I]; [left|right];
        (split; [reflexivity|]); exists w, a; auto.
Qed.
Lemma spells_iff p w a : spells (p :: w) a <-> exists c t, a = c :: t /\ mem p c = true /\ spells w t.
Proof.
  split.
  - intros H. inversion H; subst. eauto.
  - intros (c & t & -> & H1 & H2). now constructor.
Qed.
Lemma spells_nil a : spells [] a <-> a = [].
Proof. split; [intros H; now inversion H|intros ->; constructor]. Qed.
(** One or more characters of a class, as compiled from a plus sign. *)
Lemma Dc_plus n0 g p s cs s' cs' : Dc n0 (Cat (Chr p) (Star g p)) s cs s' cs' <->
  exists a, a <> [] /\ s = a ++ s' /\ forallb (mem p) a = true /\ cs' = cs.
Proof.
  cbn [Dc]. split.
  - intros (t & ct & (c & -> & Hc & ->) & a & -> & Ha & ->). exists (c :: a).
    cbn [forallb]. rewrite Hc. easy.
  - intros ([|c a] & Hn & -> & Ha & ->); [easy|]. cbn [forallb] in Ha.
    apply andb_true_iff in Ha as [Hc Ha]. exists (a ++ s'), cs. split.
    + exists c. auto.
    + exists a. auto.
Qed.
