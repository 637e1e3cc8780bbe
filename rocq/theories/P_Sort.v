(** Properties C43-C45: sorting the results. *)
From Coq Require Import List NArith ZArith Bool Lia Permutation Sorting.Sorted.
From Verif Require Import Py TypeModel FieldModel SortModel SortSpec SortProofs SortKeyProofs NaturalProofs
  WalkModel WalkSpec SortRunProofs WalkRuns.
Import ListNotations.

(** C43: whatever is sorted is sorted by the keys of the entries. *)
Theorem C43_sorted : forall A (get : A -> str * str -> res value) fields reverse entries out,
  finalize get (Some fields) reverse entries = Ok out ->
  exists key, (forall a, In a entries -> render get fields a = Ok (key a)) /\ Sorted_by key reverse entries out.
Proof. intros A get fields reverse entries out. exact (list_sort_spec (render get fields) reverse entries out). Qed.
(** If values are of their types everything can be sorted. *)
Theorem C43_total : forall A (get : A -> str * str -> res value) fields reverse entries,
  well_typed get fields entries -> (forall f, In f fields -> f_modifier f <> Some ($"v")) ->
  exists out, finalize get (Some fields) reverse entries = Ok out.
Proof. exact @typed_sort. Qed.
(** A later attribute matters if the earlier ones are equal. *)
Theorem C43_lexicographic : forall A (get : A -> str * str -> res value) f fields a b k1 k2,
  render get (f :: fields) a = Ok k1 -> render get (f :: fields) b = Ok k2 ->
  exists x1 x2 r1 r2, render get [f] a = Ok x1 /\ render get [f] b = Ok x2 /\
    render get fields a = Ok r1 /\ render get fields b = Ok r2 /\
    (Before k1 k2 <-> Before x1 x2 \/ (x1 = x2 /\ Before r1 r2)) /\ (k1 = k2 <-> x1 = x2 /\ r1 = r2).
Proof. exact @lexicographic. Qed.
(** Numbers are compared as numbers, texts without regard to case, false is
    before true; a missing value is like zero, false or an empty text. *)
Theorem C43_numbers : forall A (get : A -> str * str -> res value) f a b x y,
  f_modifier f <> Some ($"v") -> In (f_type f) [TNumber; TMode; TSize; TTime; TDuration] ->
  get a (f_attribute f) = Ok (VInt x) -> get b (f_attribute f) = Ok (VInt y) ->
  exists k1 k2, render get [f] a = Ok k1 /\ render get [f] b = Ok k2 /\ (Before k1 k2 <-> (x < y)%Z) /\ (k1 = k2 <-> x = y).
Proof. exact @by_number. Qed.
Theorem C43_texts : forall A (get : A -> str * str -> res value) f a b x y,
  f_modifier f <> Some ($"v") -> f_type f = TString ->
  get a (f_attribute f) = Ok (VStr x) -> get b (f_attribute f) = Ok (VStr y) ->
  exists k1 k2, render get [f] a = Ok k1 /\ render get [f] b = Ok k2 /\
    (Before k1 k2 <-> StrBefore (lower x) (lower y)) /\ (k1 = k2 <-> lower x = lower y).
Proof. exact @by_text. Qed.
Theorem C43_truths : forall A (get : A -> str * str -> res value) f a b x y,
  f_modifier f <> Some ($"v") -> f_type f = TBoolean ->
  get a (f_attribute f) = Ok (VBool x) -> get b (f_attribute f) = Ok (VBool y) ->
  exists k1 k2, render get [f] a = Ok k1 /\ render get [f] b = Ok k2 /\
    (Before k1 k2 <-> x = false /\ y = true) /\ (k1 = k2 <-> x = y).
Proof. exact @by_truth. Qed.
Theorem C43_missing : forall A (get : A -> str * str -> res value) f a b v,
  f_modifier f <> Some ($"v") -> get a (f_attribute f) = Err KeyErr -> get b (f_attribute f) = Ok v ->
  In (f_type f, v) ([(TBoolean, VBool false); (TString, VStr []); (TPath, VStr []); (TFileType, VStr []); (TListOfStrings, VList [])] ++
    map (fun t => (t, VInt 0)) [TNumber; TMode; TSize; TTime; TDuration]) ->
  exists k, render get [f] a = Ok k /\ render get [f] b = Ok k.
Proof. exact @by_missing. Qed.
Print Assumptions C43_sorted.
Print Assumptions C43_total.
Print Assumptions C43_lexicographic.
Print Assumptions C43_numbers.
Print Assumptions C43_texts.
Print Assumptions C43_truths.
Print Assumptions C43_missing.
Definition ex_field (name : str) t m : field := Field ($"file", name) name t None m.
Definition ex_get (e : str * Z) (a : str * str) : res value :=
  if str_eqb (snd a) ($"size") then Ok (VInt (snd e)) else if str_eqb (snd a) ($"name") then Ok (VStr (fst e)) else Err KeyErr.
Example C43_example :
  finalize ex_get (Some [ex_field ($"size") TSize None; ex_field ($"name") TString None]) false
    [($"b", 10%Z); ($"C", 9%Z); ($"a", 10%Z); ($"c", 9%Z)] = Ok [($"C", 9%Z); ($"c", 9%Z); ($"a", 10%Z); ($"b", 10%Z)] /\
  finalize ex_get (Some [ex_field ($"size") TSize None; ex_field ($"name") TString None]) true
    [($"b", 10%Z); ($"C", 9%Z); ($"a", 10%Z); ($"c", 9%Z)] = Ok [($"b", 10%Z); ($"a", 10%Z); ($"C", 9%Z); ($"c", 9%Z)] /\
  well_typed ex_get [ex_field ($"size") TSize None; ex_field ($"name") TString None]
    [($"b", 10%Z); ($"C", 9%Z); ($"a", 10%Z); ($"c", 9%Z)].
Proof.
  split; [reflexivity|]. split; [reflexivity|].
  intros a f Ha [<-|[<-|[]]]; right; [exists (VInt (snd a))|exists (VStr (fst a))]; split; reflexivity.
Qed.

(** C44: under the conditions under which a search is complete at all (see
    C41), two searches of a tree, with different numbers of processes, timeouts
    and schedules, print the same if no two results have the same key.  Missing:
    as for C41, errors and slow processes. *)
Theorem C44_schedule_partial : forall A (excluded matched : A -> res bool) (rendered : A -> bool) halt1 halt2 (jobs1 jobs2 : nat)
    (timeout1 timeout2 : Z) get sort reverse roots ls1 s1 ls2 s2 out,
  (0 < jobs1)%nat -> (0 < jobs2)%nat -> calm A excluded matched -> NoDup (tree_all roots) ->
  run A excluded matched rendered Collect jobs1 halt1 true true timeout1 (initial A jobs1 roots) ls1 s1 -> main_ s1 = MPassed ->
  run A excluded matched rendered Collect jobs2 halt2 true true timeout2 (initial A jobs2 roots) ls2 s2 -> main_ s2 = MPassed ->
  (forall a b, In a (results Collect s1) -> In b (results Collect s1) -> render get sort a = render get sort b -> a = b) ->
  finalize get (Some sort) reverse (results Collect s1) = Ok out ->
  finalize get (Some sort) reverse (results Collect s2) = Ok out.
Proof. exact schedule. Qed.
Print Assumptions C44_schedule_partial.
Definition ex_get_N (a : N) (_ : str * str) : res value := Ok (VInt (Z.of_N a)).
Example C44_example : exists ls s, run N none files all Collect 1 false true true 1 (initial N 1 [tree]) ls s /\ main_ s = MPassed /\
  (forall a b, In a (results Collect s) -> In b (results Collect s) ->
     render ex_get_N [ex_field ($"size") TSize None] a = render ex_get_N [ex_field ($"size") TSize None] b -> a = b) /\
  finalize ex_get_N (Some [ex_field ($"size") TSize None]) true (results Collect s) = Ok [3%N; 1%N].
Proof.
  destruct (good_run Collect) as (ls & s & R & M & E & _). exists ls, s. split; [exact R|]. split; [exact M|]. rewrite E. split.
  - intros a b _ _ [= H]. now apply N2Z.inj.
  - reflexivity.
Qed.

(** C45, the claim: texts can be sorted naturally, and of two texts that
    differ in a number only the one with the smaller number is first. *)
Definition by_name : list field := [ex_field ($"name") TString (Some ($"v"))].
Definition by_path : list field := [ex_field ($"path") TPath (Some ($"v"))].
Definition text (s : str) (_ : str * str) : res value := Ok (VStr s).
Definition C45_full : Prop :=
  (forall reverse entries, exists out, finalize text (Some by_path) reverse entries = Ok out) /\
  (forall p d1 d2 r, no_digit_last p -> digits d1 -> digits d2 -> no_digit_first r -> (number d1 < number d2)%N ->
     finalize text (Some by_path) false [p ++ d2 ++ r; p ++ d1 ++ r] = Ok [p ++ d1 ++ r; p ++ d2 ++ r]).
(** A number is compared to a list of extensions.  [strip_extensions] leaves
    no mark where a component ends. *)
Theorem C45_refuted_path :
  finalize text (Some by_path) false [$"a/b1"; $"a.b.c"] = Err TypeErr /\ ~ C45_full.
Proof.
  split; [reflexivity|]. intros [H _]. destruct (H false [$"a/b1"; $"a.b.c"]) as [out E]. discriminate E.
Qed.
(** Numbers within extensions are compared as text. *)
Theorem C45_refuted_extension :
  finalize text (Some by_path) false [$"x.r9"; $"x.r10"] = Ok [$"x.r10"; $"x.r9"] /\ ~ C45_full.
Proof.
  split; [reflexivity|]. intros [_ H].
  assert (D : forall l, l <> [] -> forallb (fun c => (48 <=? c) && (c <=? 57))%N l = true -> digits l).
  { intros l N F. split; [exact N|]. rewrite forallb_forall in F. apply Forall_forall. intros c Hc.
    apply F in Hc. apply andb_prop in Hc. destruct Hc as [H1 H2]. apply N.leb_le in H1, H2. split; assumption. }
  assert (E : finalize text (Some by_path) false [$"x.r10"; $"x.r9"] = Ok [$"x.r9"; $"x.r10"]).
  { apply (H ($"x.r") ($"9") ($"10") []); try reflexivity; try (apply D; [discriminate|reflexivity]).
    cbv. intros [_ X]. apply X. reflexivity. }
  discriminate E.
Qed.
(** Superscripts pass isdigit() but are no numbers. *)
Theorem C45_refuted_superscript :
  finalize text (Some by_name) false [[49%N; 178%N]] = Err ValueError.
Proof. reflexivity. Qed.
(** A missing text is not comparable to a present one; a number cannot be
    sorted naturally. *)
Theorem C45_refuted_missing :
  finalize (fun (s : option str) _ => match s with Some s => Ok (VStr s) | None => Err KeyErr end) (Some by_name) false
    [Some ($"a"); None] = Err TypeErr.
Proof. reflexivity. Qed.
Theorem C45_refuted_number :
  finalize ex_get (Some [ex_field ($"size") TSize (Some ($"v"))]) false [($"a", 1%Z)] = Err TypeErr.
Proof. reflexivity. Qed.

(** What is true: names, and paths whose components have at most one dot,
    can be sorted if they have no superscripts. *)
Theorem C45_names_partial : forall A (get : A -> str * str -> res value) fields reverse entries,
  natural (fun s => ~ In SLASH s) get fields entries ->
  exists out, finalize get (Some fields) reverse entries = Ok out.
Proof. exact @names_sort. Qed.
Theorem C45_paths_partial : forall A (get : A -> str * str -> res value) fields reverse entries,
  natural (fun s => Forall one_dot (split_on SLASH s)) get fields entries ->
  exists out, finalize get (Some fields) reverse entries = Ok out.
Proof. exact @paths_sort. Qed.
(** Names that are equal up to a number before the first dot are ordered by
    the number.  Missing: names with directories, numbers after a dot. *)
Theorem C45_keys_partial : forall A (get : A -> str * str -> res value) f,
  f_modifier f = Some ($"v") -> f_type f = TString \/ f_type f = TPath ->
  forall a b n1 n2 p d1 r1 d2 r2,
  get a (f_attribute f) = Ok (VStr n1) -> get b (f_attribute f) = Ok (VStr n2) ->
  numbered n1 p d1 r1 -> numbered n2 p d2 r2 -> (number d1 < number d2)%N ->
  exists k1 k2, render get [f] a = Ok k1 /\ render get [f] b = Ok k2 /\ Before k1 k2.
Proof. exact @numbers_before. Qed.
Theorem C45_numbers_partial : forall A (get : A -> str * str -> res value) f,
  f_modifier f = Some ($"v") -> f_type f = TString \/ f_type f = TPath ->
  forall a b n1 n2 p d1 r1 d2 r2,
  get a (f_attribute f) = Ok (VStr n1) -> get b (f_attribute f) = Ok (VStr n2) ->
  numbered n1 p d1 r1 -> numbered n2 p d2 r2 -> (number d1 < number d2)%N ->
  finalize get (Some [f]) false [b; a] = Ok [a; b] /\ finalize get (Some [f]) true [a; b] = Ok [b; a].
Proof. exact @numbers_sorted. Qed.
Print Assumptions C45_refuted_path.
Print Assumptions C45_refuted_extension.
Print Assumptions C45_refuted_superscript.
Print Assumptions C45_refuted_missing.
Print Assumptions C45_refuted_number.
Print Assumptions C45_names_partial.
Print Assumptions C45_paths_partial.
Print Assumptions C45_keys_partial.
Print Assumptions C45_numbers_partial.
Example C45_example :
  finalize text (Some by_path) false [$"img12.png"; $"img9.png"; $"dir2/b"; $"dir10/a"; $"img9"] =
    Ok [$"dir2/b"; $"dir10/a"; $"img9"; $"img9.png"; $"img12.png"] /\
  numbered ($"img12.png") ($"img") ($"12") ($".png") /\ numbered ($"img9.png") ($"img") ($"9") ($".png") /\
  natural (fun s => Forall one_dot (split_on SLASH s)) text by_path [$"img12.png"; $"dir2/b"].
Proof.
  assert (N : forall n d, digits d -> In n [$"img12.png"; $"img9.png"] -> n = $"img" ++ d ++ $".png" ->
    numbered n ($"img") d ($".png")).
  { intros n d D I E. split; [exact E|].
    assert (X : ~ In SLASH n /\ ~ Exists superscript n).
    { destruct I as [<-|[<-|[]]]; (split; [intros X; cbn in X; repeat (destruct X as [X|X]; [discriminate X|]); destruct X|]);
        intros X; repeat (apply Exists_cons in X; destruct X as [[X|[X|X]]|X]; try discriminate X); now apply Exists_nil in X. }
    destruct X as [X1 X2]. split; [exact X1|]. split; [exact X2|]. split; [intros X; cbn in X; repeat (destruct X as [X|X]; [discriminate X|]); destruct X|].
    split; [cbv; intros [_ X]; now apply X|]. split; [exact D|]. cbv. intros [X _]. now apply X. }
  split; [reflexivity|]. split; [|split].
  - apply N; [split; [discriminate|]|cbn; auto|reflexivity]. repeat constructor; cbv; discriminate.
  - apply N; [split; [discriminate|]|cbn; auto|reflexivity]. repeat constructor; cbv; discriminate.
  - split.
    + intros a f _ [<-|[]]. right. exists (VStr a). split; reflexivity.
    + intros a f Ha [<-|[]] _. split; [right; reflexivity|]. exists a. split; [reflexivity|].
      destruct Ha as [<-|[<-|[]]]; (split; [cbn; repeat constructor; cbv; lia|]);
        intros X; repeat (apply Exists_cons in X; destruct X as [[X|[X|X]]|X]; try discriminate X); now apply Exists_nil in X.
Qed.
