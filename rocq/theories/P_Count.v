(** Properties C46, C47, C67: --count and the output of numbers. *)
From Coq Require Import List NArith ZArith Bool Lia Permutation.
From Verif Require Import Py TypeModel RegistryModel FieldModel SortModel SortSpec BaseSpec BaseProofs CountModel CountSpec CountProofs
  CountLoopProofs CountPrintProofs CountLinesProofs CountSumProofs TextProofs.
Import ListNotations.

(** C46.  Missing: it is false if a field is given twice, and two fields of
    the same name hide each other, see below. *)
Theorem C46_json_partial : forall A (get : A -> str * str -> res value) human fields,
  NoDup (map ident fields) -> (forall f, In f fields -> count_of (f_type f) <> UNCOUNTABLE) ->
  NoDup ($"_total" :: map f_alias fields) ->
  forall chunks, well_typed get fields (concat chunks) -> distinguishable get human fields (concat chunks) ->
  exists d, count_output human get fields true chunks = Ok (AsJson d) /\ NoDup (map fst d) /\
    (forall n x, In (n, x) d -> Item get human fields (concat chunks) n x) /\
    (forall n x, Item get human fields (concat chunks) n x -> exists y, In (n, y) d).
Proof. exact @as_json. Qed.
Theorem C46_lines_partial : forall A (get : A -> str * str -> res value) human fields,
  NoDup (map ident fields) -> (forall f, In f fields -> count_of (f_type f) <> UNCOUNTABLE) ->
  NoDup ($"_total" :: map f_alias fields) ->
  forall chunks, well_typed get fields (concat chunks) -> distinguishable get human fields (concat chunks) ->
  forall lines, count_output human get fields false chunks = Ok (AsLines lines) ->
  forall line, In line lines <-> Line get human fields (concat chunks) line.
Proof. exact @as_lines. Qed.
(** The counts of the values add up to the number of results that have one. *)
Theorem C46_add_up : forall A (get : A -> str * str -> res value) human fields entries f l,
  well_typed get fields entries -> distinguishable get human fields entries ->
  In f fields -> count_of (f_type f) = COUNT -> Texts get human f entries l ->
  fold_right Z.add 0%Z (map snd l) = Z.of_nat (present_in get f entries).
Proof. exact @add_up. Qed.
(** The order of arrival does not matter; chunks are not mentioned above. *)
Theorem C46_order : forall A (get : A -> str * str -> res value) human fields entries entries' line,
  Permutation entries entries' -> Line get human fields entries line -> Line get human fields entries' line.
Proof. exact @line_perm. Qed.
(** Without human readable modes and times values can be told apart. *)
Theorem C46_distinguishable : forall A (get : A -> str * str -> res value) human fields entries,
  well_typed get fields entries ->
  (forall f, In f fields -> f_modifier f = Some ($"h") -> f_type f <> TMode /\ f_type f <> TTime) ->
  distinguishable get human fields entries.
Proof. exact @plain_distinguishable. Qed.
Definition cx_plugins : list plugin := load_plugins [file_plugin].
Definition cx_fields (l : list str) : res (list field) := count_fields cx_plugins (fun _ => Ok tt) l.
Definition cx_human (t : ty) (z : Z) : str := $"about " ++ str_of_Z z.
(** entries: size and, if known, extension *)
Definition cx_get (e : Z * option str) (a : str * str) : res value :=
  if str_eqb (snd a) ($"size") then Ok (VInt (fst e))
  else if str_eqb (snd a) ($"ext") then match snd e with Some s => Ok (VStr s) | None => Err KeyErr end
  else if str_eqb (snd a) ($"depth") then Ok (VInt (fst e))
  else if str_eqb (snd a) ($"mtime") then Ok (VInt (fst e))
  else Err KeyErr.
Definition cx_run (names : list str) (chunks : list (list (Z * option str))) : res printed_count :=
  do fields <- cx_fields names; count_output cx_human cx_get fields false chunks.
(** A field that is given twice is summed up twice, however it is written. *)
Theorem C46_refuted_twice : exists fields, cx_fields [$"size"; $"file.size"] = Ok fields /\
  count_output cx_human cx_get fields false [[(5%Z, None)]] = Ok (AsLines [$"_total=1"; $"size=10"]).
Proof. eexists. split; reflexivity. Qed.
(** Of two fields for one attribute only the last is printed. *)
Theorem C46_refuted_hidden : exists fields, cx_fields [$"size"; $"size:h"] = Ok fields /\
  count_output cx_human cx_get fields false [[(5%Z, None)]] = Ok (AsLines [$"_total=1"; $"size=about 5"]).
Proof. eexists. split; reflexivity. Qed.
(** Without results there is no total. *)
Theorem C46_refuted_nothing : forall fields, count_output cx_human cx_get fields false [] = Ok (AsLines []).
Proof. reflexivity. Qed.
Print Assumptions C46_json_partial.
Print Assumptions C46_lines_partial.
Print Assumptions C46_add_up.
Print Assumptions C46_order.
Print Assumptions C46_distinguishable.
Print Assumptions C46_refuted_twice.
Print Assumptions C46_refuted_hidden.
Print Assumptions C46_refuted_nothing.
Example C46_example : exists fields, cx_fields [$"size"; $"ext"] = Ok fields /\
  NoDup (map ident fields) /\ NoDup ($"_total" :: map f_alias fields) /\
  well_typed cx_get fields (concat [[(5%Z, Some ($"txt")); (7%Z, None)]; []; [(1%Z, Some ($"c")); (2%Z, Some ($"txt"))]]) /\
  count_output cx_human cx_get fields false [[(5%Z, Some ($"txt")); (7%Z, None)]; []; [(1%Z, Some ($"c")); (2%Z, Some ($"txt"))]] =
    Ok (AsLines [$"_total=4"; $"ext[c]=1"; $"ext[txt]=2"; $"size=15"]).
Proof.
  eexists. split; [reflexivity|]. split; [|split; [|split; [|reflexivity]]].
  - repeat constructor; cbn; intuition discriminate.
  - repeat constructor; cbn; intuition discriminate.
  - intros a f Ha Hf. cbn in Ha, Hf. destruct Hf as [<-|[<-|[]]]; cbn.
    + right. eexists. split; reflexivity.
    + repeat (destruct Ha as [<-|Ha]; [cbn; (left; reflexivity) || (right; eexists; split; reflexivity)|]). destruct Ha.
Qed.

(** C47: printing fails unless for each field all texts are numerals or none
    is.  As JSON the counts can always be printed (C46_json_partial). *)
Theorem C47_iff_partial : forall A (get : A -> str * str -> res value) human fields,
  NoDup (map ident fields) -> (forall f, In f fields -> count_of (f_type f) <> UNCOUNTABLE) ->
  NoDup ($"_total" :: map f_alias fields) ->
  forall chunks, well_typed get fields (concat chunks) -> distinguishable get human fields (concat chunks) ->
  (exists lines, count_output human get fields false chunks = Ok (AsLines lines)) <->
  (forall f, In f fields -> count_of (f_type f) = COUNT -> uniform get human f (concat chunks)).
Proof. exact @printable. Qed.
(** Numbers that are not negative and truth values are like that. *)
Theorem C47_numbers : forall A (get : A -> str * str -> res value) human fields entries f,
  well_typed get fields entries -> In f fields -> In (f_type f) [TNumber; TMode; TTime] -> f_modifier f = None ->
  (forall e z, In e entries -> get e (f_attribute f) = Ok (VInt z) -> (0 <= z)%Z) -> uniform get human f entries.
Proof. exact @natural_uniform. Qed.
Theorem C47_truths : forall A (get : A -> str * str -> res value) human fields entries f,
  well_typed get fields entries -> In f fields -> f_type f = TBoolean -> uniform get human f entries.
Proof. exact @boolean_uniform. Qed.
(** Attributes that cannot be counted are those that are lists; they are
    refused. *)
Theorem C47_countable : forall registered init_plugin argument fields, output_fields registered init_plugin argument = Ok fields ->
  (count_fields registered init_plugin argument = Ok fields /\ forall f, In f fields -> f_type f <> TListOfStrings) \/
  (count_fields registered init_plugin argument = Err UsageError /\ exists f, In f fields /\ f_type f = TListOfStrings).
Proof. exact count_iff. Qed.
(** A numeral beside another text: the extensions of a.1 and b.txt; depths 1
    and 10 in hexadecimal; times after and before 1970. *)
Theorem C47_refuted_text : cx_run [$"ext"] [[(0%Z, Some ($"1")); (0%Z, Some ($"txt"))]] = Err TypeErr.
Proof. reflexivity. Qed.
Theorem C47_refuted_hexadecimal : cx_run [$"depth:x"] [[(1%Z, None); (10%Z, None)]] = Err TypeErr.
Proof. reflexivity. Qed.
Theorem C47_refuted_negative : cx_run [$"mtime"] [[(1%Z, None); ((-1)%Z, None)]] = Err TypeErr.
Proof. reflexivity. Qed.
(** A superscript two *)
Theorem C47_refuted_superscript : cx_run [$"ext"] [[(0%Z, Some [178%N])]] = Err ValueError.
Proof. reflexivity. Qed.
Print Assumptions C47_iff_partial.
Print Assumptions C47_numbers.
Print Assumptions C47_truths.
Print Assumptions C47_countable.
Print Assumptions C47_refuted_text.
Print Assumptions C47_refuted_hexadecimal.
Print Assumptions C47_refuted_negative.
Print Assumptions C47_refuted_superscript.
Example C47_example : cx_run [$"ext"; $"depth"] [[(12%Z, Some ($"7z")); (3%Z, Some ($"txt"))]] =
  Ok (AsLines [$"_total=2"; $"depth[3]=1"; $"depth[12]=1"; $"ext[7z]=1"; $"ext[txt]=1"]).
Proof. reflexivity. Qed.
Example C47_list : let registered := load_plugins [file_plugin; {| p_name := $"tar"; p_attrs := [($"members", TListOfStrings)] |}] in
  exists fields, output_fields registered (fun _ => Ok tt) [$"ext"; $"tar.members"] = Ok fields /\
    count_fields registered (fun _ => Ok tt) [$"ext"; $"tar.members"] = Err UsageError.
Proof. eexists. split; reflexivity. Qed.

(** C67: :x and :o print the shortest numeral, and numbers can be told apart. *)
Theorem C67_hexadecimal : forall human t z, In t [TNumber; TMode; TSize; TTime; TDuration] ->
  exists s, output human t (Some ($"x")) (VInt z) = Ok s /\ Numeral 16 s z.
Proof. exact hexadecimal_output. Qed.
Theorem C67_octal : forall human t z, In t [TNumber; TMode; TSize; TTime; TDuration] ->
  exists s, output human t (Some ($"o")) (VInt z) = Ok s /\ Numeral 8 s z.
Proof. exact octal_output. Qed.
Theorem C67_unique : forall b s x y, Numeral b s x -> Numeral b s y -> x = y.
Proof. exact Numeral_fun. Qed.
Print Assumptions C67_hexadecimal.
Print Assumptions C67_octal.
Print Assumptions C67_unique.
Example C67_example : output cx_human TMode (Some ($"o")) (VInt 420) = Ok ($"644") /\
  output cx_human TNumber (Some ($"x")) (VInt (-255)) = Ok ($"-ff") /\ output cx_human TNumber (Some ($"x")) (VInt 0) = Ok ($"0").
Proof. repeat split. Qed.
