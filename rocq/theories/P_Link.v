(** Property C79: symbolic links. *)
From Coq Require Import List NArith ZArith Bool Lia.
From Verif Require Import Py OsPath PathModel PathSpec EntryModel EntrySpec ArgumentsSpec DirectoryProofs LinkModel LinkSpec LinkProofs.
Import ListNotations.
Local Open Scope Z_scope.

(** The target of a relative link is the location it means, for every
    os.path.realpath that takes no notice of repeated slashes; so is that of an
    absolute link in the current directory or in the root directory. *)
Theorem C79_target_partial : forall readlink realpath exists_ sd rel st e d n link,
  mk_entry sd rel st = Ok e -> inside d n (e_path e) -> name_ok n ->
  S_ISLNK (st_mode st) = true -> readlink (e_path e) = Some link -> link <> [] ->
  (forall p q, same_way p q -> realpath p = realpath q) ->
  absolute link = false \/ d = [] \/ d = [SLASH] ->
  exists t, link_attributes readlink realpath exists_ e = Ok (Links (Some link) (Some t) (negb (exists_ t))) /\
    t = realpath (meant d link).
Proof. exact link_target. Qed.
Print Assumptions C79_target_partial.
(** Other files have no target and are not broken links. *)
Theorem C79_others : forall readlink realpath exists_ e,
  S_ISLNK (st_mode (e_status e)) = false -> link_attributes readlink realpath exists_ e = Ok (Links None None false).
Proof. exact no_link. Qed.
Print Assumptions C79_others.
(** In all other directories the target of an absolute link is a different
    location, below the directory of the link (shown where there are no further
    links on the way). *)
Theorem C79_absolute : forall cwd readlink exists_ sd rel st e d n names, absolute cwd = true ->
  mk_entry sd rel st = Ok e -> inside d n (e_path e) -> name_ok n -> S_ISLNK (st_mode st) = true ->
  readlink (e_path e) = Some (($"/") ++ join_with ($"/") names) -> Forall plain names -> Forall (fun c => ~ In 47%N c) names ->
  d <> [] -> place cwd d <> [] ->
  exists t, link_attributes readlink (abspath cwd) exists_ e =
      Ok (Links (Some (($"/") ++ join_with ($"/") names)) (Some t) (negb (exists_ t))) /\
    place cwd t = place cwd d ++ names /\ place cwd t <> place cwd (meant d (($"/") ++ join_with ($"/") names)).
Proof. exact absolute_wrong. Qed.
Print Assumptions C79_absolute.

(** src/lib/x -> ../y *)
Definition link_entry : entry := Eval vm_compute in
  match mk_entry (Start ($"src") ($"/home/src") 1) ($"lib/x") (Status 41471 4 1) with Ok e => e | Err _ => Entry (Start [] [] 0) [] (Status 0 0 0) [] [] [] [] false end.
Lemma same_way_abspath p q : same_way p q -> join_with ($"/") (steps p) = join_with ($"/") (steps q).
Proof. intros [_ ->]. reflexivity. Qed.
Example C79_example : mk_entry (Start ($"src") ($"/home/src") 1) ($"lib/x") (Status 41471 4 1) = Ok link_entry /\
  inside ($"src/lib") ($"x") (e_path link_entry) /\ name_ok ($"x") /\ S_ISLNK 41471 = true /\
  (forall p q, same_way p q -> join_with ($"/") (steps p) = join_with ($"/") (steps q)) /\
  link_attributes (fun _ => Some ($"../y")) (fun p => join_with ($"/") (steps p)) (fun p => str_eqb p ($"src/lib/../y")) link_entry =
    Ok (Links (Some ($"../y")) (Some ($"src/lib/../y")) false).
Proof.
  split; [vm_compute; reflexivity|]. split; [right; right; split; [discriminate|split; [discriminate|vm_compute; reflexivity]]|].
  split; [split; [discriminate|cbn; intuition discriminate]|]. split; [reflexivity|]. split; [exact same_way_abspath|].
  vm_compute. reflexivity.
Qed.
(** src/lib/x -> /etc/passwd counts as broken although /etc/passwd exists. *)
Theorem C79_refuted : exists readlink realpath exists_ sd rel st e d n link t,
  mk_entry sd rel st = Ok e /\ inside d n (e_path e) /\ name_ok n /\ S_ISLNK (st_mode st) = true /\
  readlink (e_path e) = Some link /\ link <> [] /\ (forall p q, same_way p q -> realpath p = realpath q) /\
  exists_ (realpath (meant d link)) = true /\
  link_attributes readlink realpath exists_ e = Ok (Links (Some link) (Some t) true) /\ t <> realpath (meant d link).
Proof.
  exists (fun _ => Some ($"/etc/passwd")), (fun p => (if absolute p then $"/" else $"/home/") ++ join_with ($"/") (steps p)),
    (fun p => str_eqb p ($"/etc/passwd")), (Start ($"src") ($"/home/src") 1), ($"lib/x"), (Status 41471 4 1), link_entry,
    ($"src/lib"), ($"x"), ($"/etc/passwd"), ($"/home/src/lib/etc/passwd").
  split; [vm_compute; reflexivity|]. split; [right; right; split; [discriminate|split; [discriminate|vm_compute; reflexivity]]|].
  split; [split; [discriminate|cbn; intuition discriminate]|]. split; [reflexivity|]. split; [reflexivity|]. split; [discriminate|].
  split; [intros p q [-> ->]; reflexivity|]. split; [vm_compute; reflexivity|]. split; [vm_compute; reflexivity|vm_compute; discriminate].
Qed.
Print Assumptions C79_refuted.
