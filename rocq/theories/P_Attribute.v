(** Properties C85-C87: the attributes of files. *)
From Coq Require Import List NArith ZArith Bool.
From Verif Require Import Py PathModel EntryModel TypeModel RegistryModel SearchModel SearchSpec SearchRuns AttributeModel AttributeProofs.
Import ListNotations.
Local Open Scope Z_scope.

Section Attributes.
  Variable inode_of : entry -> inode.
  Variable scandir : str -> option (list str).
  Variable readlink : str -> option str.
  Variable realpath : str -> str.
  Variable exists_ : str -> bool.
  Variable lstat_dev : str -> option Z.
  Variable users groups : Z -> option str.
  Variable mounts : list EntryModel.mount.
  Variable memo : list (Z * str) * list (Z * str).
  Notation file_attribute := (file_attribute inode_of scandir readlink realpath exists_ lstat_dev users groups mounts memo).
  Notation real_other := (real_other inode_of scandir readlink realpath exists_ lstat_dev users groups mounts memo).
  Notation possible := (possible inode_of readlink).

  (** C85: every attribute has a value of the declared type; only link and
      target can be missing, and they are missing iff there is no link. *)
  Theorem C85_types : forall e n t, possible e -> find_attr n file_plugin = Some t ->
    exists v, file_attribute e n = Ok v /\
      (v = None <-> (n = $"link" \/ n = $"target") /\ S_ISLNK (st_mode (e_status e)) = false) /\ (forall x, v = Some x -> of_type t x).
  Proof. exact (typed inode_of scandir readlink realpath exists_ lstat_dev users groups mounts memo). Qed.
  (** Hence a search needs to assume nothing of them (compare C75, C76, C82). *)
  Theorem C85_search : forall registered init_plugin plugin_value,
    find_plugin registered ($"file") = Some file_plugin -> init_plugin ($"file") = Ok tt ->
    (forall e at_ t x, fst at_ <> $"file" -> get_attribute_type registered at_ = Ok t -> plugin_value e at_ = Some x -> of_type t x) ->
    honest registered init_plugin real_other plugin_value /\
    forall e n t, possible e -> find_attr n file_plugin = Some t -> file_attribute e n = Ok (attribute_value real_other plugin_value e ($"file", n)).
  Proof.
    intros registered init_plugin plugin_value H1 H2 H3.
    exact (conj (real_honest inode_of scandir readlink realpath exists_ lstat_dev users groups mounts memo registered init_plugin plugin_value H1 H2 H3)
                (real_value inode_of scandir readlink realpath exists_ lstat_dev users groups mounts memo)).
  Qed.

  (** C87: names of users and groups, in whatever order they are asked for *)
  Theorem C87_names : forall database ids,
    names_of database [] ids = map (fun id => match database id with Some n => n | None => [] end) ids.
  Proof. exact names_start. Qed.
  (** as attributes; every query keeps the dictionaries right *)
  Theorem C87_attributes : forall e, right users (fst memo) -> right groups (snd memo) ->
    file_attribute e ($"user") = Ok (Some (VStr (match users (st_uid (inode_of e)) with Some n => n | None => [] end))) /\
    file_attribute e ($"group") = Ok (Some (VStr (match groups (st_gid (inode_of e)) with Some n => n | None => [] end))) /\
    right users (snd (name_of users (fst memo) (st_uid (inode_of e)))) /\ right groups (snd (name_of groups (snd memo) (st_gid (inode_of e)))).
  Proof. exact (names_attributes inode_of scandir readlink realpath exists_ lstat_dev users groups mounts memo). Qed.
End Attributes.
Print Assumptions C85_types.
Print Assumptions C85_search.
Print Assumptions C87_names.
Print Assumptions C87_attributes.

(** C86: a time is given as the second in which it is.  False in the last
    nanosecond of a second and before 1970. *)
Definition exact_second (t : timespec) : Prop := whole_seconds t = Ok (fst t).
Theorem C86_refuted : ~ (forall t, 0 <= snd t < 1000000000 -> exact_second t).
Proof. intros H. specialize (H (1700000000, 999999999) ltac:(now split)). vm_compute in H. discriminate H. Qed.
Theorem C86_before_refuted : ~ (forall t, 0 <= snd t < 500000000 -> exact_second t).
Proof. intros H. specialize (H (-2, 250000000) ltac:(now split)). vm_compute in H. discriminate H. Qed.
Theorem C86_partial : forall t, 0 <= snd t <= 999998000 -> 0 <= fst t < 2 ^ 33 -> exact_second t.
Proof. exact whole_right. Qed.
(** It is never off by more than one second, and it is always defined. *)
Theorem C86_near_partial : forall t z, 0 <= snd t < 1000000000 -> 0 <= fst t < 2 ^ 52 -> whole_seconds t = Ok z -> fst t <= z <= fst t + 1.
Proof. exact whole_result. Qed.
Theorem C86_defined : forall t, 0 <= snd t < 1000000000 -> - 2 ^ 63 <= fst t < 2 ^ 63 -> exists z, whole_seconds t = Ok z.
Proof. exact whole_defined. Qed.
Print Assumptions C86_refuted.
Print Assumptions C86_before_refuted.
Print Assumptions C86_partial.
Print Assumptions C86_near_partial.
Print Assumptions C86_defined.

(** a symbolic link s -> t in /home, and a file *)
Definition ex_link_entry (mode : Z) : entry :=
  Entry (Start ($"/home") ($"/home") 1) ($"s") (Status mode 5 1) ($"/home/s") ($"/home/s") ($"/home") ($"s") false.
Definition ex_inode (e : entry) : inode := Inode 7 1 1000 100 (1700000000, 5) (1700000000, 5) (1700000000, 999999999).
Definition ex_users (id : Z) : option str := if id =? 1000 then Some ($"lars") else None.
Definition ex_value (mode : Z) (n : str) : res (option value) :=
  file_attribute ex_inode (fun _ => Some []) (fun _ => Some ($"t")) (fun p => p) (fun _ => true) (fun _ => Some 1) ex_users (fun _ => None)
    [($"/home", $"/dev/sda1", $"ext4"); ($"/", $"none", $"tmpfs")] ([], []) (ex_link_entry mode) n.
Example C85_example : possible ex_inode (fun _ => Some ($"t")) (ex_link_entry 41471) /\
  ex_value 41471 ($"link") = Ok (Some (VStr ($"t"))) /\ ex_value 33188 ($"link") = Ok None /\ ex_value 33188 ($"target") = Ok None /\
  ex_value 33188 ($"user") = Ok (Some (VStr ($"lars"))) /\ ex_value 33188 ($"group") = Ok (Some (VStr [])) /\
  ex_value 33188 ($"mtime") = Ok (Some (VInt 1700000000)) /\ ex_value 33188 ($"atime") = Ok (Some (VInt 1700000001)) /\
  ex_value 33188 ($"fstype") = Ok (Some (VStr ($"ext4"))) /\ ex_value 33188 ($"empty") = Ok (Some (VBool false)) /\
  ex_value 16877 ($"empty") = Ok (Some (VBool true)) /\ ex_value 16877 ($"mount") = Ok (Some (VBool false)).
Proof.
  split; [|vm_compute; repeat split].
  assert (A : 0 <= 5 < 1000000000) by now split. assert (B : 0 <= 999999999 < 1000000000) by now split.
  assert (C : - 2 ^ 63 <= 1700000000 < 2 ^ 63) by now split.
  split; [now split|]. split; [now split|]. split; [now split|]. intros _. discriminate.
Qed.
Example C86_example : exact_second (1700000000, 999998000) /\ exact_second (8589934591, 999998000) /\ whole_seconds (-2, 250000000) = Ok (-1).
Proof. vm_compute. repeat split. Qed.
Example C87_example : names_of ex_users [] [1000; 0; 1000; 0] = [$"lars"; []; $"lars"; []].
Proof. vm_compute. reflexivity. Qed.
