(** Properties C100-C102: media, file systems and extended attributes. *)
From Coq Require Import List NArith ZArith Bool Lia.
From Verif Require Import Py OsPath PathModel PathSpec EntryModel TypeModel ArgumentsSpec DirectoryProofs PluginModel MediaModel MediaSpec MediaProofs.
Import ListNotations.
Local Open Scope nat_scope.

(** * C100: media *)

(** Files whose guessed main type is image, audio or video: tags are those of the
    last general track that has them; *)
Theorem C100_tag : forall m l k n v, (exists t, main_type m t /\ In t [$"image"; $"audio"; $"video"]) -> Forall clear_duration l ->
  In (k, n) [($"artist", $"performer"); ($"album", $"album"); ($"title", $"title"); ($"genre", $"genre"); ($"date", $"recorded_date")] ->
  (get_value (medium (Some m) (Some l)) k = Ok (VStr v) <-> Tag n l v).
Proof. intros m l k n v H C I. exact (medium_tag m (proj2 (handles_iff m) H) l C k n v I). Qed.
Print Assumptions C100_tag.
(** width and height are those of the first video or, without one, of the first
    image, if it has both; *)
Theorem C100_size : forall m l, (exists t, main_type m t /\ In t [$"image"; $"audio"; $"video"]) -> Forall clear_duration l ->
  (forall w, get_value (medium (Some m) (Some l)) ($"width") = Ok (VInt w) <-> exists h, Size l w h) /\
  (forall h, get_value (medium (Some m) (Some l)) ($"height") = Ok (VInt h) <-> exists w, Size l w h).
Proof. intros m l H C. split; [exact (medium_width m (proj2 (handles_iff m) H) l C)|exact (medium_height m (proj2 (handles_iff m) H) l C)]. Qed.
Print Assumptions C100_size.
(** the format is that of the first image, without videos; *)
Theorem C100_format : forall m l v, (exists t, main_type m t /\ In t [$"image"; $"audio"; $"video"]) -> Forall clear_duration l ->
  (get_value (medium (Some m) (Some l)) ($"format") = Ok (VStr v) <-> exists f, Format l f /\ v = lower f).
Proof. intros m l v H C. exact (medium_format m (proj2 (handles_iff m) H) l C v). Qed.
Print Assumptions C100_format.
(** the duration is that of the first audio track or, if it has none, of the first
    video track. *)
Theorem C100_duration : forall m l s, (exists t, main_type m t /\ In t [$"image"; $"audio"; $"video"]) -> Forall clear_duration l ->
  (get_value (medium (Some m) (Some l)) ($"duration") = Ok (VInt s) <-> Duration l s).
Proof. intros m l s H C. exact (medium_duration m (proj2 (handles_iff m) H) l C s). Qed.
Print Assumptions C100_duration.
(** Other files have no such attributes. *)
Theorem C100_other : forall m p k, (forall t, main_type m t -> ~ In t [$"image"; $"audio"; $"video"]) -> get_value (medium (Some m) p) k = Err KeyErr.
Proof. exact medium_unhandled. Qed.
Print Assumptions C100_other.
(** A film with two audio tracks and a picture *)
Definition tags_ex (l : list (str * str)) (n : str) : option str := option_map snd (find (fun kv => str_eqb (fst kv) n) l).
Definition film_ex : list track :=
  [Track ($"General") (tags_ex [($"title", $"A"); ($"performer", $"B")]) None None None NoMillis;
   Track ($"Image") (tags_ex []) (Some 16%Z) (Some 16%Z) (Some ($"PNG")) NoMillis;
   Track ($"Video") (tags_ex []) (Some 640%Z) (Some 480%Z) (Some ($"AVC")) (Millis 61999%Z);
   Track ($"General") (tags_ex [($"title", $"C"); ($"performer", [])]) None None None NoMillis;
   Track ($"Audio") (tags_ex []) None None None (MillisText (Some (605005%Z, 10%positive)));
   Track ($"Audio") (tags_ex []) None None None (Millis 1000%Z)].
Example C100_example : (exists t, main_type ($"video/mp4") t /\ In t [$"image"; $"audio"; $"video"]) /\ Forall clear_duration film_ex /\
  map (get_value (medium (Some ($"video/mp4")) (Some film_ex))) [$"title"; $"artist"; $"album"; $"width"; $"height"; $"format"; $"duration"] =
    [Ok (VStr ($"C")); Ok (VStr ($"B")); Err KeyErr; Ok (VInt 640); Ok (VInt 480); Err KeyErr; Ok (VInt 60)]%Z.
Proof.
  split; [|split; [|vm_compute; reflexivity]].
  - exists ($"video"). split; [|apply str_in_iff; reflexivity]. split; [vm_compute; intros K; repeat (destruct K as [K|K]; [discriminate K|]); destruct K|].
    right. exists ($"mp4"). reflexivity.
  - repeat constructor; vm_compute; discriminate.
Qed.
Example C100_other_example : forall t, main_type ($"text/plain") t -> ~ In t [$"image"; $"audio"; $"video"].
Proof.
  intros t H I. assert (E : medium_handles (Some ($"text/plain")) = true) by (apply handles_iff; eauto). vm_compute in E. discriminate.
Qed.

(** * C101: file systems *)

(** fs.type and fs.remote say what the table says about the file system of a
    directory, for other files that of their directory (without symbolic links on
    the way). *)
Theorem C101_partial : forall statfs cwd number sd names st e n name remote, absolute cwd = true -> (forall p, statfs p = number (place cwd p)) ->
  root sd <> [] -> names <> [] -> Forall plain names -> Forall name_ok names -> mk_entry sd (walk_relpath names) st = Ok e ->
  number (place cwd (root sd) ++ (if S_ISDIR (st_mode st) then names else removelast names)) = Some n ->
  (In (n, (name, remote)) fs_types \/ (~ In n (map fst fs_types) /\ name = $"unknown" /\ remote = false)) ->
  get_value (fs statfs cwd e) ($"type") = Ok (VStr name) /\ get_value (fs statfs cwd e) ($"remote") = Ok (VBool remote).
Proof.
  intros statfs cwd number sd names st e n name remote A S R Nn P N M Hn T.
  assert (E : fs_answer n = (name, remote)) by (destruct T as [T|(T & -> & ->)]; [now apply fs_row|now apply fs_unknown]).
  destruct (fs_value statfs cwd number sd names st e n A S R Nn P N M Hn) as [H1 H2]. rewrite E in H1, H2. split; assumption.
Qed.
Print Assumptions C101_partial.
(** Files with the same fs.type have the same fs.remote. *)
Theorem C101_remote : forall statfs statfs' cwd cwd' e e' v, get_value (fs statfs cwd e) ($"type") = Ok v -> get_value (fs statfs' cwd' e') ($"type") = Ok v ->
  get_value (fs statfs cwd e) ($"remote") = get_value (fs statfs' cwd' e') ($"remote").
Proof. exact fs_consistent. Qed.
Print Assumptions C101_remote.
(** ff fs.type=tmpfs src : src/lib/x on NFS *)
Definition fs_entry_ex (r : str) (names : list str) (mode : Z) : entry := Eval cbv beta in
  match mk_entry (Start r (abspath ($"/h") r) 1) (walk_relpath names) (Status mode 0 1) with Ok e => e | Err _ => Entry (Start [] [] 0) [] (Status 0 0 0) [] [] [] [] false end.
Example C101_example : let number := fun l : list str => if str_eqb (join_with ($"/") l) ($"h/src/lib") then Some 26985%N else Some 61267%N in
  absolute ($"/h") = true /\ mk_entry (Start ($"src") ($"/h/src") 1) (walk_relpath [$"lib"; $"x"]) (Status 33188 0 1) = Ok (fs_entry_ex ($"src") [$"lib"; $"x"] 33188) /\
  In (26985%N, ($"nfs", true)) fs_types /\ Forall plain [$"lib"; $"x"] /\ Forall name_ok [$"lib"; $"x"] /\
  get_value (fs (fun p => number (place ($"/h") p)) ($"/h") (fs_entry_ex ($"src") [$"lib"; $"x"] 33188)) ($"type") = Ok (VStr ($"nfs")) /\
  get_value (fs (fun p => number (place ($"/h") p)) ($"/h") (fs_entry_ex ($"src") [$"y"] 33188)) ($"type") = Ok (VStr ($"ext2/ext3")).
Proof.
  cbv zeta. split; [reflexivity|]. split; [vm_compute; reflexivity|]. split.
  { assert (F : existsb (fun x => N.eqb (fst x) 26985 && str_eqb (fst (snd x)) ($"nfs") && snd (snd x)) fs_types = true) by (vm_compute; reflexivity).
    apply existsb_exists in F as ([a [b c]] & I & F). cbn [fst snd] in F. apply andb_true_iff in F as [F F3]. apply andb_true_iff in F as [F1 F2].
    apply N.eqb_eq in F1. apply str_eqb_eq in F2. cbn in F3. subst. exact I. }
  split; [repeat constructor; discriminate|]. split; [|split; vm_compute; reflexivity].
  repeat constructor; try discriminate; vm_compute; intros K; repeat (destruct K as [K|K]; [discriminate K|]); destruct K.
Qed.
(** ff fs.type=tmpfs link/../src, where link leads to /a/b: /h/src does not exist, the
    search ends with an error although its files exist. *)
Theorem C101_refuted : exists links cwd (number : list str -> option N) sd names st e, absolute cwd = true /\
  root sd <> [] /\ Forall plain names /\ mk_entry sd (walk_relpath names) st = Ok e /\
  let statfs := fun p => number (reached links (place cwd []) p) in
  (exists n, statfs (e_path e) = Some n) /\ (exists n, statfs (e_dir e) = Some n) /\ get_data (fs statfs cwd e) = Err PluginErr.
Proof.
  exists (fun l => if str_eqb (join_with ($"/") l) ($"h/link") then Some [$"a"; $"b"] else None), ($"/h"),
    (fun l => match l with x :: _ => if str_eqb x ($"a") then Some 61267%N else None | [] => None end),
    (Start ($"link/../src") ($"/h/src") 1), [$"x"], (Status 33188 0 1), (fs_entry_ex ($"link/../src") [$"x"] 33188).
  split; [reflexivity|]. split; [discriminate|]. split; [repeat constructor; discriminate|]. split; [vm_compute; reflexivity|].
  cbv zeta. split; [eexists; vm_compute; reflexivity|]. split; [eexists; vm_compute; reflexivity|vm_compute; reflexivity].
Qed.
Print Assumptions C101_refuted.

(** * C102: extended attributes *)

(** xattrs lists key=value for every key, in the order of the keys. *)
Theorem C102_lists : forall getxattr fsdecode escape d f keys vals, d || f = true -> Forall2 (fun k v => getxattr k = Some v) keys vals ->
  get_value (xattr getxattr fsdecode escape d f (Some keys)) ($"xattrs") =
  Ok (VList (map (fun kv => fst kv ++ $"=" ++ match fsdecode (snd kv) with Some v => v | None => escape (snd kv) end) (combine keys vals))).
Proof.
  intros getxattr fsdecode escape d f keys vals H F. rewrite xattr_value by exact H. cbv beta iota. rewrite (xattr_all getxattr fsdecode escape keys vals F). reflexivity.
Qed.
Print Assumptions C102_lists.
(** If a value cannot be read, what follows is missing even if it can be read. *)
Theorem C102_missing_refuted : exists getxattr fsdecode escape keys k v l, In k keys /\ getxattr k = Some v /\ fsdecode v = Some v /\
  get_value (xattr getxattr fsdecode escape false true (Some keys)) ($"xattrs") = Ok (VList l) /\ ~ In (k ++ $"=" ++ v) l.
Proof.
  exists (fun k => if str_eqb k ($"user.a") then None else Some ($"1")), Some, (fun b => b), [$"user.a"; $"user.b"], ($"user.b"), ($"1"), [].
  split; [right; now left|]. split; [reflexivity|]. split; [reflexivity|]. split; [vm_compute; reflexivity|intros []].
Qed.
Print Assumptions C102_missing_refuted.
(** The list determines keys and values if the keys are free of "=". *)
Theorem C102_determines_partial : forall fsdecode get get' d f d' f' keys keys' vals vals' l, d || f = true -> d' || f' = true ->
  (forall b, exists v, fsdecode b = Some v) -> (forall b b', fsdecode b = fsdecode b' -> b = b') ->
  Forall2 (fun k v => get k = Some v) keys vals -> Forall2 (fun k v => get' k = Some v) keys' vals' ->
  Forall (fun k => ~ In 61%N k) keys -> Forall (fun k => ~ In 61%N k) keys' ->
  (forall escape, get_value (xattr get fsdecode escape d f (Some keys)) ($"xattrs") = Ok (VList l)) ->
  (forall escape, get_value (xattr get' fsdecode escape d' f' (Some keys')) ($"xattrs") = Ok (VList l)) ->
  combine keys vals = combine keys' vals'.
Proof. exact xattr_determines. Qed.
Print Assumptions C102_determines_partial.
(** Otherwise it does not. *)
Theorem C102_refuted : exists get get' keys keys', keys <> keys' /\ (forall k, In k keys -> get k <> None) /\ (forall k, In k keys' -> get' k <> None) /\
  get_value (xattr get Some (fun b => b) false true (Some keys)) ($"xattrs") = get_value (xattr get' Some (fun b => b) false true (Some keys')) ($"xattrs").
Proof.
  exists (fun _ => Some ($"b=c")), (fun _ => Some ($"c")), [$"user.a"], [$"user.a=b"].
  split; [discriminate|]. split; [discriminate|]. split; [discriminate|]. vm_compute. reflexivity.
Qed.
Print Assumptions C102_refuted.
Example C102_example : let get := fun k : str => if str_eqb k ($"user.a") then Some ($"1") else if str_eqb k ($"user.b") then Some ($"x=y") else None in
  Forall2 (fun k v => get k = Some v) [$"user.a"; $"user.b"] [$"1"; $"x=y"] /\ Forall (fun k => ~ In 61%N k) [$"user.a"; $"user.b"] /\
  (forall b : str, exists v, Some b = Some v) /\ (forall b b' : str, Some b = Some b' -> b = b') /\
  get_value (xattr get Some (fun b => b) true false (Some [$"user.a"; $"user.b"])) ($"xattrs") = Ok (VList [$"user.a=1"; $"user.b=x=y"]).
Proof.
  cbv zeta. split; [repeat constructor|]. split; [repeat constructor; vm_compute; intros K; repeat (destruct K as [K|K]; [discriminate K|]); destruct K|].
  split; [eauto|]. split; [intros b b' E; now injection E|vm_compute; reflexivity].
Qed.
