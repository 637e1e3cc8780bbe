(** A directory src with a mount point src/mnt, which contains a directory, an
    empty directory and an empty file. *)
From Coq Require Import List NArith ZArith Bool Lia.
From Verif Require Import Py OsPath EntryModel PathModel TypeModel RegistryModel ArgumentsModel SearchModel SearchSpec SearchTreeProofs SearchRuns
  LinkModel AttributeModel AttributeProofs DeviceSpec.
Import ListNotations.
Local Open Scope Z_scope.

Definition dx_file (n : str) (mode size dev : Z) (l : list file) : file := File n (Status mode size dev) l.
Definition dx_empty : file := dx_file ($"old") 16877 4096 2 [].
Definition dx_zero : file := dx_file ($"zero") 33188 0 2 [].
Definition dx_mnt : file := dx_file ($"mnt") 16877 4096 2 [dx_empty; dx_zero].
Definition dx_listing (d : str) : list file := [dx_mnt].
Definition dx_scandir (p : str) : option (list str) :=
  if str_eqb p ($"src/mnt") then Some [$"old"; $"zero"] else if str_eqb p ($"src/mnt/old") then Some [] else None.
Definition dx_realpath (p : str) : str := if str_eqb p ($"src/mnt/..") then $"/home/src" else if str_eqb p ($"src/mnt/old/..") then $"/home/src/mnt" else [].
Definition dx_lstat (p : str) : option Z := if str_eqb p ($"/home/src") then Some 1 else if str_eqb p ($"/home/src/mnt") then Some 2 else None.
(** ff -e mount=yes src *)
Definition dx_args : pargs :=
  PArgs [] [$"src"] [$"mount=yes"] None false false false None ($"auto") false None None None [$"path"] None None false.
Lemma dx_places names f : Place [dx_mnt] names f ->
  In (names, f) [([$"mnt"], dx_mnt); ([$"mnt"; $"old"], dx_empty); ([$"mnt"; $"zero"], dx_zero)].
Proof.
  intros P. induction P as [f Hf|names g f Hg IH D Hf].
  - destruct Hf as [<-|[]]. now left.
  - destruct IH as [E|[E|[E|[]]]]; injection E as <- <-; cbn in Hf.
    + destruct Hf as [<-|[<-|[]]]; [right; left; reflexivity|right; right; left; reflexivity].
    + destruct Hf.
    + destruct Hf.
Qed.
Lemma parent_inv l D k n p : ParentDevice l D (k ++ [n]) p -> (k = [] /\ p = D) \/ exists g, Place l k g /\ p = st_dev (f_status g).
Proof.
  intros H. inversion H as [m E|ns m g Q E].
  - change [m] with ([] ++ [m]) in E. apply app_inj_tail in E as [<- _]. now left.
  - apply app_inj_tail in E as [-> _]. right. eauto.
Qed.
Lemma dx_upwards : upwards dx_realpath dx_lstat ($"/home") ex_device dx_listing dx_args ($"src").
Proof.
  intros names f e p P E D H. apply dx_places in P. destruct P as [K|[K|[K|[]]]]; pose proof (f_equal fst K) as K1; pose proof (f_equal snd K) as K2;
    cbn [fst snd] in K1, K2; subst names f; clear K.
  - apply (parent_inv _ _ [] ($"mnt")) in H as [[_ ->]|(g & Q & _)]; [|now apply place_nonempty in Q].
    vm_compute in E. injection E as <-. split; [reflexivity|]. vm_compute. discriminate.
  - apply (parent_inv _ _ [$"mnt"] ($"old")) in H as [[K _]|(g & Q & ->)]; [discriminate K|].
    apply dx_places in Q. destruct Q as [K|[K|[K|[]]]]; try discriminate (f_equal fst K). pose proof (f_equal snd K) as K2. cbn [snd] in K2. subst g.
    vm_compute in E. injection E as <-. split; [reflexivity|]. vm_compute. discriminate.
  - discriminate D.
Qed.
Lemma dx_valid : valid (contents ($"/home") dx_listing dx_args ($"src")).
Proof.
  change (contents ($"/home") dx_listing dx_args ($"src")) with [dx_mnt].
  match goal with |- valid ?l => let l' := eval vm_compute in l in change l with l' end. validity.
Qed.
Definition dx_value (e : entry) (n : str) : res (option value) :=
  file_attribute (fun _ => Inode 7 1 0 0 (0, 0) (0, 0) (0, 0)) dx_scandir (fun _ => None) dx_realpath (fun _ => true) dx_lstat
    (fun _ => None) (fun _ => None) [] ([], []) e n.
Definition dx_entry (n : str) (st : status) : entry :=
  Entry (Start ($"src") ($"/home/src") 1) n st ($"src/" ++ n) ($"/home/src/" ++ n) ($"src") n false.
