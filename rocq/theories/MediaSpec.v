(** What the attributes of media say; file systems; extended attributes. *)
From Coq Require Import List NArith ZArith Bool.
From Verif Require Import Py ArgumentsSpec MediaModel.
Import ListNotations.

(** ** Tracks.  The kind of a track, in lower case. *)
Definition kind (t : track) : str := lower (t_type t).
Definition First (k : str) (l : list track) (t : track) : Prop :=
  exists a b, l = a ++ t :: b /\ kind t = k /\ Forall (fun x => kind x <> k) a.
Definition no_track (k : str) (l : list track) : Prop := Forall (fun x => kind x <> k) l.
(** The value of a tag: that of the last general track which has one. *)
Definition empty_tag (n : str) (t : track) : Prop := t_tag t n = None \/ t_tag t n = Some [].
Definition Tag (n : str) (l : list track) (v : str) : Prop :=
  exists a t b, l = a ++ t :: b /\ kind t = $"general" /\ t_tag t n = Some v /\ v <> [] /\
    Forall (fun x => kind x = $"general" -> empty_tag n x) b.
(** What is to be seen: the first video, without videos the first image. *)
Definition Seen (l : list track) (t : track) : Prop :=
  First ($"video") l t \/ (no_track ($"video") l /\ First ($"image") l t).
Definition Size (l : list track) (w h : Z) : Prop := exists t, Seen l t /\ t_width t = Some w /\ t_height t = Some h.
Definition Format (l : list track) (f : str) : Prop :=
  no_track ($"video") l /\ exists t, First ($"image") l t /\ t_format t = Some f.
(** The duration of a track in seconds, cut off *)
Definition Lasts (t : track) (s : Z) : Prop :=
  match t_duration t with
  | NoMillis | MillisText None => False
  | Millis z => s = (z / 1000)%Z
  | MillisText (Some (n, q)) => s = (n / (Zpos q * 1000))%Z
  end.
Definition Duration (l : list track) (s : Z) : Prop :=
  (exists t, First ($"audio") l t /\ Lasts t s) \/
  ((forall t u, First ($"audio") l t -> ~ Lasts t u) /\ exists t, First ($"video") l t /\ Lasts t s).
(** Durations are numbers, and not negative. *)
Definition clear_duration (t : track) : Prop :=
  match t_duration t with
  | NoMillis => True
  | Millis z => (0 <= z)%Z
  | MillisText (Some (n, _)) => (0 <= n)%Z
  | MillisText None => False
  end.
(** The main type of a MIME type *)
Definition main_type (m t : str) : Prop := ~ In 47%N t /\ (m = t \/ exists s, m = t ++ 47%N :: s).

(** ** Directories of a file system with symbolic links: [links] says where the
    link at a place leads (to a place without links). *)
Fixpoint follow (links : list str -> option (list str)) (at_ : list str) (path : list str) : list str :=
  match path with
  | [] => at_
  | c :: path =>
      if str_eqb c [] || str_eqb c ($".") then follow links at_ path
      else if str_eqb c ($"..") then follow links (removelast at_) path
      else follow links match links (at_ ++ [c]) with Some t => t | None => at_ ++ [c] end path
  end.
Definition reached (links : list str -> option (list str)) (cwd : list str) (path : str) : list str :=
  follow links (if absolute path then [] else cwd) (split_on 47%N path).
