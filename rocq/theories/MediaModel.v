(** Model of the plugins medium (libff/builtin/media.py), fs (plugins/fs.py) and
    xattr (plugins/xattr.py).  What pymediainfo, mimetypes and the kernel say are
    arguments. *)
From Coq Require Import List NArith ZArith Bool.
From Verif Require Import Py OsPath PathModel TypeModel CountModel EntryModel PluginModel.
Import ListNotations.

(** * medium *)

(** track.duration: None, a number, or a text.  Of a text, what float() makes of
    it, as a fraction; None: not a finite number.  Floating point numbers are
    taken as exact; numbers below 2^53 divided by 1000 have the same whole part. *)
Inductive millis := NoMillis | Millis (z : Z) | MillisText (q : option (Z * positive)).
(** A track of pymediainfo; [t_tag]: its other attributes by name.  Missing
    attributes are None. *)
Record track := Track { t_type : str; t_tag : str -> option str; t_width : option Z; t_height : option Z; t_format : option str; t_duration : millis }.
(** The dictionary of prepare_tracks *)
Record tracks := Tracks { audio : option track; video : option track; image : option track; general : list track }.

(** libff/builtin/media.py:62-71, one round of the loop *)
Definition prepare_track (d : tracks) (t : track) : tracks :=
  let k := lower (t_type t) in
  if str_eqb k ($"audio") && match audio d with None => true | Some _ => false end then Tracks (Some t) (video d) (image d) (general d)
  else if str_eqb k ($"video") && match video d with None => true | Some _ => false end then Tracks (audio d) (Some t) (image d) (general d)
  else if str_eqb k ($"image") && match image d with None => true | Some _ => false end then Tracks (audio d) (video d) (Some t) (general d)
  else if str_eqb k ($"general") then Tracks (audio d) (video d) (image d) (general d ++ [t])
  else d.
Definition prepare_tracks (l : list track) : tracks := fold_left prepare_track l (Tracks None None None []).

(** libff/builtin/media.py:92-97 *)
Definition tag_names : list (str * str) :=
  [($"artist", $"performer"); ($"album", $"album"); ($"title", $"title"); ($"genre", $"genre"); ($"date", $"recorded_date")].
Definition track_tags (d : pairs) (t : track) : pairs :=
  fold_left (fun d ka => match t_tag t (snd ka) with Some (c :: v) => dict_set str_eqb (fst ka) (VStr (c :: v)) d | _ => d end) tag_names d.
(** libff/builtin/media.py:101-111 *)
Definition track_size (d : pairs) (t : track) : pairs :=
  match t_height t, t_width t with
  | Some h, Some w => dict_set str_eqb ($"height") (VInt h) (dict_set str_eqb ($"width") (VInt w) d)
  | _, _ => d
  end.
Definition visual (d : pairs) (ts : tracks) : pairs :=
  match video ts with
  | Some t => track_size d t
  | None =>
      match image ts with
      | Some t => track_size match t_format t with Some f => dict_set str_eqb ($"format") (VStr (lower f)) d | None => d end t
      | None => d
      end
  end.
(** libff/builtin/media.py:113-122: int() cuts off *)
Definition track_duration (d : pairs) (t : option track) : out pairs :=
  match t with
  | None => Val d
  | Some t =>
      match t_duration t with
      | NoMillis => Val d
      | Millis z => Val (dict_set str_eqb ($"duration") (VInt (Z.quot z 1000)) d)
      | MillisText (Some (n, q)) => Val (dict_set str_eqb ($"duration") (VInt (Z.quot n (Zpos q * 1000))) d)
      | MillisText None => Raise Unhandled
      end
  end.
(** libff/builtin/media.py:82-124 *)
Definition medium_cache (l : list track) : out pairs :=
  let ts := prepare_tracks l in
  match track_duration (visual (fold_left track_tags (general ts) []) ts) (video ts) with
  | Raise r => Raise r
  | Val d => track_duration d (audio ts)
  end.
(** libff/builtin/media.py:76-80; [guess]: mimetypes.guess_type(entry.name)[0] *)
Definition medium_handles (guess : option str) : bool :=
  match guess with
  | None | Some [] => false
  | Some m => match split_on SLASH m with t :: _ => str_in t [$"image"; $"audio"; $"video"] | [] => false end
  end.
(** [parsed]: the tracks; None: OSError or RuntimeError *)
Definition medium (guess : option str) (parsed : option (list track)) : run pairs :=
  Run (Val (medium_handles guess)) (Some match parsed with None => Raise NoData | Some l => medium_cache l end)
    (fun c => match c with Some d => Val d | None => Raise Unhandled end).

(** * fs *)

(** plugins/fs.py:28-67 *)
Definition fs_types : list (N * (str * bool)) := [
  (1633904243%N, ($"acfs", true)); (44533%N, ($"adfs", false)); (44543%N, ($"affs", false)); (1397113167%N, ($"afs", true));
  (151263540%N, ($"anon-inode FS", false)); (1635083891%N, ($"aufs", true)); (391%N, ($"autofs", false)); (1111905073%N, ($"befs", false));
  (1650746742%N, ($"bdevfs", false)); (464386766%N, ($"bfs", false)); (3405662737%N, ($"bpf_fs", false)); (1112100429%N, ($"binfmt_misc", false));
  (2435016766%N, ($"btrfs", false)); (1936880249%N, ($"btrfs_test", false)); (12805120%N, ($"ceph", true)); (2613483%N, ($"cgroupfs", false));
  (4283649346%N, ($"cifs", true)); (1937076805%N, ($"coda", true)); (19920823%N, ($"coh", false)); (1650812272%N, ($"configfs", false));
  (684539205%N, ($"cramfs", false)); (1161678120%N, ($"cramfs-wend", false)); (1684170528%N, ($"debugfs", false)); (4979%N, ($"devfs", false));
  (7377%N, ($"devpts", false)); (61791%N, ($"ecryptfs", false)); (3730735588%N, ($"efivarfs", false)); (4278867%N, ($"efs", false));
  (24053%N, ($"exofs", false)); (4989%N, ($"ext", false)); (61267%N, ($"ext2/ext3", false)); (61265%N, ($"ext2", false));
  (4076150800%N, ($"f2fs", false)); (16390%N, ($"fat", false)); (428016422%N, ($"fhgfs", true)); (1702057286%N, ($"fuseblk", true));
  (1702057283%N, ($"fusectl", true)); (195894762%N, ($"futexfs", false)); (18225520%N, ($"gfs/gfs2", true)); (1196443219%N, ($"gpfs", true));
  (16964%N, ($"hfs", false)); (18475%N, ($"hfs+", false)); (18520%N, ($"hfsx", false)); (12648430%N, ($"hostfs", false));
  (4187351113%N, ($"hpfs", false)); (2508478710%N, ($"hugetlbfs", false)); (288389204%N, ($"inodefs", false)); (19993000%N, ($"ibrix", true));
  (732765674%N, ($"inotifyfs", false)); (38496%N, ($"isofs", false)); (16388%N, ($"isofs", false)); (16384%N, ($"isofs", false));
  (1984%N, ($"jffs", false)); (29366%N, ($"jffs2", false)); (827541066%N, ($"jfs", false)); (1799439955%N, ($"k-afs", true));
  (3380511080%N, ($"logfs", false)); (198183888%N, ($"lustre", true)); (4991%N, ($"minix", false)); (5007%N, ($"minix (30 char.)", false));
  (9320%N, ($"minix v2", false)); (9336%N, ($"minix v2 (30 char.)", false)); (19802%N, ($"minix3", false)); (427819522%N, ($"mqueue", false));
  (19780%N, ($"msdos", false)); (22092%N, ($"novell", true)); (26985%N, ($"nfs", true)); (1852207972%N, ($"nfsd", true));
  (13364%N, ($"nilfs", false)); (1853056627%N, ($"nsfs", false)); (1397118030%N, ($"ntfs", false)); (40865%N, ($"openprom", false));
  (1952539503%N, ($"ocfs2", true)); (2035054128%N, ($"overlayfs", true)); (2866260714%N, ($"panfs", true)); (1346981957%N, ($"pipefs", true));
  (40864%N, ($"proc", false)); (1634035564%N, ($"pstorefs", false)); (47%N, ($"qnx4", false)); (1746473250%N, ($"qnx6", false));
  (2240043254%N, ($"ramfs", false)); (1382369651%N, ($"reiserfs", false)); (29301%N, ($"romfs", false)); (1733912937%N, ($"rpc_pipefs", false));
  (1935894131%N, ($"securityfs", false)); (4185718668%N, ($"selinux", false)); (1128357203%N, ($"smackfs", false)); (20859%N, ($"smb", true));
  (3203391149%N, ($"snfs", true)); (1397703499%N, ($"sockfs", false)); (1936814952%N, ($"squashfs", false)); (1650812274%N, ($"sysfs", false));
  (19920822%N, ($"sysv2", false)); (19920821%N, ($"sysv4", false)); (16914836%N, ($"tmpfs", false)); (1953653091%N, ($"tracefs", false));
  (604313861%N, ($"ubifs", false)); (352400198%N, ($"udf", false)); (72020%N, ($"ufs", false)); (1410924800%N, ($"ufs", false));
  (40866%N, ($"usbdevfs", false)); (16914839%N, ($"v9fs", false)); (3133910204%N, ($"vmhgfs", true)); (2768370933%N, ($"vxfs", true));
  (1448756819%N, ($"vzfs", false)); (2881100148%N, ($"xenfs", false)); (19920820%N, ($"xenix", false)); (1481003842%N, ($"xfs", false));
  (19911021%N, ($"xia", false)); (801189825%N, ($"zfs", false))
  ].
Section Fs.
  (** statfs64: the first 32 bits of its answer; None: -1 *)
  Variable statfs : str -> option N.
  Variable cwd : str.
  (** plugins/fs.py:81-96; OSError is not caught *)
  Definition get_fs_type (path : str) : out (str * bool) :=
    match statfs path with
    | None => Raise Unhandled
    | Some n => Val match dict_get N.eqb n fs_types with Some x => x | None => ($"unknown", false) end
    end.
  (** plugins/fs.py:98-110 *)
  Definition fs (e : entry) : run unit :=
    Run (Val true) None (fun _ =>
      let path := if S_ISDIR (st_mode (e_status e)) then abspath cwd (e_path e) else abspath cwd (e_dir e) in
      match get_fs_type path with
      | Raise r => Raise r
      | Val (name, remote) => Val [($"type", VStr name); ($"remote", VBool remote)]
      end).
End Fs.

(** * xattr *)

Section Xattr.
  (** os.getxattr for this file (None: OSError); os.fsdecode (None:
      UnicodeDecodeError) and bytes.decode(…, "backslashreplace") *)
  Variable getxattr : str -> option str.
  Variable fsdecode : str -> option str.
  Variable escape : str -> str.
  (** plugins/xattr.py:41-47 *)
  Fixpoint xattr_loop (keys : list str) : list str :=
    match keys with
    | [] => []
    | key :: keys =>
        match getxattr key with
        | None => []
        | Some b => (key ++ $"=" ++ match fsdecode b with Some v => v | None => escape b end) :: xattr_loop keys
        end
    end.
  (** plugins/xattr.py:35-51; [keys]: os.listxattr *)
  Definition xattr (is_dir is_file : bool) (keys : option (list str)) : run unit :=
    Run (Val (is_dir || is_file)) None (fun _ => Val [($"xattrs", VList match keys with None => [] | Some l => xattr_loop l end)]).
End Xattr.
