(** Model of the attributes of symbolic links: libff/entry.py:133-140. *)
From Coq Require Import List NArith ZArith Bool.
From Verif Require Import Py PathModel EntryModel.
Import ListNotations.

Record links := Links { l_link : option str; l_target : option str; l_broken : bool }.

Section Links.
  (** os.readlink (None: OSError), os.path.realpath, os.path.exists *)
  Variable readlink : str -> option str.
  Variable realpath : str -> str.
  Variable exists_ : str -> bool.

  (** libff/entry.py:133-140; without a link, link and target are not set *)
  Definition link_attributes (e : entry) : res links :=
    if S_ISLNK (st_mode (e_status e)) then
      match readlink (e_path e) with
      | None => Err OSErr
      | Some link =>
          let target := realpath (join (e_dir e) link) in
          Ok (Links (Some link) (Some target) (negb (exists_ target)))
      end
    else Ok (Links None None false).
End Links.
