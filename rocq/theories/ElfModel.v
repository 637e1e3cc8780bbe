(** Model of the elf plugin: /repo/plugins/introspect.py:49-79. *)
From Coq Require Import List NArith ZArith Bool.
From Verif Require Import Py TypeModel SortLib StrOrder PluginModel.
Import ListNotations.
Open Scope N_scope.

(** What pyelftools gives, in the order of the file: the entries of a dynamic
    section (d_tag and tag.needed) or a section of another class; then the
    end, or an exception: OSError, ELFError or another one. *)
Inductive section := Dynamic (tags : list (str * str)) | Other.
Inductive elf_end := End | ElfOSError | ELFError | ElfUnhandled.
(** plugins/introspect.py:53-64; the names are generated one by one, and an
    exception comes after those before it *)
Fixpoint needed (tags : list (str * str)) : list str :=
  match tags with
  | [] => []
  | (d_tag, name) :: tags => if str_eqb d_tag ($"DT_NEEDED") then name :: needed tags else needed tags
  end.
Definition extract_sonames (sections : list section) (e : elf_end) : list str * option raised :=
  (flat_map (fun s => match s with Dynamic tags => needed tags | Other => [] end) sections,
   match e with End => None | ElfOSError | ELFError => Some NoData | ElfUnhandled => Some Unhandled end).
(** plugins/introspect.py:66-73: the bytes of the file, None: OSError *)
Definition is_elf (is_file : bool) (contents : option str) : bool :=
  is_file && match contents with Some s => str_eqb (firstn 4 s) [127; 69; 76; 70] | None => false end.
(** plugins/introspect.py:66-79 *)
Definition elf (is_file : bool) (contents : option str) (sections : list section) (e : elf_end) : run (list str) :=
  Run (Val (is_elf is_file contents))
    (Some match extract_sonames sections e with
          | (l, None) => Val (isort str_leb l)
          | (_, Some r) => Raise r
          end)
    (fun c => match c with Some l => Val [($"sonames", VList l)] | None => Raise Unhandled end).
