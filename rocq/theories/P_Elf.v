(** C119: elf.sonames are the shared objects an executable needs. *)
From Coq Require Import List NArith ZArith Bool Permutation Sorted.
From Verif Require Import Py TypeModel PluginModel ElfModel ElfSpec ElfProofs.
Import ListNotations.
Open Scope N_scope.

(** Every name as often as it is asked for, in the order of code points; there
    is only one such list. *)
Theorem C119_sonames_partial : forall s ss l, Magic s -> Names ss l ->
  exists m, get_value (elf true (Some s) ss End) ($"sonames") = Ok (VList m) /\ Permutation l m /\ StronglySorted Before m /\
  forall m', Permutation l m' -> StronglySorted Before m' -> m' = m.
Proof.
  exact (fun s ss l M N => match elf_names s ss l M N with
    | ex_intro _ m (conj G (conj P T)) => ex_intro _ m (conj G (conj P (conj T (fun m' P' T' => elf_unique l m' m P' T' P T))))
    end).
Qed.
Print Assumptions C119_sonames_partial.
Example C119_sonames_example : Magic (127 :: $"ELFxyz") /\
  Names [Other; Dynamic [($"DT_NEEDED", $"libm.so.6"); ($"DT_STRTAB", $"0"); ($"DT_NEEDED", $"libc.so.6")]] [$"libm.so.6"; $"libc.so.6"] /\
  get_value (elf true (Some (127 :: $"ELFxyz")) [Other; Dynamic [($"DT_NEEDED", $"libm.so.6"); ($"DT_STRTAB", $"0"); ($"DT_NEEDED", $"libc.so.6")]] End) ($"sonames") =
  Ok (VList [$"libc.so.6"; $"libm.so.6"]).
Proof.
  split; [exists ($"xyz"); reflexivity|]. split; [|vm_compute; reflexivity]. constructor. constructor. constructor; [discriminate|]. constructor. constructor. constructor.
Qed.
(** Everything else has no such attribute: what is not a file, cannot be read
    or does not begin with the magic number, and files that are damaged, even if
    the damage is behind the names. *)
Theorem C119_other : forall f c ss e, ~ (f = true /\ exists s, c = Some s /\ Magic s) -> get_data (elf f c ss e) = Ok [].
Proof. exact elf_other. Qed.
Print Assumptions C119_other.
Theorem C119_damaged : forall f c ss e, e = ElfOSError \/ e = ELFError -> get_data (elf f c ss e) = Ok [].
Proof. exact elf_damaged. Qed.
Print Assumptions C119_damaged.
Example C119_other_example : ~ (true = true /\ exists s, Some ($"#!/bin/sh") = Some s /\ Magic s).
Proof. intros [_ (s & E & t & ->)]. discriminate E. Qed.
(** The full statement: every file that begins with the magic number has a value
    or none.  It is false: exceptions of pyelftools other than ELFError stop ff. *)
Theorem C119_total_refuted : exists c ss, get_data (elf true c ss ElfUnhandled) = Err PluginErr.
Proof. exists (Some [127; 69; 76; 70]), []. apply elf_fails. now exists []. Qed.
Print Assumptions C119_total_refuted.
