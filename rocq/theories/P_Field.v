(** Property C69: the syntax of fields. *)
From Coq Require Import List NArith ZArith Bool.
From Verif Require Import Py TypeModel RegistryModel FieldModel FieldSyntax FieldSyntaxProofs.
Import ListNotations.

(** A text is accepted if and only if it is a field surrounded by blanks whose
    attribute exists; the parts are those of the text. *)
Theorem C69_accepted : forall registered init s f, make_field registered init s = Ok f <->
  exists l t r name w m a ty, s = l ++ t ++ r /\ blanks l /\ blanks r /\ FieldText t name w m /\
    setup_attribute registered init name = Ok a /\ get_attribute_type registered a = Ok ty /\ f = Field a name ty w m.
Proof. exact make_field_iff. Qed.
(** Every other text is a usage error. *)
Theorem C69_refused : forall registered init s,
  (forall l t r name w m, s = l ++ t ++ r -> blanks l -> blanks r -> ~ FieldText t name w m) -> make_field registered init s = Err UsageError.
Proof.
  intros registered init s H. apply make_field_other. intros name w m F. apply strip_field in F as (l & t & r & E & Hl & Hr & F).
  exact (H l t r name w m E Hl Hr F).
Qed.
(** A text can be read in one way only. *)
Theorem C69_unique : forall t name w m name' w' m', FieldText t name w m -> FieldText t name' w' m' -> name = name' /\ w = w' /\ m = m'.
Proof. exact field_text_unique. Qed.
(** The width of a field is an integer, so that padding cannot fail. *)
Theorem C69_width : forall registered init s f w, make_field registered init s = Ok f -> f_width f = Some w ->
  py_int w = Some (match w with c :: ds => if (c =? 45)%N then - Z.of_N (digits_val ds) else Z.of_N (digits_val w) | [] => 0 end)%Z.
Proof. exact make_field_width. Qed.
Example C69_example : make_field [file_plugin] (fun _ => Ok tt) ($" file.size:-10h ") = Ok (Field ($"file", $"size") ($"file.size") TSize (Some ($"-10")) (Some ($"h"))) /\
  make_field [file_plugin] (fun _ => Ok tt) ($"size:") = Ok (Field ($"file", $"size") ($"size") TSize None None) /\
  make_field [file_plugin] (fun _ => Ok tt) ($"size:h10") = Err UsageError /\ make_field [file_plugin] (fun _ => Ok tt) ($"s") = Err UsageError.
Proof. repeat split; reflexivity. Qed.
Example C69_text : FieldText ($"file.size:-10h") ($"file.size") (Some ($"-10")) (Some ($"h")).
Proof.
  apply (ft_full ($"file.size") (Some ($"-10")) (Some ($"h"))).
  - right. exists ($"file"), ($"size"). split; [|split; [|reflexivity]]; eexists _, _, _; (split; [reflexivity|]); unfold letter, wordchar, digit, letter;
      (split; [|split]); try (intros x H; repeat (destruct H as [<-|H]; [left; left; split; discriminate|]); destruct H); left; try left; split; discriminate.
  - intros s [= <-]. exists ($"10"). split; [now right|]. split; [discriminate|]. intros x [<-|[<-|[]]]; split; discriminate.
  - intros s [= <-]. now left.
Qed.
Print Assumptions C69_accepted.
Print Assumptions C69_refused.
Print Assumptions C69_unique.
Print Assumptions C69_width.
