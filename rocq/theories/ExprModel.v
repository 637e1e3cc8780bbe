(** Model of the way a single test is taken apart,
    /repo/libff/parser.py:94-97 and 168-187. *)
From Coq Require Import List NArith ZArith Bool.
From Verif Require Import Py Re.
Import ListNotations.
Local Open Scope N_scope.

(** libff/parser.py:94-97 expression_regex *)
Definition expression_pattern : str :=
  $"^\s*((?:\w+\.)?\w+?)\s*" ++
  $"(=|:|~|%|>=|>|<=|<|\+=|\+|\-=|\-)" ++
  $"(\{(?:\w+\.)?\w+?\}|\{\})?" ++
  $"\s*(.+)\s*$".
Definition expression_re : re :=
  Eval vm_compute in match compile false expression_pattern with COk r => r | _ => Eps end.
Lemma expression_re_ok : compile false expression_pattern = COk expression_re.
Proof. reflexivity. Qed.

(** str.replace for single characters *)
Definition replace_c (a b : char) (s : str) : str := map (fun c => if N.eqb c a then b else c) s.

(** libff/parser.py:171-179: attribute name, normalised operator, reference
    (without its braces) and value; None if the expression does not match.
    match.groups() gives None only for the third group. *)
Definition split_test (test : str) : option (str * str * option str * str) :=
  match re_match expression_re test with
  | Some (_, cs) =>
      match group 1 cs, group 2 cs, group 4 cs with
      | Some attribute, Some operator, Some value =>
          Some (attribute, replace_c 60 45 (replace_c 62 43 operator),
                option_map (strip_p (fun c => N.eqb c 123 || N.eqb c 125)) (group 3 cs), value)
      | _, _, _ => None
      end
  | None => None
  end.
