(** What durations and sizes are supposed to mean, independent of the code. *)
From Coq Require Import List NArith ZArith Bool.
From Verif Require Import Py.
Import ListNotations.
Local Open Scope Z_scope.

(** The number written by a string of decimal digits. *)
Fixpoint decimal (s : str) : Z :=
  match s with
  | [] => 0
  | c :: t => (Z.of_N c - 48) * 10 ^ Z.of_nat (length t) + decimal t
  end.
Definition digits (s : str) : Prop := s <> [] /\ forall c, In c s -> (48 <= c <= 57)%N.

(** Units of time in seconds: 30 days per month, 365 days per year. *)
Inductive unit_of : char -> Z -> Prop :=
| u_s : unit_of 115%N 1
| u_m : unit_of 109%N 60
| u_h : unit_of 104%N (60 * 60)
| u_d : unit_of 100%N (24 * 60 * 60)
| u_w : unit_of 119%N (7 * 24 * 60 * 60)
| u_M : unit_of 77%N (30 * 24 * 60 * 60)
| u_y : unit_of 121%N (365 * 24 * 60 * 60).

(** [Duration s v]: the string is a sequence of <number><unit>, worth v seconds. *)
Inductive Duration : str -> Z -> Prop :=
| dur_nil : Duration [] 0
| dur_cons ds u k s v : digits ds -> unit_of u k -> Duration s v ->
    Duration (ds ++ u :: s) (decimal ds * k + v).

(** The language actually accepted: the character after the digits may be any
    character that is not a digit, and is worth nothing if it is no unit. *)
Definition weight (c : char) (k : Z) : Prop :=
  unit_of c k \/ ((forall k', ~ unit_of c k') /\ ~ (48 <= c <= 57)%N /\ k = 0).
Inductive Sloppy : str -> Z -> Prop :=
| slo_nil : Sloppy [] 0
| slo_cons ds c k s v : digits ds -> weight c k -> Sloppy s v ->
    Sloppy (ds ++ c :: s) (decimal ds * k + v).

(** Prefixes of sizes with their exponents; case does not matter. *)
Definition prefixes : list (char * Z) :=
  [ (75%N, 1); (77%N, 2); (71%N, 3); (84%N, 4);
    (80%N, 5); (69%N, 6); (90%N, 7); (89%N, 8) ].
Definition prefix_exp (c : char) (k : Z) : Prop :=
  exists u, In (u, k) prefixes /\ (c = u \/ c = u + 32)%N.
Definition isB (c : char) : Prop := c = 66%N \/ c = 98%N.
Definition isI (c : char) : Prop := c = 73%N \/ c = 105%N.
(** [SizeUnit s b]: the unit s stands for b bytes. *)
Inductive SizeUnit : str -> Z -> Prop :=
| su_short c k : prefix_exp c k -> SizeUnit [c] (1024 ^ k)
| su_iec c i b k : prefix_exp c k -> isI i -> isB b -> SizeUnit [c; i; b] (1024 ^ k)
| su_si c b k : prefix_exp c k -> isB b -> SizeUnit [c; b] (1000 ^ k).
(** [SizeText s]: the shapes that are sizes. *)
Inductive SizeText : str -> Prop :=
| st_bytes ds : digits ds -> SizeText ds
| st_b ds b : digits ds -> isB b -> SizeText (ds ++ [b])
| st_int ds u n : digits ds -> SizeUnit u n -> SizeText (ds ++ u)
| st_dec ds es u n : digits ds -> digits es -> SizeUnit u n -> SizeText (ds ++ 46%N :: es ++ u).
