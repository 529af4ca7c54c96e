(** When numpy's sampling functions refuse their arguments, stated without their code:
    numpy/random/mtrand.pyx, [choice] and [binomial]. *)
From Coq Require Import ZArith List Reals String.
From Verif Require Import Base.
Import ListNotations.
Open Scope R_scope.

(** the square root of the machine epsilon 2^-52 *)
Definition tolerance : R := / 2 ^ 26.

Definition sum_of (p : list R) : R := fold_right Rplus 0 p.

(** [p] is a distribution over [k] outcomes, up to the tolerance *)
Definition distribution (k : Z) (p : list R) : Prop :=
  (0 < k)%Z /\ zlen p = k /\ (forall x, In x p -> 0 <= x) /\ Rabs (sum_of p - 1) <= tolerance.

(** what [choice] objects to when [n] values out of [k] are asked for; the first objection
    counts *)
Inductive objection (k : Z) (n : nat) (p : list R) : error -> Prop :=
| obj_empty : k = 0%Z -> n <> 0%nat -> objection k n p (ValueError "'a' cannot be empty unless no samples are taken")
| obj_size : (k <> 0%Z \/ n = 0%nat) -> zlen p <> k -> objection k n p (ValueError "'a' and 'p' must have same size")
| obj_negative x : (k <> 0%Z \/ n = 0%nat) -> zlen p = k -> In x p -> x < 0 -> objection k n p (ValueError "probabilities are not non-negative")
| obj_sum : (k <> 0%Z \/ n = 0%nat) -> zlen p = k -> (forall x, In x p -> 0 <= x) -> tolerance < Rabs (sum_of p - 1) ->
    objection k n p (ValueError "probabilities do not sum to 1").
