(** Where a number belongs in a sorted list. *)
From Coq Require Import Reals ZArith List.
Open Scope R_scope.

(** [r] entries are up to [x], and they are the first ones *)
Definition belongs (g : list R) (x : R) (r : Z) : Prop :=
  (0 <= r <= Z.of_nat (length g))%Z /\
  forall i, (i < length g)%nat -> if (Z.of_nat i <? r)%Z then nth i g 0 <= x else x < nth i g 0.
