(** Pickled tables with the labels of their rows. *)
From Coq Require Import Reals ZArith List.
Import ListNotations.

(** one row: period, education level, value *)
Definition labelled := list (Z * Z * R).

(** the rows come period by period, and in each period by education level, without repetition *)
Definition in_order (f : labelled) : Prop :=
  forall i j p e v p' e' v', (i < j)%nat -> nth_error f i = Some (p, e, v) -> nth_error f j = Some (p', e', v') ->
  (p < p' \/ p = p' /\ e < e')%Z.

(** periods from 0 on, education levels below [levels] *)
Definition labels_within (levels : Z) (f : labelled) : Prop :=
  forall p e v, In (p, e, v) f -> (0 <= p /\ 0 <= e < levels)%Z.

(** within every period (or education level) the second labels increase; the periods may come in
    any order *)
Definition in_order_within (f : labelled) : Prop :=
  forall i j p e v e' v', (i < j)%nat -> nth_error f i = Some (p, e, v) -> nth_error f j = Some (p, e', v') -> (e < e')%Z.
