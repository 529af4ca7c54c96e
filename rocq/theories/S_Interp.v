(** Specification of piecewise-linear interpolation. *)
From Coq Require Import Reals List.
Import ListNotations.
Open Scope R_scope.

(** strictly increasing list *)
Definition increasing (g : list R) : Prop :=
  forall i j, (i < j < length g)%nat -> nth i g 0 < nth j g 0.

(** non-decreasing list *)
Definition nondecreasing (v : list R) : Prop :=
  forall i j, (i <= j < length v)%nat -> nth i v 0 <= nth j v 0.

(** the line through (x0, v0) and (x1, v1) *)
Definition chord (x0 x1 v0 v1 x : R) : R := v0 + (x - x0) / (x1 - x0) * (v1 - v0).

(** the chord over the k-th interval of a grid *)
Definition grid_chord (g v : list R) (k : nat) (x : R) : R :=
  chord (nth k g 0) (nth (S k) g 0) (nth k v 0) (nth (S k) v 0) x.

(** the uniform grid 0, 1/(n-1), ..., 1 *)
Definition uniform_grid (n : nat) : list R :=
  map (fun k => INR k / INR (n - 1)) (seq 0 n).
