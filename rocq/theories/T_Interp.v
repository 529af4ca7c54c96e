(** Interpolation: properties C12 and C13. *)
From Verif Require Import Base Num M_Params M_Experience M_Sim L_Num S_Interp L_Interp.
Open Scope R_scope.

(** ** C12: [linear_interp_1d] is the piecewise-linear interpolant *)
Theorem C12_at_grid_points : forall (g v : list R) (k : nat),
  increasing g -> List.length v = List.length g -> (k < List.length g)%nat ->
  linear_interp_1d g v (nth k g 0) = nth k v 0.
Proof. exact interp_at_grid. Qed.

Theorem C12_chord_between_neighbours : forall (g v : list R) (k : nat) (x : R),
  increasing g -> List.length v = List.length g -> (S k < List.length g)%nat ->
  nth k g 0 <= x <= nth (S k) g 0 ->
  linear_interp_1d g v x
  = nth k v 0 + (x - nth k g 0) / (nth (S k) g 0 - nth k g 0) * (nth (S k) v 0 - nth k v 0).
Proof. exact interp_between. Qed.

Theorem C12_within_neighbours : forall (g v : list R) (k : nat) (x : R),
  increasing g -> List.length v = List.length g -> (S k < List.length g)%nat ->
  nth k g 0 <= x <= nth (S k) g 0 ->
  Rmin (nth k v 0) (nth (S k) v 0) <= linear_interp_1d g v x <= Rmax (nth k v 0) (nth (S k) v 0).
Proof. exact interp_neighbour_range. Qed.

(** holds outside the grid as well (linear extrapolation) *)
Theorem C12_monotone_in_query : forall (g v : list R) (x y : R),
  increasing g -> (1 <= List.length g)%nat -> List.length v = List.length g ->
  nondecreasing v -> x <= y ->
  linear_interp_1d g v x <= linear_interp_1d g v y.
Proof. exact interp_mono_query. Qed.

(** outside the grid the first/last chord is continued *)
Theorem C12_extrapolation_below : forall (g v : list R) (x : R),
  increasing g -> (2 <= List.length g)%nat -> List.length v = List.length g -> x < nth 0 g 0 ->
  linear_interp_1d g v x = grid_chord g v 0 x.
Proof. exact interp_below. Qed.

Theorem C12_extrapolation_above : forall (g v : list R) (x : R),
  increasing g -> (2 <= List.length g)%nat -> List.length v = List.length g ->
  nth (List.length g - 1) g 0 < x ->
  linear_interp_1d g v x = grid_chord g v (List.length g - 2) x.
Proof. exact interp_above. Qed.

Theorem C12_single_point : forall (g0 v0 x : R), linear_interp_1d [g0] [v0] x = v0.
Proof. exact interp_single. Qed.

(** non-trivial instance: an increasing, non-uniform grid with a query between points *)
Example C12_hypotheses_met :
  increasing [0; 1/4; 1] /\ nondecreasing [1; 2; 4] /\
  linear_interp_1d [0; 1/4; 1] [1; 2; 4] (1/2) = 8/3.
Proof.
  assert (H : increasing [0; 1/4; 1]).
  { intros i j [H1 H2]. simpl in H2.
    destruct i as [|[|[|?]]]; destruct j as [|[|[|?]]]; simpl; try lia; lra. }
  split; [exact H|split].
  - intros i j [H1 H2]. simpl in H2.
    destruct i as [|[|[|?]]]; destruct j as [|[|[|?]]]; simpl; try lia; lra.
  - rewrite (C12_chord_between_neighbours _ _ 1 (1/2)); simpl; try lia; try lra; assumption.
Qed.

(** ** C13: solver and simulator interpolation *)
Theorem C13_same_on_uniform_grid : forall (v : list R) (s : R),
  (2 <= List.length v)%nat -> 0 <= s <= 1 ->
  interp_uniform_grid v s = Ok (linear_interp_1d (uniform_grid (List.length v)) v s).
Proof. exact interp_uniform_eq. Qed.

(** one grid point: both return the only value *)
Theorem C13_single_point : forall (v0 g0 s : R),
  interp_uniform_grid [v0] s = Ok v0 /\ linear_interp_1d [g0] [v0] s = v0.
Proof. exact interp_both_single. Qed.

(** outside [0,1] the simulator uses the nearest end point, the solver extrapolates *)
Theorem C13_simulator_clips : forall (v : list R) (s : R), (2 <= List.length v)%nat ->
  (1 <= s -> interp_uniform_grid v s = Ok (nth (List.length v - 1) v 0)) /\
  (s <= 0 -> interp_uniform_grid v s = Ok (nth 0 v 0)).
Proof. exact interp_uniform_outside. Qed.

(** the claim for every user-supplied grid, and why it fails *)
Definition C13_any_grid : Prop := forall (g v : list R) (s : R),
  increasing g -> List.length v = List.length g -> (2 <= List.length g)%nat ->
  nth 0 g 0 = 0 -> nth (List.length g - 1) g 0 = 1 -> 0 <= s <= 1 ->
  interp_uniform_grid v s = Ok (linear_interp_1d g v s).

Theorem C13_any_grid_refuted : ~ C13_any_grid.
Proof. exact interp_nonuniform_differs. Qed.

Example C13_instance :
  interp_uniform_grid [1; 2; 4] (3/4) = Ok 3.
Proof. exact interp_uniform_instance. Qed.

Print Assumptions C12_at_grid_points.
Print Assumptions C12_chord_between_neighbours.
Print Assumptions C12_within_neighbours.
Print Assumptions C12_monotone_in_query.
Print Assumptions C12_extrapolation_below.
Print Assumptions C12_extrapolation_above.
Print Assumptions C12_single_point.
Print Assumptions C13_same_on_uniform_grid.
Print Assumptions C13_single_point.
Print Assumptions C13_simulator_clips.
Print Assumptions C13_any_grid_refuted.
