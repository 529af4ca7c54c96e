(** Vocabulary for the consistency test of values and simulated utility (C101). *)
From Coq Require Import Reals ZArith List.
From Verif Require Import Base Num M_Params M_Sim S_StateSpace S_Bellman S_Solver S_Sim S_GridSim S_Stability S_AuxFuncs S_Expect.
Import ListNotations.
Open Scope R_scope.

(** the surprises of an agent who enters in period 0 *)
Definition life_surprises (sp : model_spec R) (data : list (out_row R)) (first : out_row R) (ss : list R) : Prop :=
  row_period first = 0%Z /\ exists rs, career (num_periods sp - 1) data (first :: rs) /\ surprises (first :: rs) ss.

(** being childless and single is left with probability at most [q] per period *)
Definition rarely_left (q : R) (sp : model_spec R) (p_child : Z -> Z -> R) (p_partner : Z -> Z -> Z -> Z -> R) : Prop :=
  forall t e, (0 <= t < num_periods sp - 1)%Z -> (0 <= e < num_educ_levels sp)%Z ->
  1 - q <= (1 - p_child t e) * p_partner t e 0%Z 0%Z.

(** the best flow utility in any state of the solver differs from [u] by at most [d] *)
Definition best_near (d u : R) (sp : model_spec R) (mp : model_params R) (elterngeld biased : bool) (draws : list (R * R)) : Prop :=
  forall t e l ty a m x z w, in_space sp t e l ty a m -> In x (exp_grid sp) -> In (z, w) draws ->
  near d u (best3 (fun c => flow sp mp elterngeld biased t e l ty a m x c z)).

(** childless singles: not working gives [u], working not more *)
Definition idle_best (u : R) (sp : model_spec R) (mp : model_params R) (elterngeld biased : bool) (draws : list (R * R)) : Prop :=
  forall t e l ty x z w, in_space sp t e l ty (-1) 0 -> In x (exp_grid sp) -> In (z, w) draws ->
  flow sp mp elterngeld biased t e l ty (-1) 0 x 0 z = u /\
  forall c, (1 <= c <= 2)%Z -> flow sp mp elterngeld biased t e l ty (-1) 0 x c z <= u.

(** by how much the continuation value of a childless single may differ from [later], [n]
    periods before the last *)
Fixpoint drift (q d delta : R) (n : nat) : R :=
  match n with O => 0 | S n' => q * (d * geometric delta n') + delta * drift q d delta n' end.

(** discounted payments [u] from the next period on *)
Definition later (u delta : R) (n : nat) : R := match n with O => 0 | S n' => u * geometric delta n' end.
