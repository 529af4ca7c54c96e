(** When working today changes nothing tomorrow (C94). *)
From Coq Require Import Reals ZArith List.
From Verif Require Import Base Num M_Params S_StateSpace S_Benefits S_Bellman.
Import ListNotations.
Open Scope R_scope.

(** [home] is a set of households (age of youngest child, partner) that is never left: what
    can happen with positive probability leads back to it *)
Definition never_left (sp : model_spec R) (p_child : Z -> Z -> R) (p_partner : Z -> Z -> Z -> Z -> R)
    (home : Z -> Z -> Prop) : Prop :=
  forall t e a m m', (0 <= t < num_periods sp - 1)%Z -> (0 <= e < num_educ_levels sp)%Z ->
  (-1 <= a <= child_age_max sp)%Z -> (0 <= m < 2)%Z -> (0 <= m' < 2)%Z ->
  home a m -> p_partner t e m m' <> 0 ->
  (p_child t e <> 1 -> home (aged sp a) m') /\ (p_child t e <> 0 -> home 0%Z m').

(** the best flow utility of these households does not depend on last period's choice or on
    experience *)
Definition past_is_forgotten (sp : model_spec R) (mp : model_params R) (elterngeld biased : bool)
    (draws : list (R * R)) (home : Z -> Z -> Prop) : Prop :=
  forall t e l l' ty a m x x' z w, in_space sp t e l ty a m -> in_space sp t e l' ty a m -> home a m ->
  In x (exp_grid sp) -> In x' (exp_grid sp) -> In (z, w) draws ->
  best3 (fun c => flow sp mp elterngeld biased t e l ty a m x c z)
  = best3 (fun c => flow sp mp elterngeld biased t e l' ty a m x' c z).

(** basic support of a childless single *)
Definition support (sp : model_spec R) : R := regelsatz_single sp + housing_single sp.

(** full-time work at hourly wage w, or the unemployment benefit after a job at wage w0,
    gives a childless single no more than basic support *)
Definition not_worth_it (sp : model_spec R) (w0 w : R) : Prop :=
  38 * w <= support sp /\ alg1_replacement_no_child sp * (65/100 * w0) * 38 <= support sp.
