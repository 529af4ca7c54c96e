(** Model of soepy/shared/experience_stock.py, soepy/shared/interpolation.py,
    soepy/shared/wages.py, soepy/shared/non_consumption_utility.py.
    All functions are elementwise in the source; one element is modelled. *)
From Verif Require Import Base Num M_Params.

Section Model.
  Context {T : Type} {NT : Num T}.
  Local Open Scope num_scope.

  (** Array lookup with jax semantics; in simulation the arrays are numpy arrays
      (which raise out of range): education and type are always in range there. *)
  Definition aget (l : list T) (i : Z) : T := jget #0 l i.

  (** experience_stock.py:4-37.  The boolean [little_child] multiplies as 0/1. *)
  Definition get_pt_increment (mp : model_params T) (educ_level child_age : Z)
      (biased_exp : bool) : T :=
    if biased_exp then #1
    else
      let base := aget (gamma_p mp) educ_level in
      let little_child := (0 <=? child_age)%Z && (child_age <=? 2)%Z in
      base + b2n little_child * gamma_p_mom mp.

  (** experience_stock.py:40-42 *)
  Definition max_exp_years (period init_exp_max : Z) (pt_increment : T) : T :=
    #init_exp_max + nmax #period (#period * pt_increment).

  (** experience_stock.py:45-53 *)
  Definition stock_to_exp_years (stock : T) (period init_exp_max : Z) (pt_increment : T) : T :=
    stock * max_exp_years period init_exp_max pt_increment.

  (** experience_stock.py:56-67 *)
  Definition exp_years_to_stock (exp_years : T) (period init_exp_max : Z) (pt_increment : T) : T :=
    let max_years := max_exp_years period init_exp_max pt_increment in
    let safe_denom := if #0 <? max_years then max_years else #1 in
    exp_years / safe_denom.

  (** experience_stock.py:70-75 *)
  Definition next_exp_years (exp_years : T) (choice : Z) (pt_increment : T) : T :=
    let inc_pt := b2n (choice =? 1)%Z * pt_increment in
    let inc_ft := b2n (choice =? 2)%Z * #1 in
    exp_years + inc_pt + inc_ft.

  (** experience_stock.py:78-105 *)
  Definition next_stock (stock : T) (period init_exp_max : Z) (pt_increment : T) (choice : Z) : T :=
    let exp_years := stock_to_exp_years stock period init_exp_max pt_increment in
    let exp_years_next := next_exp_years exp_years choice pt_increment in
    let stock_next := exp_years_to_stock exp_years_next (period + 1)%Z init_exp_max pt_increment in
    nclip stock_next #0 #1.

  (** jnp.searchsorted(grid, x, side="right") on an increasing grid: the number of
      grid points <= x.  (interpolation.py:31; jax uses binary search, which
      returns this number for sorted input; unsorted grids are not modelled.) *)
  Definition searchsorted_right (grid : list T) (x : T) : Z :=
    zlen (filter (fun g => g <=? x) grid).

  (** interpolation.py:13-45 *)
  Definition linear_interp_1d (grid values : list T) (x : T) : T :=
    let idx_hi := searchsorted_right grid x in
    let idx_hi := Z.min (Z.max idx_hi 1) (zlen grid - 1) in
    let idx_lo := (idx_hi - 1)%Z in
    let x_lo := aget grid idx_lo in
    let x_hi := aget grid idx_hi in
    let v_lo := aget values idx_lo in
    let v_hi := aget values idx_hi in
    let denom := x_hi - x_lo in
    let weight := if #0 <? denom then (x - x_lo) / denom else #0 in
    v_lo + weight * (v_hi - v_lo).

  (** wages.py:6-45 *)
  Definition calculate_log_wage (mp : model_params T) (educ : Z) (exp_stock : T)
      (init_exp_max : Z) (pt_increment : T) (period : Z) : T :=
    let exp_years := stock_to_exp_years exp_stock period init_exp_max pt_increment in
    let gamma_0_edu := aget (gamma_0 mp) educ in
    let gamma_exp_edu := aget (gamma_1 mp) educ in
    let log_exp := nln (exp_years + #1) in
    gamma_0_edu + gamma_exp_edu * log_exp.

  (** non_consumption_utility.py:4-76; result is [no work; part-time; full-time]. *)
  Definition calculate_non_consumption_utility (mp : model_params T)
      (educ unobs_type child_bin : Z) : list T :=
    let util_pt := aget (theta_p mp) unobs_type in
    let util_ft := aget (theta_f mp) unobs_type in
    let b0 := b2n (child_bin =? 0)%Z in
    let b1 := b2n (child_bin =? 1)%Z in
    let b2 := b2n (child_bin =? 2)%Z in
    let b3 := b2n (child_bin =? 3)%Z in
    let b4 := b2n (3 <? child_bin)%Z in
    let nkf := aget (no_kids_f mp) educ in
    let nkp := aget (no_kids_p mp) educ in
    let ykf := aget (yes_kids_f mp) educ in
    let ykp := aget (yes_kids_p mp) educ in
    let util_pt := util_pt +
      (b0 * (nkf + nkp)
       + b1 * (ykf + ykp + child_0_2_f mp + child_0_2_p mp)
       + b2 * (ykf + ykp + child_3_5_f mp + child_3_5_p mp)
       + b3 * (ykf + ykp + child_6_10_f mp + child_6_10_p mp)
       + b4 * (ykf + ykp)) in
    let util_ft := util_ft +
      (b0 * nkf
       + b1 * (ykf + child_0_2_f mp)
       + b2 * (ykf + child_3_5_f mp)
       + b3 * (ykf + child_6_10_f mp)
       + b4 * ykf) in
    map nexp [#0; util_pt; util_ft].
End Model.
