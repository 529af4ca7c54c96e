(** Model of soepy/shared/tax_and_transfers.py, soepy/shared/tax_and_transfers_jax.py
    and soepy/pre_processing/tax_and_transfers_params.py (numeric part). *)
From Verif Require Import Base Num M_Params M_Experience.

Section Model.
  Context {T : Type} {NT : Num T}.
  Local Open Scope num_scope.

  (** *** tax_and_transfers_jax.py *)

  (** tax_and_transfers_jax.py:119-138.  The cap is [deductions_spec[1]]. *)
  Definition calculate_ssc_deductions (deductions_spec : T * T) (gross_labor_income : T) : T :=
    let capped_income := nmin gross_labor_income (snd deductions_spec) in
    fst deductions_spec * capped_income.

  (** tax_and_transfers_jax.py:65-116 (boolean masks multiply as 0/1). *)
  Definition calculate_inc_tax (tp : tax_table T) (taxable_income : T) : T :=
    let th := fun i => aget (tx_thresholds tp) i in
    let base := fun i => aget (tx_intercepts tp) i in
    let lin := fun i => aget (tx_linear tp) i in
    let quad := fun i => aget (tx_quadratic tp) i in
    let in_interval_0 := (th 0 <=? taxable_income) && (taxable_income <? th 1) in
    let in_interval_1 := (th 1 <=? taxable_income) && (taxable_income <? th 2) in
    let in_interval_2 := (th 2 <=? taxable_income) && (taxable_income <? th 3) in
    let in_interval_3 := th 3 <=? taxable_income in
    let calc_interval_tax := fun k =>
      let difference := taxable_income - th k in
      let tax_from_formula := lin k * difference + quad k * nsq difference in
      base k + tax_from_formula in
    let tax_rate :=
      b2n in_interval_0 * calc_interval_tax 0%Z
      + b2n in_interval_1 * calc_interval_tax 1%Z
      + b2n in_interval_2 * calc_interval_tax 2%Z
      + b2n in_interval_3 * calc_interval_tax 3%Z in
    let above_threshold := th 0 <=? taxable_income in
    b2n above_threshold * tax_rate.

  (** tax_and_transfers_jax.py:4-62; 1.05 is the solidarity surcharge. *)
  Definition calculate_net_income (tp : tax_table T) (deductions_spec : T * T)
      (female_wage male_wage : T) (tax_splitting : bool) : T :=
    let female_deductions := calculate_ssc_deductions deductions_spec female_wage in
    let male_deductions := calculate_ssc_deductions deductions_spec male_wage in
    let taxable_income_spouse :=
      male_wage + female_wage - male_deductions - female_deductions in
    let taxable_income_single := female_wage - female_deductions in
    let inc_tax_spouse :=
      if tax_splitting
      then calculate_inc_tax tp (taxable_income_spouse / #2) * #2
      else calculate_inc_tax tp (female_wage - female_deductions)
           + calculate_inc_tax tp (male_wage - male_deductions) in
    let inc_tax_single := calculate_inc_tax tp taxable_income_single in
    let has_spouse := b2n (#0 <? male_wage) in
    let taxable_income :=
      has_spouse * taxable_income_spouse + (#1 - has_spouse) * taxable_income_single in
    let inc_tax := has_spouse * inc_tax_spouse + (#1 - has_spouse) * inc_tax_single in
    taxable_income - inc_tax * nlit 105 100.

  (** *** tax_and_transfers.py (branching version) *)

  (** tax_and_transfers.py:58-66 *)
  Definition calculate_ssc_deductions_py (deductions_spec : T * T) (gross_labor_income : T) : T :=
    (* python min(a, b) returns b iff b < a *)
    let capped_income :=
      if snd deductions_spec <? gross_labor_income
      then snd deductions_spec else gross_labor_income in
    fst deductions_spec * capped_income.

  (** tax_and_transfers.py:33-55 *)
  Definition calculate_inc_tax_py (tp : tax_table T) (taxable_income : T) : T :=
    let th := fun i => aget (tx_thresholds tp) i in
    if taxable_income <? th 0%Z then #0
    else
      let interval_num :=
        if (th 0%Z <=? taxable_income) && (taxable_income <? th 1%Z) then 0%Z
        else if (th 1%Z <=? taxable_income) && (taxable_income <? th 2%Z) then 1%Z
        else if (th 2%Z <=? taxable_income) && (taxable_income <? th 3%Z) then 2%Z
        else 3%Z in
      let difference_to_calc := taxable_income - aget (tx_thresholds tp) interval_num in
      let tax_rate := aget (tx_linear tp) interval_num * difference_to_calc
                      + aget (tx_quadratic tp) interval_num * nsq difference_to_calc in
      tax_rate + aget (tx_intercepts tp) interval_num.

  (** tax_and_transfers.py:1-30 *)
  Definition calculate_net_income_py (tp : tax_table T) (deductions_spec : T * T)
      (female_wage male_wage : T) (tax_splitting : bool) : T :=
    let female_deductions := calculate_ssc_deductions_py deductions_spec female_wage in
    let '(taxable_income, inc_tax) :=
      if #0 <? male_wage then
        let male_deductions := calculate_ssc_deductions_py deductions_spec male_wage in
        let taxable_income := male_wage + female_wage - male_deductions - female_deductions in
        let inc_tax :=
          if tax_splitting
          then calculate_inc_tax_py tp (taxable_income / #2) * #2
          else calculate_inc_tax_py tp (female_wage - female_deductions)
               + calculate_inc_tax_py tp (male_wage - male_deductions) in
        (taxable_income, inc_tax)
      else
        let taxable_income := female_wage - female_deductions in
        (taxable_income, calculate_inc_tax_py tp taxable_income) in
    taxable_income - inc_tax * nlit 105 100.

  (** *** tax_and_transfers_params.py (numbers) *)

  (** tax_and_transfers_params.py:4-5 *)
  Definition M_FACTOR : T := nlit 43 10.
  Definition Y_FACTOR : T := #12 * M_FACTOR.

  (** tax_and_transfers_params.py:39-45 *)
  Definition create_progressionsfactor (rates_linear thresholds : list T) (i : Z) : T :=
    (aget rates_linear (i + 1)%Z - aget rates_linear i)
    / (aget thresholds (i + 1)%Z - aget thresholds i)
    / #2.

  (** tax_and_transfers_params.py:48-57: the loop [for i in range(1, 4)]; [acc] is
      the previous intercept. *)
  Definition intercept_step (rates_linear rates_quadratic thresholds : list T)
      (acc : T) (i : Z) : T :=
    acc
    + (aget thresholds i - aget thresholds (i - 1)%Z) * aget rates_linear (i - 1)%Z
    + nsq (aget thresholds i - aget thresholds (i - 1)%Z) * aget rates_quadratic (i - 1)%Z.
  Definition create_intercepts (rates_linear rates_quadratic thresholds : list T) : list T :=
    let step := intercept_step rates_linear rates_quadratic thresholds in
    let i0 := #0 in
    let i1 := step i0 1%Z in
    let i2 := step i1 2%Z in
    let i3 := step i2 3%Z in
    [i0; i1; i2; i3].

  (** tax_and_transfers_params.py:23-36 *)
  Definition create_tax_parameters : tax_table T :=
    let thresholds := map (fun z => #z / Y_FACTOR) [7664; 12739; 52151; 250000]%Z in
    let rates_linear := [nlit 15 100; nlit 2397 10000; nlit 42 100; nlit 45 100] in
    let rates_quadratic :=
      [create_progressionsfactor rates_linear thresholds 0;
       create_progressionsfactor rates_linear thresholds 1; #0; #0] in
    let intercepts := create_intercepts rates_linear rates_quadratic thresholds in
    mkTax T thresholds intercepts rates_linear rates_quadratic.
End Model.
