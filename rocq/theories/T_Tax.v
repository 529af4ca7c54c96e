(** Property theorems C14 - C19: taxes and social security contributions. *)
From Verif Require Import Base Num M_Params M_Experience M_Tax L_Num S_Tax L_Tax.
Open Scope R_scope.

(** C14: the masked JAX code and the branching python code compute the same numbers,
    for every rounding of the arithmetic that is idempotent and keeps 0 and 1. *)
Theorem C14_tax_implementations_agree :
  forall rnd : R -> R, (forall x, rnd (rnd x) = rnd x) -> rnd 0 = 0 -> rnd 1 = 1 ->
  forall (tp : tax_table R) (x : R), thresholds_sorted tp ->
  @calculate_inc_tax R (RndNum rnd) tp x = @calculate_inc_tax_py R (RndNum rnd) tp x.
Proof. exact agree_tax. Qed.
Print Assumptions C14_tax_implementations_agree.

Theorem C14_ssc_implementations_agree :
  forall (rnd : R -> R) (d : R * R) (w : R),
  @calculate_ssc_deductions R (RndNum rnd) d w = @calculate_ssc_deductions_py R (RndNum rnd) d w.
Proof. exact agree_ssc. Qed.
Print Assumptions C14_ssc_implementations_agree.

Theorem C14_net_income_implementations_agree :
  forall rnd : R -> R, (forall x, rnd (rnd x) = rnd x) -> rnd 0 = 0 -> rnd 1 = 1 ->
  forall (tp : tax_table R) (d : R * R) (f m : R) (splitting : bool), thresholds_sorted tp ->
  @calculate_net_income R (RndNum rnd) tp d f m splitting
  = @calculate_net_income_py R (RndNum rnd) tp d f m splitting.
Proof. exact agree_net. Qed.
Print Assumptions C14_net_income_implementations_agree.

(** exact arithmetic is the case rnd = identity; the two instances coincide there *)
Theorem C14_exact :
  forall (tp : tax_table R) (d : R * R) (f m x : R) (splitting : bool), thresholds_sorted tp ->
  calculate_inc_tax tp x = calculate_inc_tax_py tp x /\
  calculate_ssc_deductions d x = calculate_ssc_deductions_py d x /\
  calculate_net_income tp d f m splitting = calculate_net_income_py tp d f m splitting.
Proof. exact agree_exact. Qed.
Print Assumptions C14_exact.

Example C14_thresholds_2007 : thresholds_sorted create_tax_parameters.
Proof. exact sorted_2007. Qed.
Example C14_rounding_exists :
  let rnd := fun x : R => IZR (Int_part x) in
  (forall x, rnd (rnd x) = rnd x) /\ rnd 0 = 0 /\ rnd 1 = 1.
Proof. exact floor_rounding. Qed.

(** C15 *)
Notation tax_2007 := (calculate_inc_tax (create_tax_parameters (T := R))).

Theorem C15_no_tax_up_to_allowance : forall x, x * weeks_per_year <= 7664 -> tax_2007 x = 0.
Proof. exact tax07_zero. Qed.
Print Assumptions C15_no_tax_up_to_allowance.

Theorem C15_never_negative : forall x, 0 <= tax_2007 x.
Proof. exact tax07_nonneg. Qed.
Print Assumptions C15_never_negative.

Theorem C15_increasing_and_bounded_slope :
  forall x y, x <= y -> 0 <= tax_2007 y - tax_2007 x <= 45/100 * (y - x).
Proof. exact tax07_lipschitz. Qed.
Print Assumptions C15_increasing_and_bounded_slope.

(** positive tax above the allowance *)
Theorem C15_positive_above_allowance : forall x, 7664 < x * weeks_per_year -> 0 < tax_2007 x.
Proof. exact tax07_pos. Qed.
Print Assumptions C15_positive_above_allowance.

Theorem C15_continuous : forall x, continuity_pt tax_2007 x.
Proof. exact tax07_continuous. Qed.
Print Assumptions C15_continuous.

Theorem C15_convex : convex tax_2007.
Proof. exact tax07_convex. Qed.
Print Assumptions C15_convex.

Example C15_instance : 1000 * weeks_per_year > 7664 /\ 0 < tax_2007 1000.
Proof.
  assert (H : 7664 < 1000 * weeks_per_year) by (unfold weeks_per_year; lra).
  split; [lra | exact (C15_positive_above_allowance _ H)].
Qed.

(** C16 *)
Theorem C16_statute_within_one_euro :
  forall x, Rabs (weeks_per_year * tax_2007 (x / weeks_per_year) - statute_2007 x) < 1.
Proof. exact tax07_statute. Qed.
Print Assumptions C16_statute_within_one_euro.

Example C16_statute_value : statute_2007 30000 = (22874/100 * (17261/10000) + 2397) * (17261/10000) + 989.
Proof. unfold statute_2007. repeat destruct Rle_dec; lra. Qed.

(** C17 *)
Theorem C17_rate_up_to_cap :
  forall rate cap w, calculate_ssc_deductions (rate, cap) w = contribution rate cap w.
Proof. exact ssc_spec. Qed.
Print Assumptions C17_rate_up_to_cap.

Theorem C17_monotone : forall rate cap w w', 0 <= rate -> w <= w' ->
  calculate_ssc_deductions (rate, cap) w <= calculate_ssc_deductions (rate, cap) w'.
Proof. exact ssc_mono. Qed.
Print Assumptions C17_monotone.

Theorem C17_never_exceeds_income : forall rate cap w, 0 <= rate <= 1 -> 0 <= cap -> 0 <= w ->
  0 <= calculate_ssc_deductions (rate, cap) w <= w.
Proof. exact ssc_bounds. Qed.
Print Assumptions C17_never_exceeds_income.

Example C17_instance : calculate_ssc_deductions (1/5, 100) 250 = 20.
Proof. rewrite C17_rate_up_to_cap. unfold contribution. destruct Rle_dec; lra. Qed.

(** C18 *)
Notation net_2007 rate cap := (calculate_net_income (create_tax_parameters (T := R)) (rate, cap)).

Theorem C18_strictly_increasing_in_own_wage :
  forall rate cap, 0 <= rate < 1 ->
  forall f f' m splitting, f < f' -> net_2007 rate cap f m splitting < net_2007 rate cap f' m splitting.
Proof. exact net_strict. Qed.
Print Assumptions C18_strictly_increasing_in_own_wage.

Theorem C18_strictly_increasing_in_partner_wage :
  forall rate cap, 0 <= rate < 1 ->
  forall f m m' splitting, 0 < m -> m < m' ->
  net_2007 rate cap f m splitting < net_2007 rate cap f m' splitting.
Proof. exact net_strict_male. Qed.
Print Assumptions C18_strictly_increasing_in_partner_wage.

Theorem C18_at_most_gross :
  forall rate cap, 0 <= rate < 1 -> 0 <= cap ->
  forall f m splitting, 0 <= f -> 0 <= m -> net_2007 rate cap f m splitting <= f + m.
Proof. exact net_le_gross. Qed.
Print Assumptions C18_at_most_gross.

Theorem C18_positive :
  forall rate cap, 0 <= rate < 1 -> 0 <= cap ->
  forall f m splitting, 0 <= f -> 0 <= m -> 0 < f + m -> 0 < net_2007 rate cap f m splitting.
Proof. exact net_pos. Qed.
Print Assumptions C18_positive.

Example C18_instance :
  net_2007 (215/1000) (63000 / weeks_per_year) 500 300 true
  < net_2007 (215/1000) (63000 / weeks_per_year) 501 300 true.
Proof. apply C18_strictly_increasing_in_own_wage; lra. Qed.

(** C19 *)
Theorem C19_splitting_never_hurts : forall d f m,
  calculate_net_income create_tax_parameters d f m false
  <= calculate_net_income create_tax_parameters d f m true.
Proof. exact splitting_helps. Qed.
Print Assumptions C19_splitting_never_hurts.

(** strict gain for a sole earner above the allowance: the inequality is not an equality *)
Theorem C19_splitting_can_help :
  exists d f m, 0 < m /\
  calculate_net_income create_tax_parameters d f m false
  < calculate_net_income create_tax_parameters d f m true.
Proof. exact splitting_strict. Qed.
Print Assumptions C19_splitting_can_help.

Theorem C19_equal_incomes : forall tp d w,
  calculate_net_income tp d w w true = calculate_net_income tp d w w false.
Proof. exact splitting_equal. Qed.
Print Assumptions C19_equal_incomes.

(** equality whenever the two taxable incomes coincide *)
Theorem C19_equal_taxable_incomes : forall tp d f m,
  f - calculate_ssc_deductions d f = m - calculate_ssc_deductions d m ->
  calculate_net_income tp d f m true = calculate_net_income tp d f m false.
Proof. exact splitting_equal_taxable. Qed.
Print Assumptions C19_equal_taxable_incomes.

Theorem C19_irrelevant_for_singles : forall tp d f m s s', m <= 0 ->
  calculate_net_income tp d f m s = calculate_net_income tp d f m s'.
Proof. exact splitting_single. Qed.
Print Assumptions C19_irrelevant_for_singles.
