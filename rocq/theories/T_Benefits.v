(** Property theorems C20 - C23: benefits, resources without work, non-pecuniary
    utility, wages.  States are rows [period; education; lagged choice; type; age of
    youngest child; partner]. *)
From Verif Require Import Base Num M_Params M_Experience M_Tax M_NonEmployment
  L_Num S_Experience S_Tax S_Benefits L_Benefits X_Example.
Open Scope R_scope.

(** C20: the computed benefits are those of the rules in S_Benefits. *)
Theorem C20_benefit_rules :
  forall sp period educ lagged type age partner log_wage child_ben male_wage elterngeld_regime,
  calculate_non_employment_benefits sp [period; educ; lagged; type; age; partner]
    log_wage child_ben male_wage elterngeld_regime
  = benefits_spec sp age lagged partner (exp log_wage) child_ben male_wage elterngeld_regime.
Proof. exact benefits_eq. Qed.
Print Assumptions C20_benefit_rules.

(** singles never get less than basic support; couples never less than 0 *)
Theorem C20_at_least_basic_support :
  forall sp age lagged partner wage child_ben male_wage regime,
  (regime = false -> 0 <= erziehungsgeld sp) ->
  basic_support sp age partner <= benefits_spec sp age lagged partner wage child_ben male_wage regime.
Proof. exact benefits_floor. Qed.
Print Assumptions C20_at_least_basic_support.

(** nothing but basic support without a previous job *)
Theorem C20_no_previous_job :
  forall sp age lagged partner wage child_ben male_wage, worked lagged = false ->
  benefits_spec sp age lagged partner wage child_ben male_wage true
  = Rmax 0 (basic_support sp age partner).
Proof. exact benefits_not_worked. Qed.
Print Assumptions C20_no_previous_job.

(** parental benefit within its limits in the year of birth *)
Theorem C20_elterngeld_limits :
  forall sp lagged partner wage child_ben male_wage, worked lagged = true ->
  elterngeld_min sp <= elterngeld_max sp ->
  elterngeld_min sp + child_ben <= benefits_spec sp 0 lagged partner wage child_ben male_wage true
  <= Rmax (elterngeld_max sp + child_ben) (basic_support sp 0 partner).
Proof. exact benefits_elterngeld_bounds. Qed.
Print Assumptions C20_elterngeld_limits.

(** the two regimes differ at most for children aged 0 or 1 *)
Theorem C20_regimes_agree_without_baby :
  forall sp age lagged partner wage child_ben male_wage, age <> 0%Z -> age <> 1%Z ->
  benefits_spec sp age lagged partner wage child_ben male_wage true
  = benefits_spec sp age lagged partner wage child_ben male_wage false.
Proof. exact benefits_regimes_agree. Qed.
Print Assumptions C20_regimes_agree_without_baby.

(** the child-raising allowance is paid in full or not at all; exactly when the
    youngest child is 0 or 1 and household income is within the threshold *)
Theorem C20_erziehungsgeld_iff :
  forall sp age lagged partner wage child_ben male_wage, erziehungsgeld sp <> 0 ->
  let b := Rmax (unemployment_benefit sp age lagged wage child_ben) (basic_support sp age partner) in
  let threshold := if (partner =? 1)%Z then erziehungsgeld_income_threshold_married sp
                   else erziehungsgeld_income_threshold_single sp in
  ((age = 0%Z \/ age = 1%Z) /\ male_wage + b <= threshold <->
   benefits_spec sp age lagged partner wage child_ben male_wage false = b + erziehungsgeld sp)
  /\ (benefits_spec sp age lagged partner wage child_ben male_wage false = b \/
      benefits_spec sp age lagged partner wage child_ben male_wage false = b + erziehungsgeld sp).
Proof. exact benefits_erziehungsgeld. Qed.
Print Assumptions C20_erziehungsgeld_iff.

Example C20_case_newborn :
  worked 2 = true /\ elterngeld_min ex_spec <= elterngeld_max ex_spec /\
  benefits_spec ex_spec 0 2 1 10 36 500 true = 67/100 * (65/100 * 10) * 38 + 36.
Proof.
  split; [reflexivity|]. split; [cbn; lra|].
  unfold benefits_spec, parental_benefit, basic_support, last_hours. cbn -[Rmult Rplus Rdiv].
  rmm; lra.
Qed.
Example C20_case_single_parent :
  benefits_spec ex_spec 5 0 0 10 36 0 true = 250.
Proof.
  rewrite C20_no_previous_job by reflexivity. unfold basic_support. cbn -[Rmult Rplus Rdiv]. rmm; lra.
Qed.
Example C20_case_erziehungsgeld :
  benefits_spec ex_spec 1 0 0 10 36 0 false = 320.
Proof.
  unfold benefits_spec, raising_allowance, unemployment_benefit, basic_support. cbn -[Rmult Rplus Rdiv Rle_dec].
  destruct Rle_dec as [H|H]; revert H; rmm; intros; lra.
Qed.

(** C21 *)
Theorem C21_resources_are_partner_income_plus_benefits :
  forall sp period educ lagged type age partner log_wage male_wage child_ben regime,
  calc_resources sp [period; educ; lagged; type; age; partner] log_wage male_wage child_ben regime
  = calculate_net_income (tax_params sp) (ssc_deductions sp) 0 male_wage (tax_splitting sp)
    + benefits_spec sp age lagged partner (exp log_wage) child_ben male_wage regime.
Proof. exact resources_eq. Qed.
Print Assumptions C21_resources_are_partner_income_plus_benefits.

Theorem C21_resources_positive :
  forall sp rate cap period educ lagged type age partner log_wage male_wage child_ben regime,
  tax_params sp = create_tax_parameters -> ssc_deductions sp = (rate, cap) ->
  0 <= rate < 1 -> 0 <= cap ->
  (forall age, 0 < basic_support sp age 0) -> 0 <= erziehungsgeld sp ->
  (partner = 0%Z /\ male_wage = 0) \/ (partner = 1%Z /\ 0 < male_wage) ->
  0 < calc_resources sp [period; educ; lagged; type; age; partner] log_wage male_wage child_ben regime.
Proof. exact resources_pos. Qed.
Print Assumptions C21_resources_positive.

Example C21_hypotheses_met :
  tax_params ex_spec = create_tax_parameters /\ ssc_deductions ex_spec = (215/1000, 1221) /\
  (forall age, 0 < basic_support ex_spec age 0) /\ 0 <= erziehungsgeld ex_spec.
Proof.
  repeat split; try reflexivity; [|cbn; lra].
  intros a. unfold basic_support. cbn -[Rmult Rplus Rdiv Z.eqb]. destruct (a =? -1)%Z; cbn; lra.
Qed.

(** C22 *)
Theorem C22_utility_factors :
  forall mp educ type bin, (0 <= bin)%Z ->
  (0 <= educ < zlen (no_kids_f mp))%Z -> (educ < zlen (no_kids_p mp))%Z ->
  (educ < zlen (yes_kids_f mp))%Z -> (educ < zlen (yes_kids_p mp))%Z ->
  (0 <= type < zlen (theta_p mp))%Z -> (type < zlen (theta_f mp))%Z ->
  calculate_non_consumption_utility mp educ type bin
  = [1; exp (nth (Z.to_nat type) (theta_p mp) 0 + part_time_term mp educ bin);
     exp (nth (Z.to_nat type) (theta_f mp) 0 + full_time_term mp educ bin)].
Proof. exact non_consumption_eq. Qed.
Print Assumptions C22_utility_factors.

Theorem C22_positive : forall (mp : model_params R) educ type bin x,
  In x (calculate_non_consumption_utility mp educ type bin) -> 0 < x.
Proof. exact non_consumption_pos. Qed.
Print Assumptions C22_positive.

Example C22_instance :
  calculate_non_consumption_utility ex_params 1 1 2
  = [1; exp (-1/10 + ((-2 + -1/2) + (1 + 1/4))); exp (-2/10 + (-2 + -1/2))].
Proof. rewrite C22_utility_factors by (cbn; lia). reflexivity. Qed.

(** C23 *)
Theorem C23_wage_equation :
  forall mp educ stock init_max pt_increment period, (0 <= period)%Z ->
  (0 <= educ < zlen (gamma_0 mp))%Z -> (educ < zlen (gamma_1 mp))%Z ->
  exp (calculate_log_wage mp educ stock init_max pt_increment period)
  = exp (nth (Z.to_nat educ) (gamma_0 mp) 0)
    * Rpower (years_of stock init_max period pt_increment + 1) (nth (Z.to_nat educ) (gamma_1 mp) 0).
Proof. exact wage_eq. Qed.
Print Assumptions C23_wage_equation.

Theorem C23_wage_positive_and_monotone :
  forall mp educ stock stock' init_max pt_increment period, (0 <= period)%Z -> (0 <= init_max)%Z ->
  (0 <= educ < zlen (gamma_0 mp))%Z -> (educ < zlen (gamma_1 mp))%Z ->
  0 <= nth (Z.to_nat educ) (gamma_1 mp) 0 -> 0 <= stock <= stock' ->
  0 < exp (calculate_log_wage mp educ stock init_max pt_increment period)
  <= exp (calculate_log_wage mp educ stock' init_max pt_increment period).
Proof. exact wage_mono. Qed.
Print Assumptions C23_wage_positive_and_monotone.

Example C23_instance :
  (0 <= 2 < zlen (gamma_0 ex_params))%Z /\ 0 <= nth (Z.to_nat 2) (gamma_1 ex_params) 0 /\
  exp (calculate_log_wage ex_params 2 (1/2) 4 (4/10) 2)
  = exp (23/10) * Rpower (1/2 * (4 + 2 * Rmax 1 (4/10)) + 1) (2/10).
Proof.
  split; [cbn; lia|]. split; [change (0 <= 2/10); lra|]. rewrite C23_wage_equation by (cbn; lia). reflexivity.
Qed.
