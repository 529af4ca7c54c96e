{
 "claims": [
  {
   "property": "C01",
   "status": "proved",
   "theorems": [
    "C01_total",
    "C01_lookup",
    "C01_rows",
    "C01_no_duplicates",
    "C01_sizes_needed"
   ],
   "note": ""
  },
  {
   "property": "C02",
   "status": "proved",
   "theorems": [
    "C02_number_of_states",
    "C02_period_of_row",
    "C02_reshape"
   ],
   "note": ""
  },
  {
   "property": "C03",
   "status": "proved",
   "theorems": [
    "C03_transition_table"
   ],
   "note": ""
  },
  {
   "property": "C04",
   "status": "proved",
   "theorems": [
    "C04_ageing"
   ],
   "note": ""
  },
  {
   "property": "C05",
   "status": "proved",
   "theorems": [
    "C05_covariates",
    "C05_partner_wage_positive"
   ],
   "note": ""
  },
  {
   "property": "C06",
   "status": "proved",
   "theorems": [
    "C06_next_stock_in_unit_interval",
    "C06_next_stock_in_unit_interval_rounded"
   ],
   "note": ""
  },
  {
   "property": "C07",
   "status": "proved",
   "theorems": [
    "C07_accumulation",
    "C07_conversion_reads_years",
    "C07_clip_never_binds"
   ],
   "note": ""
  },
  {
   "property": "C08",
   "status": "proved",
   "theorems": [
    "C08_stock_years_stock",
    "C08_years_stock_years",
    "C08_zero_maximum"
   ],
   "note": ""
  },
  {
   "property": "C09",
   "status": "proved",
   "theorems": [
    "C09_monotone_in_stock",
    "C09_monotone_in_credit",
    "C09_choice_order",
    "C09_monotone_in_stock_rounded",
    "C09_choice_order_rounded",
    "C09_full_time_strictly_more",
    "C09_biased_part_time_counts_full"
   ],
   "note": ""
  },
  {
   "property": "C10",
   "status": "proved",
   "theorems": [
    "C10_carry_over",
    "C10_carry_over_iff",
    "C10_carry_over_refuted"
   ],
   "note": "The unconditional claim is refuted by a witness; the exact condition under which it holds is proved."
  },
  {
   "property": "C11",
   "status": "proved",
   "theorems": [
    "C11_initial_years",
    "C11_initial_years_late_entry",
    "C11_initial_stock_unit_iff",
    "C11_initial_years_refuted",
    "C11_initial_stock_unit_refuted"
   ],
   "note": "Holds for entry in period 0; the unconditional claims are refuted by witnesses."
  },
  {
   "property": "C12",
   "status": "proved",
   "theorems": [
    "C12_at_grid_points",
    "C12_chord_between_neighbours",
    "C12_within_neighbours",
    "C12_monotone_in_query",
    "C12_extrapolation_below",
    "C12_extrapolation_above",
    "C12_single_point"
   ],
   "note": ""
  },
  {
   "property": "C13",
   "status": "proved",
   "theorems": [
    "C13_same_on_uniform_grid",
    "C13_single_point",
    "C13_simulator_clips",
    "C13_any_grid_refuted"
   ],
   "note": "Equal on the uniform grid; refuted by a witness for a user-supplied non-uniform grid."
  },
  {
   "property": "C14",
   "status": "proved",
   "theorems": [
    "C14_tax_implementations_agree",
    "C14_ssc_implementations_agree",
    "C14_net_income_implementations_agree",
    "C14_exact"
   ],
   "note": ""
  },
  {
   "property": "C15",
   "status": "proved",
   "theorems": [
    "C15_no_tax_up_to_allowance",
    "C15_never_negative",
    "C15_increasing_and_bounded_slope",
    "C15_positive_above_allowance",
    "C15_continuous",
    "C15_convex"
   ],
   "note": ""
  },
  {
   "property": "C16",
   "status": "proved",
   "theorems": [
    "C16_statute_within_one_euro"
   ],
   "note": ""
  },
  {
   "property": "C17",
   "status": "proved",
   "theorems": [
    "C17_rate_up_to_cap",
    "C17_monotone",
    "C17_never_exceeds_income"
   ],
   "note": ""
  },
  {
   "property": "C18",
   "status": "proved",
   "theorems": [
    "C18_strictly_increasing_in_own_wage",
    "C18_strictly_increasing_in_partner_wage",
    "C18_at_most_gross",
    "C18_positive"
   ],
   "note": ""
  },
  {
   "property": "C19",
   "status": "proved",
   "theorems": [
    "C19_splitting_never_hurts",
    "C19_splitting_can_help",
    "C19_equal_incomes",
    "C19_equal_taxable_incomes",
    "C19_irrelevant_for_singles"
   ],
   "note": ""
  },
  {
   "property": "C20",
   "status": "proved",
   "theorems": [
    "C20_benefit_rules",
    "C20_at_least_basic_support",
    "C20_no_previous_job",
    "C20_elterngeld_limits",
    "C20_regimes_agree_without_baby",
    "C20_erziehungsgeld_iff"
   ],
   "note": ""
  },
  {
   "property": "C21",
   "status": "proved",
   "theorems": [
    "C21_resources_are_partner_income_plus_benefits",
    "C21_resources_positive"
   ],
   "note": ""
  },
  {
   "property": "C22",
   "status": "proved",
   "theorems": [
    "C22_utility_factors",
    "C22_positive"
   ],
   "note": ""
  },
  {
   "property": "C23",
   "status": "proved",
   "theorems": [
    "C23_wage_equation",
    "C23_wage_positive_and_monotone"
   ],
   "note": ""
  },
  {
   "property": "C24",
   "status": "proved",
   "theorems": [
    "C24_pyth_solve",
    "C24_solver_is_bellman",
    "C24_table_shape"
   ],
   "note": "For inputs whose arrays have matching shapes and a strictly increasing grid; solve is the function returned by get_solve_function, for arbitrary integration draws and weights."
  },
  {
   "property": "C25",
   "status": "proved",
   "theorems": [
    "C25_terminal_continuation"
   ],
   "note": ""
  },
  {
   "property": "C26",
   "status": "proved",
   "theorems": [
    "C26_option_value"
   ],
   "note": ""
  },
  {
   "property": "C27",
   "status": "proved",
   "theorems": [
    "C27_no_rule_better",
    "C27_best_rule_attains"
   ],
   "note": ""
  },
  {
   "property": "C28",
   "status": "proved",
   "theorems": [
    "C28_value_bounds"
   ],
   "note": ""
  },
  {
   "property": "C29",
   "status": "proved",
   "theorems": [
    "C29_experience_monotone",
    "C29_erziehungsgeld_can_fail"
   ],
   "note": "Monotone under Elterngeld for the 2007 tariff, contribution rate in [0,1), positive basic support, non-negative replacement rates and mu<>0; a one-period economy under Erziehungsgeld where it fails is exhibited."
  },
  {
   "property": "C30",
   "status": "proved",
   "theorems": [
    "C30_childless_invariance"
   ],
   "note": ""
  },
  {
   "property": "C31",
   "status": "proved",
   "theorems": [
    "C31_single_invariance"
   ],
   "note": ""
  },
  {
   "property": "C32",
   "status": "proved",
   "theorems": [
    "C32_panel"
   ],
   "note": ""
  },
  {
   "property": "C33",
   "status": "proved",
   "theorems": [
    "C33_blocks",
    "C33_states_listed",
    "C33_simulation_returns"
   ],
   "note": ""
  },
  {
   "property": "C34",
   "status": "proved",
   "theorems": [
    "C34_choice_maximises_value",
    "C34_payoffs_are_bellman"
   ],
   "note": ""
  },
  {
   "property": "C35",
   "status": "proved",
   "theorems": [
    "C35_history",
    "C35_experience_counts_choices"
   ],
   "note": ""
  },
  {
   "property": "C36",
   "status": "proved",
   "theorems": [
    "C36_demography",
    "C36_certain_events"
   ],
   "note": ""
  },
  {
   "property": "C37",
   "status": "proved",
   "theorems": [
    "C37_successor_listed",
    "C37_stock_as_anticipated",
    "C37_solver_anticipates_stock"
   ],
   "note": ""
  },
  {
   "property": "C38",
   "status": "proved",
   "theorems": [
    "C38_same_birth_probability_refuted",
    "C38_agrees_if_constant"
   ],
   "note": ""
  },
  {
   "property": "C39",
   "status": "proved",
   "theorems": [
    "C39_observed_wage"
   ],
   "note": ""
  },
  {
   "property": "C40",
   "status": "proved",
   "theorems": [
    "C40_private_shocks"
   ],
   "note": ""
  },
  {
   "property": "C41",
   "status": "proved",
   "theorems": [
    "C41_simulate_reproducible",
    "C41_closure_calls_independent"
   ],
   "note": ""
  },
  {
   "property": "C42",
   "status": "proved",
   "theorems": [
    "C42_exogenous_columns",
    "C42_partner_wages"
   ],
   "note": ""
  },
  {
   "property": "C43",
   "status": "proved",
   "theorems": [
    "C43_sparse_restricts_full",
    "C43_no_loss",
    "C43_key_unique",
    "C43_wraps_beyond_bytes"
   ],
   "note": ""
  },
  {
   "property": "C44",
   "status": "proved",
   "theorems": [
    "C44_same_payoffs",
    "C44_reported_payoffs",
    "C44_scaled_wages_refuted",
    "C44_below_floor_refuted",
    "C44_costs_for_older_refuted",
    "C44_without_child_benefits_refuted"
   ],
   "note": ""
  },
  {
   "property": "C45",
   "status": "proved",
   "theorems": [
    "C45_caller_unchanged",
    "C45_same_result",
    "C45_weekly_once",
    "C45_entries_decide",
    "C45_order"
   ],
   "note": ""
  },
  {
   "property": "C46",
   "status": "proved",
   "theorems": [
    "C46_program_errors",
    "C46_dictionary_errors",
    "C46_complete_accepted"
   ],
   "note": ""
  },
  {
   "property": "C47",
   "status": "proved",
   "theorems": [
    "C47_types_aligned",
    "C47_one_type",
    "C47_number_of_types",
    "C47_eleven_types_refuted"
   ],
   "note": ""
  },
  {
   "property": "C48",
   "status": "proved",
   "theorems": [
    "C48_partner_transitions",
    "C48_partner_rows_sum_to_one",
    "C48_births",
    "C48_births_negative_period",
    "C48_initial_shares",
    "C48_initial_shares_defined"
   ],
   "note": ""
  },
  {
   "property": "C49",
   "status": "proved",
   "theorems": [
    "C49_monte_carlo",
    "C49_quadrature"
   ],
   "note": ""
  },
  {
   "property": "C50",
   "status": "proved",
   "theorems": [
    "C50_law_of_total_experience"
   ],
   "note": ""
  },
  {
   "property": "C51",
   "status": "proved",
   "theorems": [
    "C51_flag_only_through_solution",
    "C51_realised_experience_unbiased"
   ],
   "note": ""
  },
  {
   "property": "C52",
   "status": "proved",
   "theorems": [
    "C52_program_returns",
    "C52_program_returns_one_type",
    "C52_needs_a_period",
    "C52_no_period",
    "C52_arrays_fit"
   ],
   "note": ""
  },
  {
   "property": "C53",
   "status": "proved",
   "theorems": [
    "C53_caller_unchanged",
    "C53_reproducible"
   ],
   "note": ""
  },
  {
   "property": "C54",
   "status": "proved",
   "theorems": [
    "C54_simulation_of_the_solution",
    "C54_inputs_of_the_simulation",
    "C54_pyth_solve"
   ],
   "note": ""
  },
  {
   "property": "C55",
   "status": "proved",
   "theorems": [
    "C55_function_reused",
    "C55_other_specification",
    "C55_partial_objects"
   ],
   "note": ""
  },
  {
   "property": "C56",
   "status": "proved",
   "theorems": [
    "C56_reform_elterngeld",
    "C56_reform_erziehungsgeld",
    "C56_erziehungsgeld_can_fail"
   ],
   "note": "Elterngeld and Erziehungsgeld reforms; C56_erziehungsgeld_can_fail shows that the means test breaks the claim for unemployment benefit"
  },
  {
   "property": "C57",
   "status": "proved",
   "theorems": [
    "C57_higher_wages",
    "C57_erziehungsgeld_can_fail"
   ],
   "note": "Elterngeld; C57_erziehungsgeld_can_fail is the counterexample for the other regime"
  },
  {
   "property": "C58",
   "status": "proved",
   "theorems": [
    "C58_types_compared",
    "C58_equal_types"
   ],
   "note": ""
  },
  {
   "property": "C59",
   "status": "proved",
   "theorems": [
    "C59_sign_of_values",
    "C59_patience",
    "C59_static"
   ],
   "note": ""
  },
  {
   "property": "C60",
   "status": "proved",
   "theorems": [
    "C60_only_the_future_matters"
   ],
   "note": ""
  },
  {
   "property": "C61",
   "status": "proved",
   "theorems": [
    "C61_own_education_and_type"
   ],
   "note": ""
  },
  {
   "property": "C62",
   "status": "proved",
   "theorems": [
    "C62_correct_bias_solution",
    "C62_correct_bias_data"
   ],
   "note": ""
  },
  {
   "property": "C63",
   "status": "proved",
   "theorems": [
    "C63_distribution_of_draws",
    "C63_order_of_draws"
   ],
   "note": ""
  },
  {
   "property": "C64",
   "status": "proved",
   "theorems": [
    "C64_initial_conditions",
    "C64_entry_row_exists",
    "C64_shares_respected",
    "C64_positive_probability"
   ],
   "note": "The generic statement says \"not of probability 0\" (for the partner: \"could be drawn\"); C64_positive_probability is the reading for proper distributions over the reals"
  },
  {
   "property": "C65",
   "status": "proved",
   "theorems": [
    "C65_initial_lagged_choice",
    "C65_full_time_only"
   ],
   "note": ""
  },
  {
   "property": "C66",
   "status": "proved",
   "theorems": [
    "C66_policy_function"
   ],
   "note": ""
  },
  {
   "property": "C67",
   "status": "proved",
   "theorems": [
    "C67_reservation_shock",
    "C67_erziehungsgeld_can_fail"
   ],
   "note": "Real arithmetic; C67_erziehungsgeld_can_fail is the counterexample for the other regime"
  },
  {
   "property": "C68",
   "status": "proved",
   "theorems": [
    "C68_stock_at_entry",
    "C68_stock_bounds"
   ],
   "note": "Non-negative credits; the stock at entry may exceed 1"
  },
  {
   "property": "C69",
   "status": "proved",
   "theorems": [
    "C69_childless_population",
    "C69_nobody_has_children"
   ],
   "note": "Real arithmetic; the demographic settings (largest child age, last childbearing period, seeds, sizes) and birth probabilities are shared by both runs"
  },
  {
   "property": "C70",
   "status": "proved",
   "theorems": [
    "C70_single_population",
    "C70_nobody_has_a_partner"
   ],
   "note": "Real arithmetic"
  },
  {
   "property": "C71",
   "status": "proved",
   "theorems": [
    "C71_own_rows"
   ],
   "note": "Real arithmetic; shares of types and demographic probabilities are shared by both runs"
  },
  {
   "property": "C72",
   "status": "proved",
   "theorems": [
    "C72_numpy_contract",
    "C72_twister_numbers",
    "C72_twister_bits",
    "C72_choice_law",
    "C72_binomial_law",
    "C72_normal_law",
    "C72_program_returns_with_numpy"
   ],
   "note": "Exact arithmetic; numpy's algorithms transcribed in M_Numpy.v (numpy is not in the repository), rejection loops cut off after 64 and 256 rounds"
  },
  {
   "property": "C73",
   "status": "proved",
   "theorems": [
    "C73_numbers_used_twice",
    "C73_education_predicts_shock"
   ],
   "note": "Describes a defect: education and wage shocks are not independent. Exact arithmetic; first accepted pair of the polar method"
  },
  {
   "property": "C74",
   "status": "proved",
   "theorems": [
    "C74_stability",
    "C74_rescaling"
   ],
   "note": ""
  },
  {
   "property": "C75",
   "status": "proved",
   "theorems": [
    "C75_tastes"
   ],
   "note": "mu<>0; work factors are products of at most five taste terms"
  },
  {
   "property": "C76",
   "status": "proved",
   "theorems": [
    "C76_discount_factor",
    "C76_demography",
    "C76_flows_bounded",
    "C76_continuous_in_discount_factor",
    "C76_continuous_in_demography",
    "C76_continuous_in_tastes"
   ],
   "note": ""
  },
  {
   "property": "C77",
   "status": "proved",
   "theorems": [
    "C77_continuity",
    "C77_erziehungsgeld_can_fail"
   ],
   "note": "Exact arithmetic; the 2007 table of the code, 0<=rate<1, positive basic support; C77_erziehungsgeld_can_fail is the counterexample for the other regime"
  },
  {
   "property": "C78",
   "status": "proved",
   "theorems": [
    "C78_unit_of_account"
   ],
   "note": "Exact arithmetic; solution_clear excludes working incomes below the floor 1e-14 in either unit; C78_floor_can_fail shows it is needed"
  },
  {
   "property": "C79",
   "status": "proved",
   "theorems": [
    "C79_same_decisions"
   ],
   "note": "Exact arithmetic; data_clear excludes incomes below 2^-52 in either unit"
  },
  {
   "property": "C80",
   "status": "proved",
   "theorems": [
    "C80_grid_error",
    "C80_elterngeld_slope",
    "C80_erziehungsgeld_can_fail",
    "C80_grids_converge",
    "C80_uniform_grid"
   ],
   "note": "Exact arithmetic; quadrature nodes are part of the exact model (only the grid is an approximation); C80_erziehungsgeld_can_fail shows the slope condition is not automatic"
  },
  {
   "property": "C81",
   "status": "proved",
   "theorems": [
    "C81_reported_values",
    "C81_nearly_optimal"
   ],
   "note": "Exact arithmetic; evenly spaced grid, as the simulator assumes; stock clipped to [0,1] as the interpolation does"
  },
  {
   "property": "C82",
   "status": "proved",
   "theorems": [
    "C82_career",
    "C82_no_returns",
    "C82_careers_exist"
   ],
   "note": "Exact arithmetic; row_above_floor excludes incomes below the floor 1e-14; C82_careers_exist shows that every row starts a career"
  },
  {
   "property": "C83",
   "status": "proved",
   "theorems": [
    "C83_income_tax",
    "C83_single",
    "C83_separate",
    "C83_splitting",
    "C83_repeated_threshold"
   ],
   "note": "Exact arithmetic; the reference implementation of the test resources is modelled in M_Gettsim.v"
  },
  {
   "property": "C84",
   "status": "proved",
   "theorems": [
    "C84_precision",
    "C84_tax_table",
    "C84_erziehungsgeld_can_fail"
   ],
   "note": "Arithmetics without overflow; the precision is shown to exist, not computed; C84_erziehungsgeld_can_fail is the counterexample outside Elterngeld"
  },
  {
   "property": "C85",
   "status": "proved",
   "theorems": [
    "C85_own_entries",
    "C85_complete",
    "C85_types_counted",
    "C85_order",
    "C85_share_order_refuted"
   ],
   "note": "C85_share_order_refuted is the witness that the rows of category shares are taken by position"
  },
  {
   "property": "C86",
   "status": "proved",
   "theorems": [
    "C86_precision",
    "C86_choices",
    "C86_ties_can_fail"
   ],
   "note": "Arithmetics without overflow; the precision is shown to exist, not computed; that the exogenous draws come out alike is assumed (same_lives); C86_ties_can_fail is the counterexample with indifferent agents"
  },
  {
   "property": "C87",
   "status": "proved",
   "theorems": [
    "C87_nearest",
    "C87_ties_to_even",
    "C87_keeps",
    "C87_integers",
    "C87_monotone",
    "C87_precise",
    "C87_solver",
    "C87_simulation",
    "C87_double"
   ],
   "note": "No largest number: overflow, infinities and NaN are outside the model; exp, log and power are taken as correctly rounded here (C84 and C86 allow any error within the precision); how many digits are enough for a given accuracy is not computed"
  },
  {
   "property": "C88",
   "status": "proved",
   "theorems": [
    "C88_inputs_run",
    "C88_constraints_kept",
    "C88_parameters",
    "C88_parameter_values",
    "C88_policy",
    "C88_unread_entry",
    "C88_partners_switched_off",
    "C88_returned_dictionary",
    "C88_completed_dictionary",
    "C88_separate_sections",
    "C88_three_levels",
    "C88_one_entry_per_category"
   ],
   "note": "Writing and reading of YAML and pickle files is taken to preserve the values; division of the shares by their sum is exact (in floating point the shares sum to one up to rounding)"
  },
  {
   "property": "C89",
   "status": "proved",
   "theorems": [
    "C89_reference_is_recursion",
    "C89_solver_matches_reference",
    "C89_test_passes"
   ],
   "note": "Exact arithmetic; np.linspace and np.interp are modelled for the calls made here"
  },
  {
   "property": "C90",
   "status": "proved",
   "theorems": [
    "C90_average",
    "C90_lives_exist",
    "C90_refused",
    "C90_no_rows",
    "C90_value",
    "C90_no_returns",
    "C90_single_women",
    "C90_test_partner_table"
   ],
   "note": "Exact arithmetic; pandas groupby().sum().mean() is modelled as sums per identifier in increasing order of identifiers"
  },
  {
   "property": "C91",
   "status": "proved",
   "theorems": [
    "C91_integration_error",
    "C91_same_data",
    "C91_small_errors",
    "C91_no_shocks",
    "C91_no_margin"
   ],
   "note": "Exact arithmetic; the bound on single expectations is a hypothesis, not derived for Gauss-Hermite against Monte Carlo draws"
  },
  {
   "property": "C92",
   "status": "proved",
   "theorems": [
    "C92_first_period",
    "C92_no_first_period",
    "C92_no_children_no_experience",
    "C92_number_of_rows",
    "C92_bellman",
    "C92_same_function",
    "C92_demography",
    "C92_expectation",
    "C92_missing_entries",
    "C92_last_period"
   ],
   "note": "Exact arithmetic; the assertion of test_unit_nan needs the proviso that the level is drawn (pandas min of no rows is NaN)"
  },
  {
   "property": "C93",
   "status": "proved",
   "theorems": [
    "C93_reading",
    "C93_solution",
    "C93_simulation",
    "C93_program",
    "C93_no_undefined_number",
    "C93_entry_wage",
    "C93_other_conditions"
   ],
   "note": "NaN and infinite results of single operations; overflow is not modelled. The tax table is that of the readers"
  },
  {
   "property": "C94",
   "status": "proved",
   "theorems": [
    "C94_table",
    "C94_static_choice",
    "C94_no_returns",
    "C94_nobody_works"
   ],
   "note": "the condition on flow utilities is on grid points and draws of the solver; the two applications give conditions on inputs"
  },
  {
   "property": "C95",
   "status": "proved",
   "theorems": [
    "C95_choice",
    "C95_binomial",
    "C95_entry_distributions",
    "C95_probabilities",
    "C95_education_shares",
    "C95_program"
   ],
   "note": "exact real arithmetic: the compensated sum of choice is the sum"
  },
  {
   "property": "C96",
   "status": "proved",
   "theorems": [
    "C96_state_space",
    "C96_child_index",
    "C96_experience",
    "C96_interpolation",
    "C96_benefits"
   ],
   "note": "exact real arithmetic; the continuation test in rational arithmetic"
  },
  {
   "property": "C97",
   "status": "proved",
   "theorems": [
    "C97_jax",
    "C97_interpolation",
    "C97_numpy",
    "C97_choice",
    "C97_choice_exact"
   ],
   "note": "jax and numpy are transcribed from their published sources, which are not in the repository"
  },
  {
   "property": "C98",
   "status": "proved",
   "theorems": [
    "C98_births",
    "C98_partners",
    "C98_initial_shares",
    "C98_partner_order",
    "C98_births_need_order"
   ],
   "note": "pandas selection by labels is modelled as taking the rows of the given periods, period by period, in file order"
  },
  {
   "property": "C99",
   "status": "proved",
   "theorems": [
    "C99_values",
    "C99_needed",
    "C99_not_readable",
    "C99_amounts_per_week"
   ],
   "note": "a named tuple and the dictionary it is made from are not distinguished"
  },
  {
   "property": "C100",
   "status": "proved",
   "theorems": [
    "C100_surprises",
    "C100_surprises_exist",
    "C100_average_surprise",
    "C100_expected_utility",
    "C100_no_returns",
    "C100_simulated_births"
   ],
   "note": "exact arithmetic; wage shocks are averaged over the nodes and weights of the solver; circumstances of C44 in which solver and simulation value choices alike"
  },
  {
   "property": "C101",
   "status": "proved",
   "theorems": [
    "C101_gap",
    "C101_verdict",
    "C101_rare_events",
    "C101_test_runs",
    "C101_test_data",
    "C101_test_passes",
    "C101_nobody_works",
    "C101_no_events"
   ],
   "note": "exact arithmetic; the inputs of the test are written out in X_Consistency.v; the verdict is for runs in which no event of probability 1e-6 is drawn"
  },
  {
   "property": "C102",
   "status": "proved",
   "theorems": [
    "C102_verdict",
    "C102_tests_pass",
    "C102_independent",
    "C102_update_keeps",
    "C102_stored_totals",
    "C102_update_again",
    "C102_update_runs",
    "C102_sorting",
    "C102_sorting_shares_refuted",
    "C102_order_unseen"
   ],
   "note": "exact arithmetic; the stored files of the vault are an argument; the update returns under C52's conditions"
  },
  {
   "property": "C103",
   "status": "proved",
   "theorems": [
    "C103_types_for_levels",
    "C103_mothers_for_ages",
    "C103_older_children",
    "C103_called",
    "C103_scale_solution",
    "C103_scale_data",
    "C103_scale_benefits",
    "C103_scale_benefits_refuted"
   ],
   "note": "exact arithmetic: rounded sums of shifted tastes may differ in the last bits"
  }
 ]
}