# Formal model of soepy in Coq 8.16 — design

Source: `/repo/soepy` (python). Development: `/verif/rocq/theories` (logical name `Verif`).

## Layers

| files | role |
|---|---|
| `Base.v`, `Num.v` | exceptions as values (`result`), numpy/jax indexing, number interface `Num` and its instances |
| `M_*.v` | the **model**, function by function; every definition cites file:lines in /repo |
| `S_*.v` | small **specifications** over the real numbers, written without the model's helpers |
| `L_*.v` | lemmas and proofs |
| `T_*.v` | the **property theorems** only (short proof + `Print Assumptions`) and non-vacuity examples |
| `X_*.v` | concrete economies used in the examples |

## Numbers

The python code computes in IEEE doubles (numpy) or jax floats. The model is written once over
a type class `Num T` (operations + - * / <= < = exp log pow floor, integer injection) and instantiated at

* `R` (stdlib reals): exact arithmetic; all numeric theorems are about this instance;
* `R` with an arbitrary rounding function after every operation (`RndNum`): used for the few properties
  that must survive rounding (C06, C14);
* `Q` (computable rationals, exp/log/pow left as oracles): used only to run the model (`vm_compute`)
  against literals of the repository's own unit tests. These are tests of the model, not proofs.

NaN and infinities from single operations are covered by C93 (the program is also run over `option R`); overflow is not modelled. Where numpy would produce NaN in a table the model uses `option`;
python exceptions are `Err` values. `x ** mu` is modelled for x > 0 only (0 otherwise); every theorem
that depends on it has a positivity hypothesis or proves positivity.

Arrays are lists. Vectorised numpy/jax code (broadcasting, `vmap`, masks) is modelled row by row
(`map`): the only simplification made for array code. numpy indexing wraps negative indices and raises
IndexError; jax gathers wrap negative indices and clamp; both are modelled.

Random numbers: `numpy.random`'s global generator is an abstract state machine (section variables:
state type, `seed`, `choice`, `binomial`, `normal`), with a contract hypothesis (`rng_ok`): shapes are right,
`choice` only returns offered values, `binomial(1,p)` returns 0/1 and is deterministic for p=0 and p=1.
`M_Numpy.v` transcribes numpy's legacy generator (Mersenne twister, `choice`, `binomial` with n = 1, `normal`) and C72 proves the
contract for it, so that no theorem rests on the contract alone.
`scipy.special.roots_hermite` is an oracle. Files (`pd.read_pickle`) are given as their contents.

## Plan per property

| id | modelled code | theorem shape / proof |
|---|---|---|
| C01,C02 | nested loops of create_discrete_state_space as folds over (blocks, indexer, counter) | closed form of the fold by induction over the loop list; bijection both ways, block layout |
| C03,C04 | create_child_indexes, define_child_age_update_rule with numpy index semantics | case analysis using C01 |
| C05 | construct_covariates, pd.cut, create_equivalence_scale | totality and closed form for all ages |
| C06-C11 | experience_stock.py, initial stock in initial_states.py | real algebra; C10, C11 also `_refuted` parts with witnesses |
| C12,C13 | linear_interp_1d, _interp_uniform_grid | against a segment-walking spec by induction on the grid; `_refuted` for non-uniform |
| C14-C19 | tax_and_transfers{,_jax}.py, tax_and_transfers_params.py | case analysis + lra/nra; statute formula as separate spec |
| C20-C23 | non_employment.py, non_consumption_utility.py, wages.py | against rule-style specs |
| C24-C31 | continuous_continuation.py, emaxs.py, validation_solve.py, solve_python.py | refinement of array code to a Bellman recursion over economic states (`S_Bellman`), then induction over the horizon |
| C32-C44,C51 | initial_states.py, simulate_auxiliary.py, income_sim.py, simulate_python.py | invariants by induction over periods; relational invariants for two runs |
| C45-C50 | model_processing.py, tax_and_transfers_params.py, exogenous_processes/*.py, numerical_integration.py | dictionaries as association lists in a heap; list algebra |
| C52-C55 | simulate_python.py from the caller's arguments (`M_Main.v`) | composition of the above: totality, frame conditions on the heap, reuse of the closure |
| C56-C63 | the solver (`T_Reform.v`) | comparison of two Bellman recursions with the same transitions, by induction over the remaining periods |
| C64-C68 | the simulation (`T_SimEntry.v`) | entry rows are the drawn initial states; behaviour as a function of state and shock; the reservation property from monotone pay-offs |
| C72,C73 | numpy's generator (`M_Numpy.v`), prepare_simulation_data, draw_zero_one_distributed_shocks | cumulated shares and inversion step computed in closed form; education levels and shocks traced to positions of the stream |
| C74-C77 | the solver (`T_Stability.v`) | an affine comparison of two Bellman recursions by induction over the remaining periods; convergence of every operation along sequences of economies |
| C78,C79 | solver and simulation (`T_Currency.v`) | every money function is homogeneous of degree one; values and rows of two runs scale by induction; the consumption floors are the only fixed amounts of money in the code |
| C80-C82 | solver and simulation (`T_Grid.v`) | the recursion without a grid (`S_Grid.v`) is Lipschitz in the stock; interpolation on a grid of mesh h moves a Lipschitz function by at most its slope times h; errors add up by induction over the remaining periods; careers by induction over an agent's rows |
| C83 | calculate_inc_tax, calculate_net_income against gettsim_tax_func.py (`M_Gettsim.v`, `T_Gettsim.v`) | both in closed form; the bin found by the reference is the only mask that is set |
| C84 | the whole solver in an arithmetic that is only precise up to u (`S_Precise.v`, `T_Precise.v`) | convergence along the filter "precise and close enough": every branch of the code either agrees in the limit or its sides meet (tax brackets, grid intervals, maxima); induction over periods |
| C85 | read_model_params_init (`S_Entries.v`, `T_Entries.v`) | table of (category, name, parameter) written from the documentation; inversion of a successful reading; sorting makes the order of rows irrelevant |
| C86 | solver and simulation in an arithmetic that is only precise up to u (`S_PreciseSim.v`, `T_PreciseSim.v`) | C84 for the tables; every row is a continuous function of stock, shock and tables; a strict maximum survives small changes; induction along lives carries the choices and stocks from period to period |
| C87 | rounding to p binary digits written out (`S_Binary.v`, `T_Binary.v`) | a nearest multiple of the last digit is a nearest representable number; relative error 2^-p gives `precise`; monotone rounding carries C09 over to floats |
| C88 | random_init.py (`M_RandomInit.v`, `T_RandomInit.v`), reading of the parameter frame | the drawn dictionary is `complete`, the drawn files `files_ok`, the parameters computed for one to four types; then C52; `L_RandomValues.v` computes every literal from a stream of uniform numbers |
| C89 | test_full_solve_continuous.py (`M_Reference.v`), the solver | the test's loops compute the recursion `plain_value` (`S_Reference.v`); the flow utilities of both economies differ by at most eps + 1e-14, backward induction as for C74 |
| C90 | aux_funcs.py (`M_AuxFuncs.v`), simulated data | the rows of an identifier are one career (C76, C82); sums per group of the discounted flows, then C82 for the value at entry |
| C91 | two solutions and two simulations that differ in the integration rule | backward induction as for C74; the data by the comparison of two runs (`L_SimSame.v`), choices decided by the margin |
| C92 | random_init and the whole program, with the edits of the tests (`S_Tests.v`) | the run behind a data set is recovered from C88 and C52, then the general theorems C32, C34, C42, C55, C62, C64, C85 are applied |
| C93 | the whole program, run over `option R` (`S_Partial.v`) | by structural agreement: each function of defined arguments is the defined value of the exact function (`L_Partial*.v`), with the sign facts needed at each division, logarithm and power |
| C94 | solver tables and simulated rows of households whose past does not matter (`S_Idle.v`) | backward induction: values are constant in last choice and experience, interpolation keeps constants, so continuation values cancel |
| C95 | checks of numpy's `choice` and `binomial`, and the calls in initial_states.py and simulate_auxiliary.py (`S_Proper.v`) | case analysis of the checks against an inductive list of objections; trace of the loop over education levels |
| C96 | the tests of soepy/test with fixed inputs | each assertion follows from the theorem about all inputs (C01, C03-C06, C08, C12); the fixtures are written out |
| C97 | jax's and numpy's binary searches (`M_Search.v`, `S_Search.v`) | invariant of the search interval; the place of a number is unique |
| C98 | labels of pickled tables (`S_Labels.v`) | increasing codes below their number are 0, 1, 2, ...; filtering keeps the order |
| C99 | the converters of random_init.py (`M_Convert.v`) | execution of the statements; errors from C46 |
| C100 | rows of simulated data, the solver's table (`S_Expect.v`) | telescoping along careers; induction over the periods to come with the error bounds of C80, C81 |
| C101 | rows of simulated data, bounds of flows (`S_Consistency.v`) | telescoping as in C100; induction over the periods to come with an explicit drift; numeric bounds for the inputs of the test |
| C102 | totals of columns, closeness, order of names (`S_Regression.v`) | a run depends on the caller's objects only (C53, C55), induction over entries and tests; insertion sort commutes with filters |
| C103 | pairs of parameters that differ by a constant (`S_Alias.v`) | the utility factors of the bins that occur are equal, then congruence through solver and simulation |
| C69-C71 | two simulations (`T_SimSame.v`) | joint induction over the periods of two runs (`L_SimSame.v`): same exogenous columns, equal rows where pay-offs, stock law and continuation values agree |

## Trusted base

1. Coq 8.16.1's kernel, `coqc`, and the standard library it loads. No other library, no plugin, no axiom of our own,
   no `Admitted`, no functor or module type, no kernel check switched off.
2. The standard-library axioms listed by `Print Assumptions` (each `T_*.v` file prints them; the table at the end of this
   document is generated by `tools/assumptions.py` from the built files). Only four occur:
   `D` = `ClassicalDedekindReals.sig_forall_dec`, `N` = `ClassicalDedekindReals.sig_not_dec` (construction of the reals),
   `F` = `functional_extensionality_dep`, `C` = `Classical_Prop.classic` (both used by the real analysis of the library).
   Theorems about integers, lists, dictionaries and arbitrary arithmetic need none.
3. The reading of the python code: that `M_*.v` says what the cited lines do. It is not checked by a machine; the definitions
   keep the names, the argument order and the statement order of the source, and the model was re-read against the source
   line by line after it was finished.
4. The contracts of code outside the repository, which appear as explicit hypotheses or oracles:
   * `rng_ok` (`S_Rng.v`): shapes and supports of `numpy.random.choice/binomial/normal`; `rng_total`: they do not raise for
     proper probabilities. `L_Rng.v` exhibits a generator satisfying both, and C72 proves both (in exact arithmetic) for the
     transcription of numpy's algorithms in `M_Numpy.v`; numpy's sources are not in the repository, so what is trusted there is
     that the transcription is right (it reproduces the published reference values and the regression vault, see below).
     Its two rejection loops are cut off after 64 and 256 rounds; the first never repeats in exact arithmetic.
     No theorem assumes anything about distributions.
   * `hermite_ok` (`S_Exog.v`): Gauss-Hermite nodes and weights of `scipy.special.roots_hermite` integrate polynomials up to
     degree 2 (only C49 uses it).
   * numpy/jax indexing, `pd.cut`, `searchsorted`, `np.convolve`, `deepcopy`, dictionary order, `sorted` on strings: modelled
     by definitions in `Base.v`, `M_StateSpace.v`, `M_Experience.v`, `M_Exog.v`, `M_Spec.v`. The binary searches behind `searchsorted` are transcribed in
     `M_Search.v`; C97 proves that the counts used elsewhere are their results.

## What is modelled

Every function of `/repo/soepy` outside `soepy/test` except `soepy.__init__.test` (calls pytest) and the constants of
`soepy_config.py`:

| source | model | functions |
|---|---|---|
| `solve/create_state_space.py`, `solve/covariates.py`, `exogenous_processes/children.py:9-18` | `M_StateSpace.v` | `create_state_space_objects`, `create_discrete_state_space`, `create_child_indexes`, `_kid_age_to_index`, `construct_covariates`, `create_equivalence_scale`, `define_child_age_update_rule` |
| `shared/experience_stock.py`, `interpolation.py`, `wages.py`, `non_consumption_utility.py` | `M_Experience.v` | all |
| `shared/tax_and_transfers_jax.py`, `shared/tax_and_transfers.py`, `pre_processing/tax_and_transfers_params.py:23-57` | `M_Tax.v` | all (the python version of the tax code has the suffix `_py`) |
| `shared/non_employment.py` | `M_NonEmployment.v` | all |
| `solve/continuous_continuation.py`, `emaxs.py`, `validation_solve.py`, `solve_python.py` | `M_Solve.v`, `M_Main.v` | all; `emaxs.construct_emax` and `construct_emax_validation` are one definition with a flag, they differ in one term |
| `simulate/initial_states.py`, `simulate_auxiliary.py`, `income_sim.py`, `constants_sim.py`, `simulate_python.py` | `M_Sim.v`, `M_Main.v` | all |
| `exogenous_processes/*.py`, `shared/numerical_integration.py` | `M_Exog.v` | all |
| `pre_processing/model_processing.py`, `pre_processing/tax_and_transfers_params.py` | `M_Spec.v` | all |
| `test/random_init.py`: `random_init`, `print_dict`; `model_processing.py:28-31` | `M_RandomInit.v` | all but the writing of files (C88); the three converters at the end are in `M_Convert.v` (C99) |
| `test/test_full_solve_continuous.py`: `_next_stock_np`, `_reference_solve`, the test itself | `M_Reference.v`, inputs in `L_ReferenceWitness.v` | in full; `model_spec.experience_grid_points` is a separate argument (C89) |
| `test/resources/aux_funcs.py`: `create_chosen_flow_util`, `create_disc_sum_av_utility` | `M_AuxFuncs.v` | in full; `cleanup` deletes files and is not modelled (C90) |
| `test/test_value_function_simulation_consistency.py` | `M_Consistency.v` (statistics and assertion), `X_Consistency.v` (inputs) | in full but for the writing and deletion of files (C101) |
| `test/test_regression.py`, `test/resources/update_vault.py` | `M_Regression.v` | in full; the pickled vault is an argument, files are arguments of the program, `cleanup` is not modelled (C102) |
| `test/resources/gettsim_tax_func.py` and the arrays `test_tax_and_transfer.py` hands to it | `M_Gettsim.v` | all (C83) |

## What is not modelled

* Floating point: theorems over `R` are about exact arithmetic. `C06` and `C14` hold for every rounding
  after each operation that keeps 0 and 1 (C14: and is idempotent), C09 for monotone ones. What is proved for any arithmetic (`Num T` with no law at all: C01-C04,
  C32, C33, C35, C36, C37, C41-C43, C51_flag_only_through_solution) holds for floats as well. C84 bridges exact and inexact arithmetic for the solver: tables computed with
  operations that are off by a bounded relative or absolute error approach the exact ones (Elterngeld; the error is not quantified); C86 does so for the simulation: where nobody is indifferent, computed choices are the exact ones. C87 shows that rounding to p binary digits is such an arithmetic, with double precision (p = 53) as the instance. Exact arithmetic is total (1/0 = 0, ln x = 0 for x <= 0): C93 runs the same model with undefined results (`S_Partial.v`) and gives the conditions under which none occurs; overflow does not exist in the model; int8 casts wrap (C43).
* jit compilation, caching, device placement, performance, memory. `jax_enable_x64` is set only in `test/conftest.py`: outside the
  test suite the jax parts (the solver) run in single precision unless the caller sets it; C84 and C87 cover that precision as well.
* `pd.read_pickle`, `yaml.safe_load`: the contents are arguments.
* pandas index and dtype machinery: frames are lists of rows in file order; `set_index` only declares keys. Rows
  are not re-sorted by pandas except for the partner files, which are selected with a list of periods (C98).
* Validity of parameter names as python identifiers (`namedtuple` raises for odd names) and duplicate keys in a named tuple.
* Shape errors that jax raises while tracing (broadcasting of incompatible arrays, `lax.scan` with unequal lengths): out-of-range
  positions of jax arrays clamp in the model, as the gather does; theorems about the solver assume matching shapes
  (`inputs_ok`), and `C52` derives them from the inputs of the program.
  Modelled are the checks outside the traced code: negative dimensions of the state space (`np_full_shape`), the division by the number
  of periods and the reshapes of `get_solve_function` (`reshapes`; raised by the call of the solver, not when it is made), `pd.concat` of no frames.
* `**` for a non-positive base is 0 in the model; theorems that meet it prove or assume positivity.

## Simplifications

* Vectorised code is modelled element by element (`map`, `map2`). Masks `x[mask] = f(...)[...]` become a pass over the rows that
  consumes values in row order (`init_body`, `child_update`, `partner_update`).
* `while`/`for` loops are folds over their iteration list (`for_each`), with the loop-carried variables as a record.
* `jax.lax.scan` over reversed periods is the recursion `backward`.
* Side effects: the specification dictionaries live in a heap with references (aliasing and mutation are visible, C45, C53);
  numpy's generator state is threaded through; everything else is pure in python too.
* Errors: the exception type and, where the source spells it out, the message; the traceback position is not modelled. When two errors
  are possible, the model raises the one whose statement comes first.

## Findings (behaviour of the code worth knowing; each is a theorem or a `_refuted` witness)

* C10, C11: the clip to `[0,1]` loses experience of agents who enter late or with much initial experience; the initial stock is
  not clipped.
* C13: the simulator interpolates as if the grid were uniform; with a user-supplied non-uniform grid it disagrees with the solver.
* C25: in the last period the child indexes are the fill value -99; they are used (wrapped) but weighted by nothing that matters,
  because the continuation is zero.
* C29: under Erziehungsgeld values need not increase with experience.
* C38: the solver weights births between t and t+1 with `prob_child[t]`, the simulator draws them with `prob_child[t+1]`.
* C43: the sparse output stores small integers in int8, larger ones wrap.
* C44: solver and simulator resources differ: elasticity scale for non-employment, the floor (1e-14 against machine epsilon),
  Erziehungsgeld for part-time workers, child care costs outside the two age bins.
* C47: type parameters are sorted as strings, so with eleven or more types they are attached to the wrong types.
* C51: the simulator always runs with `biased_exp=False`; the flag acts only through the solution.
* C56, C57: under Erziehungsgeld higher unemployment benefits or wages can lower a mother's value, because the allowance is withdrawn
  in one step at the income limit (`C56_erziehungsgeld_can_fail`, `C57_erziehungsgeld_can_fail`).
* C55: the function returned by `get_simulate_func` solves with the specification it was made with and simulates with the one it is
  called with.
* C65: the lagged choice at entry is guessed from credited years, so one year of full-time work, or two half-credited part-time
  years, count as not having worked.
* C67: under Erziehungsgeld a better wage shock can end part-time work (`C67_erziehungsgeld_can_fail`).
* C69: `test_childless.py` multiplies disutility parameters in the data frame after `model_params` was read from it, so the test
  only varies care costs; the theorem covers both.
* C72: numpy reads a uniform number from opposite ends for probabilities up to and above one half, and draws none for probability 0:
  with a common seed a higher birth probability can remove a birth (`C72_common_numbers_can_fail`).
* C73: the generator is seeded with `seed_sim` before the initial conditions are drawn and seeded with `seed_sim` again before the wage
  shocks are drawn, so education levels and wage shocks are made of the same random numbers and are not independent.
* C77: under Erziehungsgeld values jump where household income passes the income limit of the allowance (`C77_erziehungsgeld_can_fail`);
  estimation routines that rely on a smooth objective should know. Under Elterngeld the solution is continuous in every number.
* C80: under Erziehungsgeld the means test makes flow utility jump in the stock of experience, so a finer grid need not bring the table
  closer to the exact values at a uniform rate (`C80_erziehungsgeld_can_fail`);
* C78: the floors on consumption (1e-14 in the solver, machine epsilon in the simulator) are amounts of money fixed in the code; everything
  else scales with the unit of account (`C78_floor_can_fail`).
* `random_init`: the condition `"kids" or "child" in key` is always true, so every unknown name becomes a disutility parameter; the returned
  dictionary lacks `exp_grid` (only the file has it, `C88_returned_dictionary`); EDUC_YEARS works only with three entries (`C88_three_levels`).
* A `last_child_bearing_period` below -1 does not switch births off: the python slice counts it from the end of the horizon, so -2 allows births in
  all but the last period (`C48_births_negative_period`).
* test_childless.py and test_validation_childless.py write `prob_partner[:, 0, 1] = 0; prob_partner[:, 0, 0] = 1` into a table with four indices. That sets
  the rows of education level 0 to a partner with certainty for singles and to zero probabilities for couples, so women of that level always have a partner
  after entry (`C90_test_partner_table`); test_single_woman.py writes the right entries.
* test_unit_nan asserts the first period of every education level; with few agents a level may not be drawn, and then the minimum of no rows is compared
  (`C92_first_period` has the proviso).
* test_childless.py multiplies disutilities in `model_params_df` after `model_params` was read from it, and passes `model_params` on; its two runs differ only
  in the costs of child care, so the disutilities are not tested.
* test_construction_emax.py calls it an identity that the expected maximum in the last period is the maximum of the utilities at a wage shock of zero, and
  allows a difference of 0.02. It is an identity only without shocks (`C92_last_period`); random_init draws their standard deviation between 0.001 and 1,
  so the outcome of the test depends on the draw.
* initial_states.py does not clip the stock of experience (the transition in experience_stock.py does).  If the credit for part-time work is negative, as it
  may be for mothers of small children (gamma_p + gamma_p_mom < 0), entrants can have -1 years or less, and the logarithm in wages.py is NaN (`C93_entry_wage`).
* emaxs.py bounds the consumption of those who work from below but not that of those who do not; simulate_auxiliary.py bounds both.  With no basic support the
  solver computes NaN or infinity where the simulator does not (`C93_other_conditions`).
* test_value_function_simulation_consistency.py sets wages of about 1 an hour against a basic support of 168.5 a week.  Up to births and partners of probability
  1e-6 nobody ever works there (`C94_nobody_works`, an example of this kind is `C94_case`), so the test compares an annuity with itself and says nothing about
  the values of working.  C101 proves this for the inputs of the test: it passes, with biased expectations or without, unless one of the events of probability 1e-6 is drawn;
  in general the difference it measures is the mean discounted surprise of C100 (`C101_gap`).
* Distributions of initial conditions are checked for every education level, also for those nobody has (`C95_entry_distributions`), but probabilities of births and partners
  only when an agent uses them: a table with entries outside [0, 1] passes the simulation if no agent gets there, while the solver uses it (it checks nothing).
* The order of `exp_grid` in a specification is not checked.  For a grid that is not sorted the binary search returns some place, which need not be the number of entries
  up to the query point (`C97_unsorted_can_differ`); nothing is claimed for such grids.
* The file of births is read by position.  A file with the right labels but sorted by education level first has the right number of rows, is accepted, and gives the
  birth probability of one period and level to another (`C98_births_need_order`).  The partner files are selected by period labels and do not have this problem.
* C99: `init_dict_flat_to_init_dict` does not give back a specification that can be read: it drops `tax_splitting`, the child care costs, the file names and the grid, and
  returns Elterngeld limits that were already converted to weeks.  Nothing calls it.
* The regression tests compare totals of columns: rows in another order, or values exchanged
  between rows, pass (C102_order_unseen).  `LABELS_DATA_SPARSE` names `Experience_Stock` twice,
  without effect.  `update_vault.py` sorts the parameter frame by name, so that `share_10` comes
  before `share_2`: with ten types or more the update itself changes which type has which share
  (C102_sorting_shares_refuted; below ten types the order is kept).
* With `child_age_max` at most 10 (as in several tests; `random_init.py` uses 18) the coefficients `yes_kids` and the three
  `child` coefficients of an alternative are not separately identified: adding a constant to the
  first and subtracting it from the others changes nothing (C103_mothers_for_ages).
  `elasticity_scale` is not the same as a shift of the wage constant: the solver's benefits use the
  scaled wage, the simulation's benefits the unscaled one (C103_scale_benefits, C44).
* The rows of category `shares` are taken in the order of the file whatever their names, those of `hetrg_unobs` by sorted name: a frame with share_2 before
  share_1 gives type 1 the share of type 2 (`C85_share_order_refuted`).
* Births at `child_age_max = -1` share the slot of the childless; `last_child_bearing_period < -1` makes a slice wrap around;
  three education levels are hard-coded in `gen_prob_child_vector` (fewer work, the table has columns to spare; C52 covers one to three).

## How a property is stated

`S_*.v` contains the vocabulary: a Bellman recursion over economic states (`S_Bellman`), the statutory tariff (`S_Tax`), benefit
rules (`S_Benefits`), piecewise linear interpolation by walking the segments (`S_Interp`), accounting of experience years
(`S_Experience`), admissible inputs (`S_Solver`, `S_SimInputs`, `S_Main`), heap equivalence (`S_Spec`). `T_*.v` relates the model to it. Every
theorem with hypotheses is followed (or preceded) by an `Example` that meets them with a concrete economy
(`X_Example.v`, `X_Dict.v`, `L_Witness.v`, `L_SimExample.v`).

## Testing the model

`tools/vault.py` runs the model itself: it extracts `simulate_of` and the generator of `M_Numpy.v` to OCaml (outside /verif) with
machine floats for the numbers, decodes the data file `soepy/test/resources/regression_vault.soepy.pkl` with a stub reader, and
compares the sums of all 25 columns with the expected sums stored there.  No project code is loaded or run.  In every case run so far (the first 45 of the file,
biased and unbiased expectations) all columns agree to about 1e-7, the precision of the single-precision arithmetic that produced the
file; columns with whole numbers agree exactly.  This is a test, not part of the proofs; extraction is not in the trusted base.

## Testing the theorems

`seeded/LOG.jsonl` has one line per wrong program: an edit of one model definition in a scratch copy, the claim it breaks, the
theorems whose proofs (or the lemmas they use) stop checking, and the theorems tightened because of it.  The first entries were
written by hand; the others change single operators, comparisons, literals, field names and branches of every model file.  For these the rebuild stops
at the first failing lemma (`stopped_at`) and `failed` lists the theorems that use it (at most twelve, `failed_in_total` counts them).  These
theorems lost their proof; they were not re-examined one by one, so the list is an upper bound on the theorems that became false.
`"claim_chosen": "by the script"` marks lines whose claim was picked by the script as the first of these properties that cites the
edited source file, not by a reader.  `"timeout"` marks edits where a proof did not finish within the limit: the proof breaks, but Coq
rejected nothing, so these lines are undecided.  `tightened` is given only for edits that survived and were rejected when repeated
after the change.  Earlier versions of the log (before the line on `stopped_at` was added) listed theorems as tightened for some edits that
had been rejected at once, and for five edits the failures of other edits with a similar number; the log was regenerated from the recorded runs.  Edits that survive have a note
saying why they change nothing that is claimed.

## Axioms per theorem

`D`, `N`, `F`, `C` as above; "none" = "Closed under the global context".

<!-- assumptions:begin -->
| theorem | file | axioms |
|---|---|---|
| `C01_total` | `T_StateSpace.v` | none |
| `C01_lookup` | `T_StateSpace.v` | none |
| `C01_rows` | `T_StateSpace.v` | none |
| `C01_no_duplicates` | `T_StateSpace.v` | none |
| `C01_sizes_needed` | `T_StateSpace.v` | none |
| `C02_number_of_states` | `T_StateSpace.v` | none |
| `C02_period_of_row` | `T_StateSpace.v` | none |
| `C02_reshape` | `T_StateSpace.v` | none |
| `C03_transition_table` | `T_StateSpace.v` | none |
| `C04_ageing` | `T_StateSpace.v` | none |
| `C05_covariates` | `T_StateSpace.v` | C D F N |
| `C05_partner_wage_positive` | `T_StateSpace.v` | D F N |
| `C06_next_stock_in_unit_interval` | `T_Experience.v` | C D F N |
| `C06_next_stock_in_unit_interval_rounded` | `T_Experience.v` | C D F N |
| `C07_accumulation` | `T_Experience.v` | C D F N |
| `C07_conversion_reads_years` | `T_Experience.v` | C D F N |
| `C07_clip_never_binds` | `T_Experience.v` | C D F N |
| `C08_stock_years_stock` | `T_Experience.v` | C D F N |
| `C08_years_stock_years` | `T_Experience.v` | C D F N |
| `C08_zero_maximum` | `T_Experience.v` | C D F N |
| `C09_monotone_in_stock` | `T_Experience.v` | C D F N |
| `C09_monotone_in_credit` | `T_Experience.v` | C D F N |
| `C09_choice_order` | `T_Experience.v` | C D F N |
| `C09_monotone_in_stock_rounded` | `T_Experience.v` | C D F N |
| `C09_choice_order_rounded` | `T_Experience.v` | C D F N |
| `C09_full_time_strictly_more` | `T_Experience.v` | C D F N |
| `C09_biased_part_time_counts_full` | `T_Experience.v` | C D F N |
| `C10_carry_over` | `T_Experience.v` | C D F N |
| `C10_carry_over_iff` | `T_Experience.v` | C D F N |
| `C10_carry_over_refuted` | `T_Experience.v` | C D F N |
| `C11_initial_years` | `T_Experience.v` | C D F N |
| `C11_initial_years_late_entry` | `T_Experience.v` | C D F N |
| `C11_initial_stock_unit_iff` | `T_Experience.v` | C D F N |
| `C11_initial_years_refuted` | `T_Experience.v` | C D F N |
| `C11_initial_stock_unit_refuted` | `T_Experience.v` | C D F N |
| `C12_at_grid_points` | `T_Interp.v` | C D F N |
| `C12_chord_between_neighbours` | `T_Interp.v` | C D F N |
| `C12_within_neighbours` | `T_Interp.v` | C D F N |
| `C12_monotone_in_query` | `T_Interp.v` | C D F N |
| `C12_extrapolation_below` | `T_Interp.v` | C D F N |
| `C12_extrapolation_above` | `T_Interp.v` | C D F N |
| `C12_single_point` | `T_Interp.v` | C D F N |
| `C13_same_on_uniform_grid` | `T_Interp.v` | C D F N |
| `C13_single_point` | `T_Interp.v` | C D F N |
| `C13_simulator_clips` | `T_Interp.v` | C D F N |
| `C13_any_grid_refuted` | `T_Interp.v` | C D F N |
| `C14_tax_implementations_agree` | `T_Tax.v` | C D F N |
| `C14_ssc_implementations_agree` | `T_Tax.v` | C D F N |
| `C14_net_income_implementations_agree` | `T_Tax.v` | C D F N |
| `C14_exact` | `T_Tax.v` | C D F N |
| `C15_no_tax_up_to_allowance` | `T_Tax.v` | C D F N |
| `C15_never_negative` | `T_Tax.v` | C D F N |
| `C15_increasing_and_bounded_slope` | `T_Tax.v` | C D F N |
| `C15_positive_above_allowance` | `T_Tax.v` | C D F N |
| `C15_continuous` | `T_Tax.v` | C D F N |
| `C15_convex` | `T_Tax.v` | C D F N |
| `C16_statute_within_one_euro` | `T_Tax.v` | C D F N |
| `C17_rate_up_to_cap` | `T_Tax.v` | C D F N |
| `C17_monotone` | `T_Tax.v` | C D F N |
| `C17_never_exceeds_income` | `T_Tax.v` | C D F N |
| `C18_strictly_increasing_in_own_wage` | `T_Tax.v` | C D F N |
| `C18_strictly_increasing_in_partner_wage` | `T_Tax.v` | C D F N |
| `C18_at_most_gross` | `T_Tax.v` | C D F N |
| `C18_positive` | `T_Tax.v` | C D F N |
| `C19_splitting_never_hurts` | `T_Tax.v` | C D F N |
| `C19_splitting_can_help` | `T_Tax.v` | C D F N |
| `C19_equal_incomes` | `T_Tax.v` | C D F N |
| `C19_equal_taxable_incomes` | `T_Tax.v` | C D F N |
| `C19_irrelevant_for_singles` | `T_Tax.v` | C D F N |
| `C20_benefit_rules` | `T_Benefits.v` | C D F N |
| `C20_at_least_basic_support` | `T_Benefits.v` | D F |
| `C20_no_previous_job` | `T_Benefits.v` | D F |
| `C20_elterngeld_limits` | `T_Benefits.v` | D F |
| `C20_regimes_agree_without_baby` | `T_Benefits.v` | D F |
| `C20_erziehungsgeld_iff` | `T_Benefits.v` | D F |
| `C21_resources_are_partner_income_plus_benefits` | `T_Benefits.v` | C D F N |
| `C21_resources_positive` | `T_Benefits.v` | C D F N |
| `C22_utility_factors` | `T_Benefits.v` | C D F N |
| `C22_positive` | `T_Benefits.v` | C D F N |
| `C23_wage_equation` | `T_Benefits.v` | C D F N |
| `C23_wage_positive_and_monotone` | `T_Benefits.v` | C D F N |
| `C24_pyth_solve` | `T_Main.v` | C D F N |
| `C24_solver_is_bellman` | `T_Solve.v` | C D F N |
| `C24_table_shape` | `T_Solve.v` | C D F N |
| `C25_terminal_continuation` | `T_Solve.v` | C D F N |
| `C26_option_value` | `T_Solve.v` | C D F N |
| `C27_no_rule_better` | `T_Solve.v` | C D F N |
| `C27_best_rule_attains` | `T_Solve.v` | C D F N |
| `C28_value_bounds` | `T_Solve.v` | C D F N |
| `C29_experience_monotone` | `T_Solve.v` | C D F N |
| `C29_erziehungsgeld_can_fail` | `T_Solve.v` | C D F N |
| `C30_childless_invariance` | `T_Solve.v` | C D F N |
| `C31_single_invariance` | `T_Solve.v` | C D F N |
| `C32_panel` | `T_Sim.v` | none |
| `C33_blocks` | `T_Sim.v` | none |
| `C33_states_listed` | `T_Sim.v` | none |
| `C33_simulation_returns` | `T_Sim.v` | C D F N |
| `C34_choice_maximises_value` | `T_Sim.v` | C D F N |
| `C34_payoffs_are_bellman` | `T_Sim.v` | C D F N |
| `C35_history` | `T_Sim.v` | none |
| `C35_experience_counts_choices` | `T_Sim.v` | none |
| `C36_demography` | `T_Sim.v` | none |
| `C36_certain_events` | `T_Sim.v` | none |
| `C37_successor_listed` | `T_Sim.v` | none |
| `C37_stock_as_anticipated` | `T_Sim.v` | C D F N |
| `C37_solver_anticipates_stock` | `T_Sim.v` | C D F N |
| `C38_same_birth_probability_refuted` | `T_Sim.v` | C D F N |
| `C38_agrees_if_constant` | `T_Sim.v` | C D F N |
| `C39_observed_wage` | `T_Sim.v` | C D F N |
| `C40_private_shocks` | `T_Sim.v` | C D F N |
| `C41_simulate_reproducible` | `T_Sim.v` | none |
| `C41_closure_calls_independent` | `T_Sim.v` | none |
| `C42_exogenous_columns` | `T_Sim.v` | none |
| `C42_partner_wages` | `T_Sim.v` | C D F N |
| `C43_sparse_restricts_full` | `T_Sim.v` | none |
| `C43_no_loss` | `T_Sim.v` | none |
| `C43_key_unique` | `T_Sim.v` | none |
| `C43_wraps_beyond_bytes` | `T_Sim.v` | none |
| `C44_same_payoffs` | `T_Sim.v` | C D F N |
| `C44_reported_payoffs` | `T_Sim.v` | C D F N |
| `C44_scaled_wages_refuted` | `T_Sim.v` | C D F N |
| `C44_below_floor_refuted` | `T_Sim.v` | C D F N |
| `C44_costs_for_older_refuted` | `T_Sim.v` | C D F N |
| `C44_without_child_benefits_refuted` | `T_Sim.v` | C D F N |
| `C45_caller_unchanged` | `T_Spec.v` | C D F N |
| `C45_same_result` | `T_Spec.v` | C D F N |
| `C45_weekly_once` | `T_Spec.v` | C D F N |
| `C45_entries_decide` | `T_Spec.v` | C D F N |
| `C45_order` | `T_Spec.v` | C D F N |
| `C46_program_errors` | `T_Main.v` | C D F N |
| `C46_dictionary_errors` | `T_Spec.v` | C D F N |
| `C46_complete_accepted` | `T_Spec.v` | C D F N |
| `C47_types_aligned` | `T_Spec.v` | C D F N |
| `C47_one_type` | `T_Spec.v` | C D F N |
| `C47_number_of_types` | `T_Spec.v` | C D F N |
| `C47_eleven_types_refuted` | `T_Spec.v` | C D F N |
| `C48_partner_transitions` | `T_Exog.v` | C D F N |
| `C48_partner_rows_sum_to_one` | `T_Exog.v` | C D F N |
| `C48_births` | `T_Exog.v` | C D F N |
| `C48_births_negative_period` | `T_Exog.v` | C D F N |
| `C48_initial_shares` | `T_Exog.v` | C D F N |
| `C48_initial_shares_defined` | `T_Exog.v` | C D F N |
| `C49_monte_carlo` | `T_Exog.v` | C D F N |
| `C49_quadrature` | `T_Exog.v` | C D F N |
| `C50_law_of_total_experience` | `T_Exog.v` | C D F N |
| `C51_flag_only_through_solution` | `T_Sim.v` | none |
| `C51_realised_experience_unbiased` | `T_Sim.v` | C D F N |
| `C52_program_returns` | `T_Main.v` | C D F N |
| `C52_program_returns_one_type` | `T_Main.v` | C D F N |
| `C52_needs_a_period` | `T_Main.v` | C D F N |
| `C52_no_period` | `T_Main.v` | C D F N |
| `C52_arrays_fit` | `T_Main.v` | C D F N |
| `C53_caller_unchanged` | `T_Main.v` | C D F N |
| `C53_reproducible` | `T_Main.v` | C D F N |
| `C54_simulation_of_the_solution` | `T_Main.v` | C D F N |
| `C54_inputs_of_the_simulation` | `T_Main.v` | C D F N |
| `C54_pyth_solve` | `T_Main.v` | C D F N |
| `C55_function_reused` | `T_Main.v` | C D F N |
| `C55_other_specification` | `T_Main.v` | C D F N |
| `C55_partial_objects` | `T_Main.v` | C D F N |
| `C56_reform_elterngeld` | `T_Reform.v` | C D F N |
| `C56_reform_erziehungsgeld` | `T_Reform.v` | C D F N |
| `C56_erziehungsgeld_can_fail` | `T_Reform.v` | C D F N |
| `C57_higher_wages` | `T_Reform.v` | C D F N |
| `C57_erziehungsgeld_can_fail` | `T_Reform.v` | C D F N |
| `C58_types_compared` | `T_Reform.v` | C D F N |
| `C58_equal_types` | `T_Reform.v` | C D F N |
| `C59_sign_of_values` | `T_Reform.v` | C D F N |
| `C59_patience` | `T_Reform.v` | C D F N |
| `C59_static` | `T_Reform.v` | C D F N |
| `C60_only_the_future_matters` | `T_Reform.v` | C D F N |
| `C61_own_education_and_type` | `T_Reform.v` | C D F N |
| `C62_correct_bias_solution` | `T_Reform.v` | C D F N |
| `C62_correct_bias_data` | `T_Reform.v` | C D F N |
| `C63_distribution_of_draws` | `T_Reform.v` | C D F N |
| `C63_order_of_draws` | `T_Reform.v` | C D F N |
| `C64_initial_conditions` | `T_SimEntry.v` | none |
| `C64_entry_row_exists` | `T_SimEntry.v` | none |
| `C64_shares_respected` | `T_SimEntry.v` | none |
| `C64_positive_probability` | `T_SimEntry.v` | C D F N |
| `C65_initial_lagged_choice` | `T_SimEntry.v` | C D F N |
| `C65_full_time_only` | `T_SimEntry.v` | C D F N |
| `C66_policy_function` | `T_SimEntry.v` | none |
| `C67_reservation_shock` | `T_SimEntry.v` | C D F N |
| `C67_erziehungsgeld_can_fail` | `T_SimEntry.v` | C D F N |
| `C68_stock_at_entry` | `T_SimEntry.v` | C D F N |
| `C68_stock_bounds` | `T_SimEntry.v` | C D F N |
| `C69_childless_population` | `T_SimSame.v` | C D F N |
| `C69_nobody_has_children` | `T_SimSame.v` | C D F N |
| `C70_single_population` | `T_SimSame.v` | C D F N |
| `C70_nobody_has_a_partner` | `T_SimSame.v` | C D F N |
| `C71_own_rows` | `T_SimSame.v` | C D F N |
| `C72_numpy_contract` | `T_Numpy.v` | C D F N |
| `C72_twister_numbers` | `T_Numpy.v` | C D F N |
| `C72_twister_bits` | `T_Numpy.v` | C D F N |
| `C72_choice_law` | `T_Numpy.v` | C D F N |
| `C72_binomial_law` | `T_Numpy.v` | C D F N |
| `C72_normal_law` | `T_Numpy.v` | C D F N |
| `C72_program_returns_with_numpy` | `T_Numpy.v` | C D F N |
| `C73_numbers_used_twice` | `T_Numpy.v` | C D F N |
| `C73_education_predicts_shock` | `T_Numpy.v` | C D F N |
| `C74_stability` | `T_Stability.v` | C D F N |
| `C74_rescaling` | `T_Stability.v` | C D F N |
| `C75_tastes` | `T_Stability.v` | C D F N |
| `C76_discount_factor` | `T_Stability.v` | C D F N |
| `C76_demography` | `T_Stability.v` | C D F N |
| `C76_flows_bounded` | `T_Stability.v` | C D F N |
| `C76_continuous_in_discount_factor` | `T_Stability.v` | C D F N |
| `C76_continuous_in_demography` | `T_Stability.v` | C D F N |
| `C76_continuous_in_tastes` | `T_Stability.v` | C D F N |
| `C77_continuity` | `T_Stability.v` | C D F N |
| `C77_erziehungsgeld_can_fail` | `T_Stability.v` | C D F N |
| `C78_unit_of_account` | `T_Currency.v` | C D F N |
| `C79_same_decisions` | `T_Currency.v` | C D F N |
| `C80_grid_error` | `T_Grid.v` | C D F N |
| `C80_elterngeld_slope` | `T_Grid.v` | C D F N |
| `C80_erziehungsgeld_can_fail` | `T_Grid.v` | C D F N |
| `C80_grids_converge` | `T_Grid.v` | C D F N |
| `C80_uniform_grid` | `T_Grid.v` | D F |
| `C81_reported_values` | `T_Grid.v` | C D F N |
| `C81_nearly_optimal` | `T_Grid.v` | C D F N |
| `C82_career` | `T_Grid.v` | C D F N |
| `C82_no_returns` | `T_Grid.v` | C D F N |
| `C82_careers_exist` | `T_Grid.v` | C D F N |
| `C83_income_tax` | `T_Gettsim.v` | C D F N |
| `C83_single` | `T_Gettsim.v` | C D F N |
| `C83_separate` | `T_Gettsim.v` | C D F N |
| `C83_splitting` | `T_Gettsim.v` | C D F N |
| `C83_repeated_threshold` | `T_Gettsim.v` | C D F N |
| `C84_precision` | `T_Precise.v` | C D F N |
| `C84_tax_table` | `T_Precise.v` | C D F N |
| `C84_erziehungsgeld_can_fail` | `T_Precise.v` | C D F N |
| `C85_own_entries` | `T_Entries.v` | C D F N |
| `C85_complete` | `T_Entries.v` | C D F N |
| `C85_types_counted` | `T_Entries.v` | C D F N |
| `C85_order` | `T_Entries.v` | C D F N |
| `C85_share_order_refuted` | `T_Entries.v` | C D F N |
| `C86_precision` | `T_PreciseSim.v` | C D F N |
| `C86_choices` | `T_PreciseSim.v` | C D F N |
| `C86_ties_can_fail` | `T_PreciseSim.v` | C D F N |
| `C87_nearest` | `T_Binary.v` | C D F N |
| `C87_ties_to_even` | `T_Binary.v` | C D F N |
| `C87_keeps` | `T_Binary.v` | C D F N |
| `C87_integers` | `T_Binary.v` | C D F N |
| `C87_monotone` | `T_Binary.v` | C D F N |
| `C87_precise` | `T_Binary.v` | C D F N |
| `C87_solver` | `T_Binary.v` | C D F N |
| `C87_simulation` | `T_Binary.v` | C D F N |
| `C87_double` | `T_Binary.v` | C D F N |
| `C88_inputs_run` | `T_RandomInit.v` | C D F N |
| `C88_constraints_kept` | `T_RandomInit.v` | C D F N |
| `C88_parameters` | `T_RandomInit.v` | C D F N |
| `C88_parameter_values` | `T_RandomInit.v` | C D F N |
| `C88_policy` | `T_RandomInit.v` | C D F N |
| `C88_unread_entry` | `T_RandomInit.v` | C D F N |
| `C88_partners_switched_off` | `T_RandomInit.v` | C D F N |
| `C88_returned_dictionary` | `T_RandomInit.v` | C D F N |
| `C88_completed_dictionary` | `T_RandomInit.v` | C D F N |
| `C88_separate_sections` | `T_RandomInit.v` | C D F N |
| `C88_three_levels` | `T_RandomInit.v` | C D F N |
| `C88_one_entry_per_category` | `T_RandomInit.v` | none |
| `C89_reference_is_recursion` | `T_Reference.v` | C D F N |
| `C89_solver_matches_reference` | `T_Reference.v` | C D F N |
| `C89_test_passes` | `T_Reference.v` | C D F N |
| `C90_average` | `T_AuxFuncs.v` | C D F N |
| `C90_lives_exist` | `T_AuxFuncs.v` | C D F N |
| `C90_refused` | `T_AuxFuncs.v` | C D F N |
| `C90_no_rows` | `T_AuxFuncs.v` | none |
| `C90_value` | `T_AuxFuncs.v` | C D F N |
| `C90_no_returns` | `T_AuxFuncs.v` | C D F N |
| `C90_single_women` | `T_AuxFuncs.v` | C D F N |
| `C90_test_partner_table` | `T_AuxFuncs.v` | C D F N |
| `C91_integration_error` | `T_AuxFuncs.v` | C D F N |
| `C91_same_data` | `T_AuxFuncs.v` | C D F N |
| `C91_small_errors` | `T_AuxFuncs.v` | C D F N |
| `C91_no_shocks` | `T_AuxFuncs.v` | C D F N |
| `C91_no_margin` | `T_AuxFuncs.v` | C D F N |
| `C92_first_period` | `T_Tests.v` | C D F N |
| `C92_no_first_period` | `T_Tests.v` | C D F N |
| `C92_no_children_no_experience` | `T_Tests.v` | C D F N |
| `C92_number_of_rows` | `T_Tests.v` | C D F N |
| `C92_bellman` | `T_Tests.v` | C D F N |
| `C92_same_function` | `T_Tests.v` | C D F N |
| `C92_demography` | `T_Tests.v` | C D F N |
| `C92_expectation` | `T_Tests.v` | C D F N |
| `C92_missing_entries` | `T_Tests.v` | C D F N |
| `C92_last_period` | `T_Tests.v` | C D F N |
| `C93_reading` | `T_Partial.v` | C D F N |
| `C93_solution` | `T_Partial.v` | C D F N |
| `C93_simulation` | `T_Partial.v` | C D F N |
| `C93_program` | `T_Partial.v` | C D F N |
| `C93_no_undefined_number` | `T_Partial.v` | C D F N |
| `C93_entry_wage` | `T_Partial.v` | C D F N |
| `C93_other_conditions` | `T_Partial.v` | C D F N |
| `C94_table` | `T_Idle.v` | C D F N |
| `C94_static_choice` | `T_Idle.v` | C D F N |
| `C94_no_returns` | `T_Idle.v` | C D F N |
| `C94_nobody_works` | `T_Idle.v` | C D F N |
| `C95_choice` | `T_Proper.v` | C D F N |
| `C95_binomial` | `T_Proper.v` | C D F N |
| `C95_entry_distributions` | `T_Proper.v` | C D F N |
| `C95_probabilities` | `T_Proper.v` | C D F N |
| `C95_education_shares` | `T_Proper.v` | C D F N |
| `C95_program` | `T_Proper.v` | C D F N |
| `C96_state_space` | `T_UnitTests.v` | C D F N |
| `C96_child_index` | `T_UnitTests.v` | none |
| `C96_experience` | `T_UnitTests.v` | C D F N |
| `C96_interpolation` | `T_UnitTests.v` | C D F N |
| `C96_benefits` | `T_UnitTests.v` | C D F N |
| `C97_jax` | `T_Search.v` | C D F N |
| `C97_interpolation` | `T_Search.v` | C D F N |
| `C97_numpy` | `T_Search.v` | C D F N |
| `C97_choice` | `T_Search.v` | C D F N |
| `C97_choice_exact` | `T_Search.v` | C D F N |
| `C98_births` | `T_Labels.v` | C D F N |
| `C98_partners` | `T_Labels.v` | C D F N |
| `C98_initial_shares` | `T_Labels.v` | C D F N |
| `C98_partner_order` | `T_Labels.v` | C D F N |
| `C98_births_need_order` | `T_Labels.v` | C D F N |
| `C99_values` | `T_Convert.v` | none |
| `C99_needed` | `T_Convert.v` | none |
| `C99_not_readable` | `T_Convert.v` | C D F N |
| `C99_amounts_per_week` | `T_Convert.v` | C D F N |
| `C100_surprises` | `T_Expect.v` | C D F N |
| `C100_surprises_exist` | `T_Expect.v` | C D F N |
| `C100_average_surprise` | `T_Expect.v` | C D F N |
| `C100_expected_utility` | `T_Expect.v` | C D F N |
| `C100_no_returns` | `T_Expect.v` | C D F N |
| `C100_simulated_births` | `T_Expect.v` | C D F N |
| `C101_gap` | `T_Consistency.v` | C D F N |
| `C101_verdict` | `T_Consistency.v` | C D F N |
| `C101_rare_events` | `T_Consistency.v` | C D F N |
| `C101_test_runs` | `T_Consistency.v` | C D F N |
| `C101_test_data` | `T_Consistency.v` | C D F N |
| `C101_test_passes` | `T_Consistency.v` | C D F N |
| `C101_nobody_works` | `T_Consistency.v` | C D F N |
| `C101_no_events` | `T_Consistency.v` | C D F N |
| `C102_verdict` | `T_Regression.v` | C D F N |
| `C102_tests_pass` | `T_Regression.v` | C D F N |
| `C102_independent` | `T_Regression.v` | C D F N |
| `C102_update_keeps` | `T_Regression.v` | C D F N |
| `C102_stored_totals` | `T_Regression.v` | C D F N |
| `C102_update_again` | `T_Regression.v` | C D F N |
| `C102_update_runs` | `T_Regression.v` | C D F N |
| `C102_sorting` | `T_Regression.v` | C D F N |
| `C102_sorting_shares_refuted` | `T_Regression.v` | D F |
| `C102_order_unseen` | `T_Regression.v` | D F |
| `C103_types_for_levels` | `T_Alias.v` | C D F N |
| `C103_mothers_for_ages` | `T_Alias.v` | C D F N |
| `C103_older_children` | `T_Alias.v` | C D F N |
| `C103_called` | `T_Alias.v` | C D F N |
| `C103_scale_solution` | `T_Alias.v` | C D F N |
| `C103_scale_data` | `T_Alias.v` | C D F N |
| `C103_scale_benefits` | `T_Alias.v` | C D F N |
| `C103_scale_benefits_refuted` | `T_Alias.v` | C D F N |
<!-- assumptions:end -->
