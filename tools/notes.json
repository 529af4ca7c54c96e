{
 "C10": "The unconditional claim is refuted by a witness; the exact condition under which it holds is proved.",
 "C11": "Holds for entry in period 0; the unconditional claims are refuted by witnesses.",
 "C13": "Equal on the uniform grid; refuted by a witness for a user-supplied non-uniform grid.",
 "C29": "Monotone under Elterngeld for the 2007 tariff, contribution rate in [0,1), positive basic support, non-negative replacement rates and mu<>0; a one-period economy under Erziehungsgeld where it fails is exhibited.",
 "C24": "For inputs whose arrays have matching shapes and a strictly increasing grid; solve is the function returned by get_solve_function, for arbitrary integration draws and weights.",
 "C56": "Elterngeld and Erziehungsgeld reforms; C56_erziehungsgeld_can_fail shows that the means test breaks the claim for unemployment benefit",
 "C57": "Elterngeld; C57_erziehungsgeld_can_fail is the counterexample for the other regime",
 "C64": "The generic statement says \"not of probability 0\" (for the partner: \"could be drawn\"); C64_positive_probability is the reading for proper distributions over the reals",
 "C67": "Real arithmetic; C67_erziehungsgeld_can_fail is the counterexample for the other regime",
 "C68": "Non-negative credits; the stock at entry may exceed 1",
 "C69": "Real arithmetic; the demographic settings (largest child age, last childbearing period, seeds, sizes) and birth probabilities are shared by both runs",
 "C70": "Real arithmetic",
 "C71": "Real arithmetic; shares of types and demographic probabilities are shared by both runs",
 "C72": "Exact arithmetic; numpy's algorithms transcribed in M_Numpy.v (numpy is not in the repository), rejection loops cut off after 64 and 256 rounds",
 "C73": "Describes a defect: education and wage shocks are not independent. Exact arithmetic; first accepted pair of the polar method",
 "C75": "mu<>0; work factors are products of at most five taste terms",
 "C77": "Exact arithmetic; the 2007 table of the code, 0<=rate<1, positive basic support; C77_erziehungsgeld_can_fail is the counterexample for the other regime",
 "C78": "Exact arithmetic; solution_clear excludes working incomes below the floor 1e-14 in either unit; C78_floor_can_fail shows it is needed",
 "C79": "Exact arithmetic; data_clear excludes incomes below 2^-52 in either unit",
 "C80": "Exact arithmetic; quadrature nodes are part of the exact model (only the grid is an approximation); C80_erziehungsgeld_can_fail shows the slope condition is not automatic",
 "C81": "Exact arithmetic; evenly spaced grid, as the simulator assumes; stock clipped to [0,1] as the interpolation does",
 "C82": "Exact arithmetic; row_above_floor excludes incomes below the floor 1e-14; C82_careers_exist shows that every row starts a career",
 "C83": "Exact arithmetic; the reference implementation of the test resources is modelled in M_Gettsim.v",
 "C84": "Arithmetics without overflow; the precision is shown to exist, not computed; C84_erziehungsgeld_can_fail is the counterexample outside Elterngeld",
 "C85": "C85_share_order_refuted is the witness that the rows of category shares are taken by position",
 "C86": "Arithmetics without overflow; the precision is shown to exist, not computed; that the exogenous draws come out alike is assumed (same_lives); C86_ties_can_fail is the counterexample with indifferent agents",
 "C87": "No largest number: overflow, infinities and NaN are outside the model; exp, log and power are taken as correctly rounded here (C84 and C86 allow any error within the precision); how many digits are enough for a given accuracy is not computed",
 "C88": "Writing and reading of YAML and pickle files is taken to preserve the values; division of the shares by their sum is exact (in floating point the shares sum to one up to rounding)",
 "C89": "Exact arithmetic; np.linspace and np.interp are modelled for the calls made here",
 "C90": "Exact arithmetic; pandas groupby().sum().mean() is modelled as sums per identifier in increasing order of identifiers",
 "C91": "Exact arithmetic; the bound on single expectations is a hypothesis, not derived for Gauss-Hermite against Monte Carlo draws",
 "C92": "Exact arithmetic; the assertion of test_unit_nan needs the proviso that the level is drawn (pandas min of no rows is NaN)",
 "C93": "NaN and infinite results of single operations; overflow is not modelled. The tax table is that of the readers",
 "C94": "the condition on flow utilities is on grid points and draws of the solver; the two applications give conditions on inputs",
 "C95": "exact real arithmetic: the compensated sum of choice is the sum",
 "C96": "exact real arithmetic; the continuation test in rational arithmetic",
 "C97": "jax and numpy are transcribed from their published sources, which are not in the repository",
 "C98": "pandas selection by labels is modelled as taking the rows of the given periods, period by period, in file order",
 "C99": "a named tuple and the dictionary it is made from are not distinguished",
 "C100": "exact arithmetic; wage shocks are averaged over the nodes and weights of the solver; circumstances of C44 in which solver and simulation value choices alike",
 "C101": "exact arithmetic; the inputs of the test are written out in X_Consistency.v; the verdict is for runs in which no event of probability 1e-6 is drawn",
 "C102": "exact arithmetic; the stored files of the vault are an argument; the update returns under C52's conditions",
 "C103": "exact arithmetic: rounded sums of shifted tastes may differ in the last bits"
}