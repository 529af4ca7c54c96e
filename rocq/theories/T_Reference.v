(** Property theorems C89: the second implementation of the solution in
    soepy/test/test_full_solve_continuous.py and the solver. *)
From Coq Require Import Reals Lra Lia ZArith List String.
From Verif Require Import Base Num M_Params M_Exog M_StateSpace M_Solve M_Main M_Reference L_Num S_Interp S_StateSpace S_Bellman S_Solver S_Stability
  S_Reference L_Reference L_ReferenceWitness.
Import ListNotations.
Open Scope R_scope.

(** The test's numpy loops, given the objects of the state space, return a table with one
    entry per state, and it holds the recursion of the economy in which utility is
    consumption of own earnings. *)
Theorem C89_reference_is_recursion :
  forall sp mp pc pp n, inputs_ok sp mp pc pp -> (2 <= n)%Z -> exp_grid sp = uniform_grid (Z.to_nat n) ->
  exists ss ref, create_state_space_objects sp = Ok ss /\
    reference_solve (ss_states ss) (ss_covariates ss) (ss_child_state_indexes ss) mp sp n pc pp = Ok ref /\
    zlen ref = zlen (ss_states ss) /\
    forall t e l ty a m, in_space sp t e l ty a m -> exists i rows,
      ix_get (ss_indexer ss) (t, e, l, ty, a, m) = Ok i /\ np_get ref i = Ok rows /\
      rows = map (fun x => map (fun c => plain_continuation sp mp (child_fun pc) (partner_fun pp) (remaining sp t) t e ty a m c x) [0; 1; 2]%Z
                           ++ [plain_value sp mp (child_fun pc) (partner_fun pp) (remaining sp t) t e l ty a m x]) (exp_grid sp).
Proof. intros sp mp pc pp n Hok Hn Hg. exact (reference_run sp mp pc pp n Hok Hn Hg). Qed.
Print Assumptions C89_reference_is_recursion.

(** If there are no shocks, tastes, taxes and benefits and partners earn at most eps, the
    solver's table and the test's differ nowhere by more than
    (eps + 1e-14) (1 + delta + ... + delta^(P - 1)). *)
Theorem C89_solver_matches_reference :
  forall sp mp pc pp n zs ws eps, inputs_ok sp mp pc pp -> (2 <= n)%Z -> exp_grid sp = uniform_grid (Z.to_nat n) ->
  probabilities sp pc pp -> plain sp mp -> 0 <= delta mp ->
  nonneg_weights zs ws -> average (fun _ => 1) (combine zs ws) = 1 -> 0 <= eps ->
  (forall t e, (0 <= t < num_periods sp)%Z -> (0 <= e < num_educ_levels sp)%Z -> partner_wage sp t e 1 <= eps) ->
  exists ss ncu emaxs ref, create_state_space_objects sp = Ok ss /\
    solve sp (ss_states ss) (ss_covariates ss) (ss_child_state_indexes ss) pc pp zs ws false mp = Ok (ncu, emaxs) /\
    reference_solve (ss_states ss) (ss_covariates ss) (ss_child_state_indexes ss) mp sp n pc pp = Ok ref /\
    tables_near ((eps + 1 / 100000000000000) * geometric (delta mp) (Z.to_nat (num_periods sp - 1))) emaxs ref.
Proof.
  intros sp mp pc pp n zs ws eps Hok Hn Hg Hprob Hpl Hd Hw Hw1 He Hpw.
  exact (tables_close sp mp pc pp n Hok Hn Hg zs ws eps Hprob Hpl Hd Hw Hw1 He Hpw).
Qed.
Print Assumptions C89_solver_matches_reference.

(** The test itself (test_full_solve_continuous.py:246-290), in exact arithmetic and with the
    Gauss-Hermite rule with one node: every entry of the solver's table is within 1e-10 of the
    reference.  ([np.testing.assert_allclose] allows 1e-10 plus a multiple of the reference.) *)
Theorem C89_test_passes :
  forall rg roots s2 spi r g, roots 1%Z = ([r], [spi]) -> spi <> 0 ->
  exists ss ncu emaxs g1 ref, create_state_space_objects test_spec = Ok ss /\
    pyth_solve rg roots s2 spi (ss_states ss) (ss_covariates ss) (ss_child_state_indexes ss) test_params test_spec test_births test_partners false g
      = Ok ((ncu, emaxs), g1) /\
    reference_solve (ss_states ss) (ss_covariates ss) (ss_child_state_indexes ss) test_params test_spec 10 test_births test_partners = Ok ref /\
    tables_near (1 / 10000000000) emaxs ref.
Proof.
  intros rg roots s2 spi r g Hr Hs.
  destruct (C89_solver_matches_reference test_spec test_params test_births test_partners 10 [r * s2] [spi * (1 / spi)] (1 / 1000000000000000)
    test_inputs ltac:(lia) eq_refl test_probs test_plain) as (ss & ncu & emaxs & ref & H1 & H2 & H3 & H4).
  - cbn [test_params delta]. lra.
  - intros z w [H|[]]. injection H as <- <-. replace (spi * (1 / spi)) with 1 by (field; exact Hs). lra.
  - cbn [combine average]. field. exact Hs.
  - lra.
  - exact test_wage.
  - exists ss, ncu, emaxs, g, ref. split; [exact H1|]. split; [|split; [exact H3|]].
    + assert (D : get_integration_draws_and_weights rg roots s2 spi test_spec g = Ok (([r * s2], [spi * (1 / spi)]), g)).
      { unfold get_integration_draws_and_weights. change (num_draws_emax test_spec) with 1%Z. rewrite Hr. reflexivity. }
      unfold pyth_solve. rewrite D. cbn [bind fst snd]. rewrite H2. reflexivity.
    + eapply tables_near_le; [|exact H4]. cbn [test_spec test_params num_periods delta]. change (Z.to_nat (5 - 1)) with 4%nat. cbn [geometric]. lra.
Qed.
Print Assumptions C89_test_passes.

(** These inputs meet all conditions of the theorems above. *)
Example C89_conditions : inputs_ok test_spec test_params test_births test_partners /\ exp_grid test_spec = uniform_grid (Z.to_nat 10) /\
  probabilities test_spec test_births test_partners /\ plain test_spec test_params /\ 0 <= delta test_params.
Proof. refine (conj test_inputs (conj eq_refl (conj test_probs (conj test_plain _)))). cbn [test_params delta]. lra. Qed.
