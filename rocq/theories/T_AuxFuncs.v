(** Property theorems C90, C91: the test suite's summary statistic, and what the method of
    integration does to it. *)
From Coq Require Import Reals Lra Lia ZArith List String.
From Verif Require Import Base Num M_Params M_Exog M_Sim M_AuxFuncs S_Interp S_StateSpace S_Bellman S_Solver S_Rng S_Sim S_SimInputs S_SimEntry S_Stability
  S_Grid S_GridSim S_Invariance S_SimSame S_AuxFuncs L_Num L_Solver L_Interp L_Rng L_Sim L_SimFlow L_SimSame L_SimInvariance L_Grid L_GridSim L_AuxFuncs
  X_Example L_Witness L_SimExample L_SameWitness L_CurrencyWitness L_GridWitness L_Stability T_Grid.
Import ListNotations.
Open Scope R_scope.

(** C90: create_disc_sum_av_utility, for data with at least one row, is the sum of the
    discounted flow utilities of all rows over the number of agents; that is the mean over
    agents of the discounted sum of their lives, counted from period 0 ... *)
Theorem C90_average :
  forall sp mp biased zs ws pc pp sol rg ip data delta,
  inputs_ok sp mp pc pp -> solved sp mp biased zs ws pc pp sol ->
  sim_setting rg sp sol -> simulation rg mp sp sol ip pc pp data -> data <> [] ->
  exists s, create_disc_sum_av_utility data delta = Ok (Some s) /\
    (forall ids vs, agents_of data ids -> Forall2 (discounted_flow delta) data vs -> s * INR (List.length ids) = total vs) /\
    (forall firsts lives, agents_of data (map row_id firsts) -> Forall2 (life sp data) firsts lives ->
       s = mean (map2 (fun r us => delta ^ Z.to_nat (row_period r) * discounted delta us) firsts lives)).
Proof.
  intros sp mp biased zs ws pc pp sol rg ip data delta Hok Hs Hset Hsim Hne.
  exact (statistic rg mp sp biased zs ws pc pp sol ip data Hok Hs Hset Hsim delta Hne).
Qed.
Print Assumptions C90_average.

(** ... the lists exist ... *)
Theorem C90_lives_exist :
  forall sp mp biased zs ws pc pp sol rg ip data,
  inputs_ok sp mp pc pp -> solved sp mp biased zs ws pc pp sol ->
  sim_setting rg sp sol -> simulation rg mp sp sol ip pc pp data ->
  (exists firsts lives, agents_of data (map row_id firsts) /\ Forall2 (life sp data) firsts lives) /\
  forall delta, exists vs, Forall2 (discounted_flow delta) data vs.
Proof.
  intros sp mp biased zs ws pc pp sol rg ip data Hok Hs Hset Hsim. split.
  - exact (lives_exist rg mp sp biased zs ws pc pp sol ip data Hok Hs Hset Hsim).
  - intros delta. destruct (chosen_ok data (rows_full rg mp sp biased zs ws pc pp sol ip data Hok Hs Hset Hsim)) as (us & _ & Hus).
    exact (discounted_exists delta data us Hus).
Qed.
Print Assumptions C90_lives_exist.

(** ... and data without the columns of the full output (data_sparse) are refused, data
    without rows have no mean *)
Theorem C90_refused :
  forall (data : list (out_row R)) delta,
  (forall r, In r data -> o_full r = None) -> data <> [] ->
  create_disc_sum_av_utility data delta = Err (KeyError "Flow_Utility_N").
Proof.
  intros data delta H Hne. destruct data as [|r data]; [congruence|]. unfold create_disc_sum_av_utility, create_chosen_flow_util, flow_column.
  cbn [mapM]. rewrite (H r (or_introl eq_refl)). reflexivity.
Qed.
Print Assumptions C90_refused.
Theorem C90_no_rows : forall delta : R, create_disc_sum_av_utility [] delta = Ok None.
Proof. reflexivity. Qed.
Print Assumptions C90_no_rows.

(** In a world without risk (C82) it is the mean of the values reported at entry, up to the
    error of the grid: what test_value_function_simulation_consistency.py looks for ... *)
Theorem C90_value :
  forall sp mp zs ws pc pp sol rg ip data L k,
  inputs_ok sp mp pc pp -> solved sp mp false zs ws pc pp sol ->
  sim_setting rg sp sol -> simulation rg mp sp sol ip pc pp data -> data <> [] ->
  nonneg_weights zs ws -> average (fun _ => 1) (combine zs ws) = 1 -> probabilities sp pc pp ->
  (2 <= k)%nat -> exp_grid sp = uniform_grid k -> 0 <= delta mp -> 0 <= L ->
  flows_lipschitz L sp mp false (combine zs ws) ->
  shock_sd mp = 0 -> certain_births sp pc -> certain_partners sp pp ->
  unscaled sp -> no_costs_for_older sp -> benefits_paid sp ->
  (forall r, In r data -> 0 <= a_stock (o_state r) <= 1 /\ row_above_floor sp mp r) ->
  forall s firsts lives vs, create_disc_sum_av_utility data (delta mp) = Ok (Some s) ->
  agents_of data (map row_id firsts) -> Forall2 (life sp data) firsts lives -> Forall2 best_value firsts vs ->
  near (mean (map (fun r => delta mp ^ Z.to_nat (row_period r) *
                            (L * (1 / INR (k - 1)) * career_error (delta mp) (remaining sp (row_period r)))) firsts))
    s (mean (map2 (fun r v => delta mp ^ Z.to_nat (row_period r) * v) firsts vs)).
Proof.
  intros sp mp zs ws pc pp sol rg ip data L k Hok Hs Hset Hsim Hne Hw Hw1 Hp Hk Hg Hd HL Hf Hsd Hcb Hcp U1 U2 U3 Hrows.
  apply (mean_value sp mp zs ws pc pp sol rg ip data Hok Hs Hset Hsim _ Hd); [|exact Hne].
  intros r rs Hca us v Hus Hv.
  apply (C82_career sp mp zs ws pc pp sol rg ip data L k Hok Hs Hset Hsim Hw Hw1 Hp Hk Hg Hd HL Hf Hsd Hcb Hcp U1 U2 U3 r rs Hca); try assumption.
  - apply Hrows. exact (career_in _ _ _ Hca r (or_introl eq_refl)).
  - intros q Hq. apply Hrows. exact (career_in _ _ _ Hca q Hq).
Qed.
Print Assumptions C90_value.

(** ... and exactly that if experience has no return *)
Theorem C90_no_returns :
  forall sp mp zs ws pc pp sol rg ip data k,
  inputs_ok sp mp pc pp -> solved sp mp false zs ws pc pp sol ->
  sim_setting rg sp sol -> simulation rg mp sp sol ip pc pp data -> data <> [] ->
  nonneg_weights zs ws -> average (fun _ => 1) (combine zs ws) = 1 -> probabilities sp pc pp ->
  (2 <= k)%nat -> exp_grid sp = uniform_grid k -> 0 <= delta mp ->
  (forall e, (0 <= e < num_educ_levels sp)%Z -> at_ (gamma_1 mp) e = 0) ->
  shock_sd mp = 0 -> certain_births sp pc -> certain_partners sp pp ->
  unscaled sp -> no_costs_for_older sp -> benefits_paid sp ->
  (forall r, In r data -> 0 <= a_stock (o_state r) <= 1 /\ row_above_floor sp mp r) ->
  forall s firsts lives vs, create_disc_sum_av_utility data (delta mp) = Ok (Some s) ->
  agents_of data (map row_id firsts) -> Forall2 (life sp data) firsts lives -> Forall2 best_value firsts vs ->
  s = mean (map2 (fun r v => delta mp ^ Z.to_nat (row_period r) * v) firsts vs).
Proof.
  intros sp mp zs ws pc pp sol rg ip data k Hok Hs Hset Hsim Hne Hw Hw1 Hp Hk Hg Hd H0 Hsd Hcb Hcp U1 U2 U3 Hrows s firsts lives vs Es Hag HL Hvs.
  pose proof (C90_value sp mp zs ws pc pp sol rg ip data 0 k Hok Hs Hset Hsim Hne Hw Hw1 Hp Hk Hg Hd (Rle_refl 0)
    (flat_lipschitz sp mp false _ H0) Hsd Hcb Hcp U1 U2 U3 Hrows s firsts lives vs Es Hag HL Hvs) as N.
  assert (Z0 : mean (map (fun r => delta mp ^ Z.to_nat (row_period r) * (0 * (1 / INR (k - 1)) * career_error (delta mp) (remaining sp (row_period r)))) firsts) = 0).
  { unfold mean. assert (E : total (map (fun r => delta mp ^ Z.to_nat (row_period r) * (0 * (1 / INR (k - 1)) * career_error (delta mp) (remaining sp (row_period r)))) firsts) = 0).
    { clear. induction firsts as [|r l IH]; [reflexivity|]. cbn [map]. change (total (?a :: ?b)) with (a + total b). rewrite IH. ring. }
    rewrite E. unfold Rdiv. ring. }
  rewrite Z0 in N. unfold near in N. apply Rabs_le_inv in N. lra.
Qed.
Print Assumptions C90_no_returns.

Example C90_case : forall g1, g1 = gamma_1 ex_params \/ g1 = flat -> exists sol data L firsts lives vs,
  let mp := sure_params g1 in
  inputs_ok ex_spec mp no_children settled /\ solved ex_spec mp false ex_draws ex_weights no_children settled sol /\
  sim_setting ex_rng ex_spec sol /\ simulation ex_rng mp ex_spec sol fresh_ip no_children settled data /\ data <> [] /\
  flows_lipschitz L ex_spec mp false (combine ex_draws ex_weights) /\
  (forall r, In r data -> 0 <= a_stock (o_state r) <= 1 /\ row_above_floor ex_spec mp r) /\
  agents_of data (map row_id firsts) /\ Forall2 (life ex_spec data) firsts lives /\ Forall2 best_value firsts vs.
Proof.
  intros g1 Hg. destruct (C82_case g1 Hg) as (sol & data & L & A1 & A2 & A3 & A4 & _ & _ & _ & A5 & _ & _ & _ & _ & _ & _ & _ & A6 & r & r' & Hf & _).
  destruct (proj1 (C90_lives_exist _ _ _ _ _ _ _ _ _ _ _ A1 A2 A3 A4)) as (firsts & lives & B1 & B2).
  assert (Hv : exists vs, Forall2 best_value firsts vs).
  { clear B1. induction B2 as [|f us firsts lives [(rs & C1 & _) _] B2 [vs IH]]; [exists []; constructor|].
    destruct (rows_full _ _ _ _ _ _ _ _ _ _ _ A1 A2 A3 A4 f (career_in _ _ _ C1 f (or_introl eq_refl))) as (_ & x & Ex & _).
    eexists. constructor; [|exact IH]. exists x. split; [exact Ex|reflexivity]. }
  destruct Hv as [vs Hv]. exists sol, data, L, firsts, lives, vs. cbv zeta.
  refine (conj A1 (conj A2 (conj A3 (conj A4 (conj _ (conj A5 (conj A6 (conj B1 (conj B2 Hv))))))))).
  destruct Hf as (Hr & _). intros E. rewrite E in Hr. exact Hr.
Qed.

(** single women (test_single_woman.py): nobody's partner earns anything, and the statistic
    does not depend on how couples are taxed *)
Theorem C90_single_women :
  forall sp mp flag biased zs ws pc pp sol sol',
  inputs_ok sp mp pc pp ->
  solved sp mp biased zs ws pc pp sol -> solved (with_splitting sp flag) mp biased zs ws pc pp sol' ->
  forall rg ip data data' delta, sim_setting rg sp sol -> sim_setting rg (with_splitting sp flag) sol' ->
  enter_single ip -> no_arrivals pp ->
  simulation rg mp sp sol ip pc pp data -> simulation rg mp (with_splitting sp flag) sol' ip pc pp data' ->
  create_disc_sum_av_utility data' delta = create_disc_sum_av_utility data delta /\
  forall r f, In r data -> o_full r = Some f -> f_male_wage f = 0.
Proof.
  intros sp mp flag biased zs ws pc pp sol sol' Hok Hs Hs' rg ip data data' delta Hset Hset' He Ha Hsim Hsim'. split.
  - rewrite (single_data sp mp flag biased zs ws pc pp sol sol' Hok Hs Hs' rg ip data data' Hset Hset' He Ha Hsim Hsim'). reflexivity.
  - intros r f Hr Hf. pose proof (all_single rg mp sp sol ip pc pp data Hset Hsim (proj2 (proj2 (proj2 Hok))) He Ha r Hr) as Em.
    destruct Hset as (S1 & S2 & S3). destruct Hsim as (g & g' & Hd).
    pose proof (male_wage_of_row rg mp sp sol ip pc pp S1 S2 S3 g g' data Hd r Hr) as E. rewrite Hf in E. cbn [option_map] in E. injection E as ->.
    rewrite Em. reflexivity.
Qed.
Print Assumptions C90_single_women.

(** the partner table test_childless.py and test_validation_childless.py build for single
    women has its indices shifted: women of education level 0 have a partner from the period
    after entry, always *)
Theorem C90_test_partner_table :
  forall rg mp sp sol ip pc pp data, sim_setting rg sp sol ->
  simulation rg mp sp sol ip pc (test_partner_table pp) data ->
  forall r r', follows data r r' -> a_educ (o_state r) = 0%Z -> a_partner (o_state r') = 1%Z.
Proof. exact test_partners. Qed.
Print Assumptions C90_test_partner_table.

Example C90_test_table_case : exists sol data,
  sim_setting ex_rng ex_spec sol /\ simulation ex_rng ex_params ex_spec sol low_ip ex_prob_child (test_partner_table ex_prob_partner) data /\
  exists r r', follows data r r' /\ a_educ (o_state r) = 0%Z /\ row_period r = 0%Z.
Proof. exact test_table_run. Qed.

(** C91: another method of integration.  If single expectations differ by at most eta, the
    errors add up like discounted payments: expected maxima and continuation values n periods
    before the last differ by at most eta (1 + delta + ... + delta^n), with n and n - 1 ... *)
Theorem C91_integration_error :
  forall sp mp biased zs ws zs' ws' pc pp eta,
  inputs_ok sp mp pc pp -> nonneg_weights zs' ws' -> average (fun _ => 1) (combine zs' ws') = 1 ->
  probabilities sp pc pp -> spans_unit (exp_grid sp) -> 0 <= delta mp ->
  integrates_alike eta sp mp biased zs ws zs' ws' pc pp ->
  forall t e l ty a m g v v', in_space sp t e l ty a m -> (g < List.length (exp_grid sp))%nat ->
  (solver_cell sp mp biased zs ws pc pp t e l ty a m g 3 = Ok v ->
   solver_cell sp mp biased zs' ws' pc pp t e l ty a m g 3 = Ok v' ->
   near (eta * geometric (delta mp) (remaining sp t)) v v') /\
  (forall c, (0 <= c < 3)%Z ->
   solver_cell sp mp biased zs ws pc pp t e l ty a m g c = Ok v ->
   solver_cell sp mp biased zs' ws' pc pp t e l ty a m g c = Ok v' ->
   near (match remaining sp t with O => 0 | S n => eta * geometric (delta mp) n end) v v').
Proof. exact integration_error. Qed.
Print Assumptions C91_integration_error.

(** ... and if choices are clear by twice the discounted difference of the tables, the
    simulated data are the same in everything but expectations; the statistic is the same
    number (test_quadrature.py asserts equality) ... *)
Theorem C91_same_data :
  forall rg mp sp biased zs ws zs' ws' pc pp method draws seed sol sol' ip data data' k eps,
  let sp' := with_integration sp method draws seed in
  inputs_ok sp mp pc pp -> solved sp mp biased zs ws pc pp sol -> solved sp' mp biased zs' ws' pc pp sol' ->
  (2 <= k)%nat -> exp_grid sp = uniform_grid k -> 0 <= delta mp ->
  tables_near eps sp mp biased zs ws zs' ws' pc pp ->
  sim_setting rg sp sol -> sim_setting rg sp' sol' ->
  simulation rg mp sp sol ip pc pp data -> simulation rg mp sp' sol' ip pc pp data' ->
  margin (2 * delta mp * eps) data ->
  Forall2 (same_but_expectations eps) data data' /\
  forall d, create_disc_sum_av_utility data d = create_disc_sum_av_utility data' d.
Proof.
  intros rg mp sp biased zs ws zs' ws' pc pp method draws seed sol sol' ip data data' k eps sp' Hok Hs Hs' Hk Hg Hd Hn S1 S2 D1 D2 Hm.
  pose proof (same_panel rg mp sp biased zs ws zs' ws' pc pp method draws seed sol sol' ip data data' Hok Hs Hs' k Hk Hg eps Hn Hd S1 S2 D1 D2 Hm) as H.
  split; [exact H|]. intros d. exact (same_statistic eps d data data' H).
Qed.
Print Assumptions C91_same_data.

(** ... the two together *)
Theorem C91_small_errors :
  forall rg mp sp biased zs ws zs' ws' pc pp method draws seed sol sol' ip data data' k eta,
  let sp' := with_integration sp method draws seed in
  let eps := eta * geometric (delta mp) (Z.to_nat (num_periods sp) - 2) in
  inputs_ok sp mp pc pp -> solved sp mp biased zs ws pc pp sol -> solved sp' mp biased zs' ws' pc pp sol' ->
  nonneg_weights zs' ws' -> average (fun _ => 1) (combine zs' ws') = 1 -> probabilities sp pc pp ->
  (2 <= k)%nat -> exp_grid sp = uniform_grid k -> 0 <= delta mp -> (2 <= num_periods sp)%Z -> 0 <= eta ->
  integrates_alike eta sp mp biased zs ws zs' ws' pc pp ->
  sim_setting rg sp sol -> sim_setting rg sp' sol' ->
  simulation rg mp sp sol ip pc pp data -> simulation rg mp sp' sol' ip pc pp data' ->
  margin (2 * delta mp * eps) data ->
  Forall2 (same_but_expectations eps) data data'.
Proof.
  intros rg mp sp biased zs ws zs' ws' pc pp method draws seed sol sol' ip data data' k eta sp' eps Hok Hs Hs' Hw Hw1 Hp Hk Hg Hd H2 He Hi S1 S2 D1 D2 Hm.
  apply (C91_same_data rg mp sp biased zs ws zs' ws' pc pp method draws seed sol sol' ip data data' k eps); try assumption.
  apply integration_tables; try assumption. rewrite Hg. apply uniform_spans. exact Hk.
Qed.
Print Assumptions C91_small_errors.

(** without wage shocks all methods agree, and every data set has the margin 0 *)
Theorem C91_no_shocks :
  forall sp mp biased zs ws zs' ws' pc pp, shock_sd mp = 0 ->
  average (fun _ => 1) (combine zs ws) = 1 -> average (fun _ => 1) (combine zs' ws') = 1 ->
  integrates_alike 0 sp mp biased zs ws zs' ws' pc pp.
Proof. exact no_shocks_alike. Qed.
Print Assumptions C91_no_shocks.
Theorem C91_no_margin :
  forall sp mp biased zs ws pc pp sol rg ip data,
  inputs_ok sp mp pc pp -> solved sp mp biased zs ws pc pp sol ->
  sim_setting rg sp sol -> simulation rg mp sp sol ip pc pp data -> margin 0 data.
Proof.
  intros sp mp biased zs ws pc pp sol rg ip data Hok Hs Hset Hsim r Hr.
  destruct (rows_of_simulation rg mp sp biased zs ws pc pp sol Hok Hs ip data Hset Hsim) as (col & _ & H).
  destruct (H r Hr) as (z & f & _ & _ & Hf & _ & _ & _ & _ & _ & (B1 & B2 & B3)). exists f. split; [exact Hf|].
  split; intros c Hc; rewrite Rplus_0_r; [apply B3; lia|apply B2; lia].
Qed.
Print Assumptions C91_no_margin.

(** the example without wage shocks, solved with its own rule and with four draws of weight
    1/4: one expectation is taken with either rule, and the data agree *)
Definition four_draws : list R := [-1; -1/3; 1/3; 1].
Definition four_weights : list R := [1/4; 1/4; 1/4; 1/4].
Example C91_case : exists sol sol' data data',
  let mp := sure_params (gamma_1 ex_params) in
  let sp' := with_integration ex_spec "monte_carlo" 4 7 in
  inputs_ok ex_spec mp no_children settled /\ solved ex_spec mp false ex_draws ex_weights no_children settled sol /\
  solved sp' mp false four_draws four_weights no_children settled sol' /\
  nonneg_weights four_draws four_weights /\ average (fun _ => 1) (combine four_draws four_weights) = 1 /\
  probabilities ex_spec no_children settled /\ exp_grid ex_spec = uniform_grid 5 /\ 0 <= delta mp /\ (2 <= num_periods ex_spec)%Z /\
  integrates_alike 0 ex_spec mp false ex_draws ex_weights four_draws four_weights no_children settled /\
  sim_setting ex_rng ex_spec sol /\ sim_setting ex_rng sp' sol' /\
  simulation ex_rng mp ex_spec sol fresh_ip no_children settled data /\ simulation ex_rng mp sp' sol' fresh_ip no_children settled data' /\
  margin (2 * delta mp * (0 * geometric (delta mp) (Z.to_nat (num_periods ex_spec) - 2))) data /\
  exists r r', follows data r r' /\ row_period r = 2%Z.
Proof.
  set (g1 := gamma_1 ex_params). assert (Hl : List.length g1 = 3%nat) by reflexivity.
  pose proof (proj2 (childless_ok ex_spec ex_params ex_inputs eq_refl eq_refl)) as Hpc.
  destruct (run_with_draws ex_spec (sure_params g1) ex_draws ex_weights no_children settled fresh_ip (sure_inputs g1 Hl) Hpc settled_probs fresh_init ex_types ex_sim_spec)
    as (sol & data & A1 & A2 & A3).
  assert (Hi : init_ok (with_integration ex_spec "monte_carlo" 4 7) fresh_ip) by (destruct fresh_init; constructor; assumption).
  destruct (run_with_draws (with_integration ex_spec "monte_carlo" 4 7) (sure_params g1) four_draws four_weights no_children settled fresh_ip
    (sure_inputs g1 Hl) Hpc settled_probs Hi ex_types ex_sim_spec) as (sol' & data' & B1 & B2 & B3).
  assert (W : average (fun _ => 1) (combine four_draws four_weights) = 1) by (cbn; lra).
  exists sol, sol', data, data'. cbv zeta.
  refine (conj (sure_inputs g1 Hl) (conj A1 (conj B1 (conj _ (conj W (conj sure_probabilities (conj eq_refl (conj _ (conj _ (conj _ (conj A2 (conj B2 (conj A3 (conj B3 (conj _ _))))))))))))))).
  - intros z w H. cbn in H. repeat (destruct H as [H|H]; [injection H as <- <-; lra|]). destruct H.
  - cbn [sure_params delta ex_params]. lra.
  - cbn [ex_spec num_periods]. lia.
  - apply C91_no_shocks; [reflexivity|exact ex_weights_sum|exact W].
  - rewrite Rmult_0_l, Rmult_0_r. exact (C91_no_margin _ _ _ _ _ _ _ _ _ _ _ (sure_inputs g1 Hl) A1 A2 A3).
  - exact (someone sol _ fresh_ip _ _ data A2 A3).
Qed.
