(** Property theorems C80 - C82: the grid of experience levels is an approximation.  The
    model it approximates has the same recursion with values taken at the stock itself
    ([exact_value], [exact_continuation] in S_Grid). *)
From Coq Require Import Reals Lra Lia ZArith List String.
From Verif Require Import Base Num M_Params M_Tax M_Exog M_Sim S_Interp S_Tax S_Benefits S_StateSpace S_Bellman S_Solver
  S_Rng S_Sim S_SimInputs S_SimEntry S_Stability S_Grid S_GridSim L_Num L_Bellman L_Solver L_Rng L_Sim L_SimProps L_Stability
  L_Interp L_Grid L_GridSim X_Example L_Witness L_SimExample L_SameWitness L_CurrencyWitness L_GridWitness.
Import ListNotations.
Open Scope R_scope.

(** C80: if flow utilities change by at most L per unit of the stock and grid points are at
    most h apart, the table is off by at most L h times [grid_error] (expected maximum) and
    [cont_error] (continuation values) - polynomials in the discount factor ... *)
Theorem C80_grid_error :
  forall sp mp biased zs ws pc pp L h,
  inputs_ok sp mp pc pp -> nonneg_weights zs ws -> average (fun _ => 1) (combine zs ws) = 1 ->
  probabilities sp pc pp -> spans_unit (exp_grid sp) -> mesh (exp_grid sp) h -> 0 <= delta mp -> 0 <= L ->
  flows_lipschitz L sp mp biased (combine zs ws) ->
  forall t e l ty a m g v, in_space sp t e l ty a m -> (g < List.length (exp_grid sp))%nat ->
  (solver_cell sp mp biased zs ws pc pp t e l ty a m g 3 = Ok v ->
   near (L * h * grid_error (delta mp) (remaining sp t))
     (exact_value sp mp (is_elterngeld sp) biased (combine zs ws) (child_fun pc) (partner_fun pp) (remaining sp t)
        t e l ty a m (nth g (exp_grid sp) 0)) v) /\
  (forall c, (0 <= c < 3)%Z -> solver_cell sp mp biased zs ws pc pp t e l ty a m g c = Ok v ->
   near (L * h * cont_error (delta mp) (remaining sp t))
     (exact_continuation sp mp (is_elterngeld sp) biased (combine zs ws) (child_fun pc) (partner_fun pp) (remaining sp t)
        t e ty a m c (nth g (exp_grid sp) 0)) v).
Proof. exact solver_grid_error. Qed.
Print Assumptions C80_grid_error.

(** ... under the Elterngeld regime, with the 2007 tax schedule and positive basic support,
    there is such an L ... *)
Theorem C80_elterngeld_slope :
  forall sp mp biased rate cap draws,
  spec_ok sp -> tax_params sp = create_tax_parameters -> ssc_deductions sp = (rate, cap) -> 0 <= rate < 1 -> 0 <= cap ->
  (forall a, 0 < basic_support sp a 0) -> is_elterngeld sp = true ->
  exists L, 0 <= L /\ flows_lipschitz L sp mp biased draws.
Proof.
  intros sp mp biased rate cap draws Hsp Htp Hss Hr Hc Hfl. exact (elterngeld_lipschitz sp mp biased rate cap Hsp Htp Hss Hr Hc Hfl draws).
Qed.
Print Assumptions C80_elterngeld_slope.

(** ... but not under Erziehungsgeld: the means test makes flow utility jump *)
Theorem C80_erziehungsgeld_can_fail :
  ~ (forall sp mp biased rate cap draws,
     spec_ok sp -> tax_params sp = create_tax_parameters -> ssc_deductions sp = (rate, cap) -> 0 <= rate < 1 -> 0 <= cap ->
     (forall a, 0 < basic_support sp a 0) ->
     exists L, flows_lipschitz L sp mp biased draws).
Proof.
  intros H. apply erz_jumps. apply (H erz_spec erz_params false (1/5) 1221 [(0, 1)]); try reflexivity; try lra.
  - apply erz_inputs.
  - intros a. unfold basic_support. cbn [Z.eqb erz_spec regelsatz_single housing_single regelsatz_child addition_child_single housing_addtion].
    destruct (a =? -1)%Z; lra.
Qed.
Print Assumptions C80_erziehungsgeld_can_fail.

(** finer grids: the tables converge, uniformly over all states and grid points *)
Theorem C80_grids_converge :
  forall sp mp biased zs ws pc pp L,
  inputs_ok sp mp pc pp -> nonneg_weights zs ws -> average (fun _ => 1) (combine zs ws) = 1 ->
  probabilities sp pc pp -> 0 <= delta mp -> 0 <= L -> flows_lipschitz L sp mp biased (combine zs ws) ->
  forall eps, 0 < eps -> exists h, 0 < h /\ forall g, S_Interp.increasing g -> spans_unit g -> mesh g h ->
  forall t e l ty a m k v, in_space sp t e l ty a m -> (k < List.length g)%nat ->
  (solver_cell (with_grid sp g) mp biased zs ws pc pp t e l ty a m k 3 = Ok v ->
   near eps (exact_value sp mp (is_elterngeld sp) biased (combine zs ws) (child_fun pc) (partner_fun pp) (remaining sp t)
      t e l ty a m (nth k g 0)) v) /\
  (forall c, (0 <= c < 3)%Z -> solver_cell (with_grid sp g) mp biased zs ws pc pp t e l ty a m k c = Ok v ->
   near eps (exact_continuation sp mp (is_elterngeld sp) biased (combine zs ws) (child_fun pc) (partner_fun pp) (remaining sp t)
      t e ty a m c (nth k g 0)) v).
Proof. exact grids_converge. Qed.
Print Assumptions C80_grids_converge.

(** the code's grids: n evenly spaced points from 0 to 1 are 1/(n-1) apart *)
Theorem C80_uniform_grid :
  forall n, (2 <= n)%nat -> S_Interp.increasing (uniform_grid n) /\ spans_unit (uniform_grid n) /\ mesh (uniform_grid n) (1 / INR (n - 1)).
Proof. intros n Hn. refine (conj (uniform_increasing n) (conj (uniform_spans n Hn) (uniform_mesh n Hn))). Qed.
Print Assumptions C80_uniform_grid.

Example C80_case :
  inputs_ok ex_spec ex_params ex_prob_child ex_prob_partner /\
  nonneg_weights ex_draws ex_weights /\ average (fun _ => 1) (combine ex_draws ex_weights) = 1 /\
  probabilities ex_spec ex_prob_child ex_prob_partner /\ spans_unit (exp_grid ex_spec) /\ mesh (exp_grid ex_spec) (1/4) /\
  0 <= delta ex_params /\ exists L, 0 <= L /\ flows_lipschitz L ex_spec ex_params false (combine ex_draws ex_weights).
Proof.
  refine (conj ex_inputs (conj ex_weights_ok (conj ex_weights_sum (conj ex_probs (conj ex_grid_unit (conj ex_mesh (conj _ (ex_lipschitz _ _ _)))))))).
  cbn [ex_params delta]. lra.
Qed.
(** three periods to come, discount factor 1/2 *)
Example C80_error_values : grid_error (1/2) 3 = 11/8 /\ cont_error (1/2) 3 = 11/4.
Proof. cbn [grid_error cont_error geometric]. split; lra. Qed.

(** C81: what the simulation reports about a row, compared with the model with a continuous
    stock: continuation values are within L h [report_error] of the exact ones at the row's
    stock ... *)
Theorem C81_reported_values :
  forall sp mp biased zs ws pc pp sol rg ip data L k,
  inputs_ok sp mp pc pp -> solved sp mp biased zs ws pc pp sol ->
  sim_setting rg sp sol -> simulation rg mp sp sol ip pc pp data ->
  nonneg_weights zs ws -> average (fun _ => 1) (combine zs ws) = 1 -> probabilities sp pc pp ->
  (2 <= k)%nat -> exp_grid sp = uniform_grid k -> 0 <= delta mp -> 0 <= L ->
  flows_lipschitz L sp mp biased (combine zs ws) ->
  forall r, In r data -> exists f, let a := o_state r in
    o_full r = Some f /\
    forall c, (0 <= c < 3)%Z ->
      let exact := exact_continuation sp mp (is_elterngeld sp) biased (combine zs ws) (child_fun pc) (partner_fun pp)
                     (remaining sp (a_period a)) (a_period a) (a_educ a) (a_type a) (a_age a) (a_partner a) c (clip01 (a_stock a)) in
      let err := L * (1 / INR (k - 1)) * report_error (delta mp) (remaining sp (a_period a)) in
      near err exact (at_ (f_cont f) c) /\
      near (delta mp * err) (at_ (f_flow f) c + delta mp * exact) (at_ (f_value f) c).
Proof.
  intros sp mp biased zs ws pc pp sol rg ip data L k Hok Hs Hset Hsim Hw Hw1 Hp Hk Hg Hd HL Hf r Hr.
  destruct (reported_rows sp mp biased zs ws pc pp sol rg ip data L k Hok Hs Hset Hsim Hw Hw1 Hp Hk Hg Hd HL Hf r Hr)
    as (f & z & H1 & _ & H2 & H3 & _). exists f. cbv zeta in *. refine (conj H1 _). intros c Hc. specialize (H2 c Hc). split; [exact H2|].
  rewrite (H3 c Hc). unfold near in *.
  match goal with |- Rabs (?u + ?v - (?w + ?y)) <= _ => replace (u + v - (w + y)) with (v - y) by ring end.
  rewrite <- Rmult_minus_distr_l, Rabs_mult, (Rabs_right (delta mp)) by lra. apply Rmult_le_compat_l; assumption.
Qed.
Print Assumptions C81_reported_values.

(** ... and the alternative chosen is the best one up to twice that error *)
Theorem C81_nearly_optimal :
  forall sp mp biased zs ws pc pp sol rg ip data L k,
  inputs_ok sp mp pc pp -> solved sp mp biased zs ws pc pp sol ->
  sim_setting rg sp sol -> simulation rg mp sp sol ip pc pp data ->
  nonneg_weights zs ws -> average (fun _ => 1) (combine zs ws) = 1 -> probabilities sp pc pp ->
  (2 <= k)%nat -> exp_grid sp = uniform_grid k -> 0 <= delta mp -> 0 <= L ->
  flows_lipschitz L sp mp biased (combine zs ws) ->
  forall r, In r data -> exists f, let a := o_state r in
    o_full r = Some f /\ (0 <= o_choice r < 3)%Z /\
    forall c, (0 <= c < 3)%Z ->
      let exact c := at_ (f_flow f) c + delta mp *
                     exact_continuation sp mp (is_elterngeld sp) biased (combine zs ws) (child_fun pc) (partner_fun pp)
                       (remaining sp (a_period a)) (a_period a) (a_educ a) (a_type a) (a_age a) (a_partner a) c (clip01 (a_stock a)) in
      exact c <= exact (o_choice r) + 2 * delta mp * (L * (1 / INR (k - 1)) * report_error (delta mp) (remaining sp (a_period a))).
Proof.
  intros sp mp biased zs ws pc pp sol rg ip data L k Hok Hs Hset Hsim Hw Hw1 Hp Hk Hg Hd HL Hf.
  exact (nearly_optimal sp mp biased zs ws pc pp sol rg ip data L k Hok Hs Hset Hsim Hw Hw1 Hp Hk Hg Hd HL Hf).
Qed.
Print Assumptions C81_nearly_optimal.

Example C81_case : exists sol data L,
  inputs_ok ex_spec ex_params ex_prob_child ex_prob_partner /\ solved ex_spec ex_params false ex_draws ex_weights ex_prob_child ex_prob_partner sol /\
  sim_setting ex_rng ex_spec sol /\ simulation ex_rng ex_params ex_spec sol ex_ip ex_prob_child ex_prob_partner data /\
  exp_grid ex_spec = uniform_grid 5 /\ 0 <= L /\ flows_lipschitz L ex_spec ex_params false (combine ex_draws ex_weights) /\
  exists r r', follows data r r' /\ row_period r = 2%Z.
Proof.
  destruct (any_run ex_spec ex_params _ _ ex_ip ex_inputs ex_child_probs ex_partner_probs ex_init_ok ex_types ex_sim_spec) as (sol & data & Hs & Hset & Hsim).
  destruct (ex_lipschitz ex_params false (combine ex_draws ex_weights)) as (L & HL & Hf).
  exists sol, data, L. refine (conj ex_inputs (conj Hs (conj Hset (conj Hsim (conj eq_refl (conj HL (conj Hf _))))))).
  exact (someone sol ex_params ex_ip _ _ data Hset Hsim).
Qed.

(** C82: a world without risk - no wage shocks, births and partners certain, correct
    expectations, and payoffs on which solution and simulation agree (C44).  The value
    reported in a row is the discounted sum of the flow utilities of the choices made from
    then on, up to the error of the grid ... *)
Theorem C82_career :
  forall sp mp zs ws pc pp sol rg ip data L k,
  inputs_ok sp mp pc pp -> solved sp mp false zs ws pc pp sol ->
  sim_setting rg sp sol -> simulation rg mp sp sol ip pc pp data ->
  nonneg_weights zs ws -> average (fun _ => 1) (combine zs ws) = 1 -> probabilities sp pc pp ->
  (2 <= k)%nat -> exp_grid sp = uniform_grid k -> 0 <= delta mp -> 0 <= L ->
  flows_lipschitz L sp mp false (combine zs ws) ->
  shock_sd mp = 0 -> certain_births sp pc -> certain_partners sp pp ->
  unscaled sp -> no_costs_for_older sp -> benefits_paid sp ->
  forall r rs, career (num_periods sp - 1) data (r :: rs) -> 0 <= a_stock (o_state r) <= 1 ->
  (forall q, In q (r :: rs) -> row_above_floor sp mp q) ->
  forall us v, Forall2 chosen_flow (r :: rs) us -> chosen_value r v ->
  near (L * (1 / INR (k - 1)) * career_error (delta mp) (remaining sp (row_period r))) (discounted (delta mp) us) v.
Proof.
  intros sp mp zs ws pc pp sol rg ip data L k Hok Hs Hset Hsim Hw Hw1 Hp Hk Hg Hd HL Hf Hsd Hcb Hcp U1 U2 U3 r rs Hca Hx Hfl.
  exact (career_value sp mp false zs ws pc pp sol rg ip data L k Hok Hs Hset Hsim Hw Hw1 Hp Hk Hg Hd HL Hf eq_refl Hsd Hcb Hcp U1 U2 U3
    (r :: rs) Hca r rs eq_refl Hx Hfl).
Qed.
Print Assumptions C82_career.

(** ... exactly so if experience has no return *)
Theorem C82_no_returns :
  forall sp mp zs ws pc pp sol rg ip data k,
  inputs_ok sp mp pc pp -> solved sp mp false zs ws pc pp sol ->
  sim_setting rg sp sol -> simulation rg mp sp sol ip pc pp data ->
  nonneg_weights zs ws -> average (fun _ => 1) (combine zs ws) = 1 -> probabilities sp pc pp ->
  (2 <= k)%nat -> exp_grid sp = uniform_grid k -> 0 <= delta mp ->
  (forall e, (0 <= e < num_educ_levels sp)%Z -> at_ (gamma_1 mp) e = 0) ->
  shock_sd mp = 0 -> certain_births sp pc -> certain_partners sp pp ->
  unscaled sp -> no_costs_for_older sp -> benefits_paid sp ->
  forall r rs, career (num_periods sp - 1) data (r :: rs) -> 0 <= a_stock (o_state r) <= 1 ->
  (forall q, In q (r :: rs) -> row_above_floor sp mp q) ->
  forall us v, Forall2 chosen_flow (r :: rs) us -> chosen_value r v -> v = discounted (delta mp) us.
Proof.
  intros sp mp zs ws pc pp sol rg ip data k Hok Hs Hset Hsim Hw Hw1 Hp Hk Hg Hd H0 Hsd Hcb Hcp U1 U2 U3 r rs Hca Hx Hfl us v Hus Hv.
  pose proof (C82_career sp mp zs ws pc pp sol rg ip data 0 k Hok Hs Hset Hsim Hw Hw1 Hp Hk Hg Hd (Rle_refl 0)
    (flat_lipschitz sp mp false _ H0) Hsd Hcb Hcp U1 U2 U3 r rs Hca Hx Hfl us v Hus Hv) as H.
  rewrite !Rmult_0_l in H. unfold near in H. apply Rabs_le_inv in H. lra.
Qed.
Print Assumptions C82_no_returns.

(** every row is the first of such a career, and its columns exist *)
Theorem C82_careers_exist :
  forall sp mp biased zs ws pc pp sol rg ip data,
  inputs_ok sp mp pc pp -> solved sp mp biased zs ws pc pp sol ->
  sim_setting rg sp sol -> simulation rg mp sp sol ip pc pp data ->
  forall r, In r data -> exists rs us v,
    career (num_periods sp - 1) data (r :: rs) /\ Forall2 chosen_flow (r :: rs) us /\ chosen_value r v /\
    (forall q, In q (r :: rs) -> row_id q = row_id r).
Proof. exact careers_exist. Qed.
Print Assumptions C82_careers_exist.

(** the four-period example without risk: everybody finds a partner, no births; with the
    example's returns to experience and with none *)
Example C82_case : forall g1, g1 = gamma_1 ex_params \/ g1 = flat -> exists sol data L,
  let mp := sure_params g1 in
  inputs_ok ex_spec mp no_children settled /\ solved ex_spec mp false ex_draws ex_weights no_children settled sol /\
  sim_setting ex_rng ex_spec sol /\ simulation ex_rng mp ex_spec sol fresh_ip no_children settled data /\
  probabilities ex_spec no_children settled /\ exp_grid ex_spec = uniform_grid 5 /\ 0 <= L /\
  flows_lipschitz L ex_spec mp false (combine ex_draws ex_weights) /\
  (g1 = flat -> forall e, (0 <= e < num_educ_levels ex_spec)%Z -> at_ (gamma_1 mp) e = 0) /\
  shock_sd mp = 0 /\ certain_births ex_spec no_children /\ certain_partners ex_spec settled /\
  unscaled ex_spec /\ no_costs_for_older ex_spec /\ benefits_paid ex_spec /\
  (forall r, In r data -> 0 <= a_stock (o_state r) <= 1 /\ row_above_floor ex_spec mp r) /\
  exists r r', follows data r r' /\ row_period r = 2%Z.
Proof.
  intros g1 Hg. assert (Hl : List.length g1 = 3%nat) by (destruct Hg as [-> | ->]; reflexivity).
  destruct (any_run ex_spec (sure_params g1) no_children settled fresh_ip (sure_inputs g1 Hl)
    (proj2 (childless_ok ex_spec ex_params ex_inputs eq_refl eq_refl)) settled_probs fresh_init ex_types ex_sim_spec) as (sol & data & Hs & Hset & Hsim).
  destruct (ex_lipschitz (sure_params g1) false (combine ex_draws ex_weights)) as (L & HL & Hf).
  exists sol, data, L. cbv zeta.
  refine (conj (sure_inputs g1 Hl) (conj Hs (conj Hset (conj Hsim (conj sure_probabilities (conj eq_refl (conj HL (conj Hf (conj _ (conj eq_refl
    (conj sure_births (conj sure_partners (conj eq_refl (conj _ (conj (or_introl eq_refl) (conj _ _)))))))))))))))).
  - intros ->. cbn [ex_spec num_educ_levels sure_params gamma_1]. intros e He.
    assert (e = 0 \/ e = 1 \/ e = 2)%Z as [-> | [-> | ->]] by lia; reflexivity.
  - intros c Hc. assert (c = 1 \/ c = 2)%Z as [-> | ->] by lia; reflexivity.
  - intros r Hr. split; [exact (fresh_stock g1 sol _ _ data (proj1 (proj2 (sure_inputs g1 Hl))) Hset Hsim r Hr)|].
    exact (sure_above g1 sol fresh_ip data Hg Hset Hsim r Hr).
  - exact (someone sol _ fresh_ip _ _ data Hset Hsim).
Qed.
