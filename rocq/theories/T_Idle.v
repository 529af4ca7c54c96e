(** Property theorems C94: when working today changes nothing tomorrow. *)
From Coq Require Import Reals Lra Lia ZArith List Arith String.
From Verif Require Import Base Num M_Params M_Experience M_Tax M_Exog M_Sim S_Experience S_Interp S_Tax S_Benefits S_StateSpace S_Bellman S_Solver
  S_Rng S_Sim S_SimInputs S_SimEntry S_SimSame S_Idle L_Num L_Mono L_Bellman L_Solver L_Rng L_Sim L_SimProps L_SimFlow L_SimInvariance L_Idle
  X_Example L_Witness L_SimExample L_SameWitness L_CurrencyWitness L_GridWitness L_IdleWitness.
Import ListNotations.
Open Scope R_scope.

(** C94: take households that stay among themselves ([never_left]) and whose best flow
    utility does not depend on last period's choice or on experience.  Then the solved
    table forgets both, too: the expected maximum is the same whatever the last choice and
    the grid point, and all three choices have the same continuation value ... *)
Theorem C94_table :
  forall sp mp biased zs ws pc pp home,
  inputs_ok sp mp pc pp -> never_left sp (child_fun pc) (partner_fun pp) home ->
  past_is_forgotten sp mp (is_elterngeld sp) biased (combine zs ws) home ->
  forall t e l l' ty a m g g' c c',
  in_space sp t e l ty a m -> in_space sp t e l' ty a m -> home a m ->
  (g < List.length (exp_grid sp))%nat -> (g' < List.length (exp_grid sp))%nat ->
  (0 <= c < 3)%Z -> (0 <= c' < 3)%Z ->
  solver_cell sp mp biased zs ws pc pp t e l ty a m g 3 = solver_cell sp mp biased zs ws pc pp t e l' ty a m g' 3 /\
  solver_cell sp mp biased zs ws pc pp t e l ty a m g c = solver_cell sp mp biased zs ws pc pp t e l' ty a m g' c'.
Proof. intros sp mp biased zs ws pc pp home Hok Hh Hf. exact (forgotten_table sp mp biased zs ws pc pp home Hok Hh Hf). Qed.
Print Assumptions C94_table.

(** ... and simulated choices are static: the first of the alternatives with the largest
    flow utility, whatever discount factor, weights and grid. *)
Theorem C94_static_choice :
  forall rg mp sp biased zs ws pc pp home sol ip data,
  inputs_ok sp mp pc pp -> never_left sp (child_fun pc) (partner_fun pp) home ->
  past_is_forgotten sp mp (is_elterngeld sp) biased (combine zs ws) home ->
  solved sp mp biased zs ws pc pp sol ->
  sim_setting rg sp sol -> simulation rg mp sp sol ip pc pp data ->
  forall r, In r data -> home (a_age (o_state r)) (a_partner (o_state r)) ->
  exists f, o_full r = Some f /\
    (forall c, (0 <= c < 3)%Z -> at_ (f_cont f) c = at_ (f_cont f) 0) /\
    first_best (at_ (f_flow f)) (o_choice r).
Proof.
  intros rg mp sp biased zs ws pc pp home sol ip data Hok Hh Hf Hs Hset Hsim.
  exact (static_choice sp mp biased zs ws pc pp home Hok Hh Hf sol Hs rg ip data Hset Hsim).
Qed.
Print Assumptions C94_static_choice.

(** So it is for women without children if experience has no return, unemployment benefits
    are not paid and there are no births ... *)
Theorem C94_no_returns :
  forall rg mp sp biased zs ws pc pp sol ip data,
  inputs_ok sp mp pc pp -> no_births pc ->
  (forall e, (0 <= e < num_educ_levels sp)%Z -> at_ (gamma_1 mp) e = 0) -> alg1_replacement_no_child sp = 0 ->
  solved sp mp biased zs ws pc pp sol ->
  sim_setting rg sp sol -> simulation rg mp sp sol ip pc pp data ->
  forall r, In r data -> a_age (o_state r) = (-1)%Z ->
  exists f, o_full r = Some f /\
    (forall c, (0 <= c < 3)%Z -> at_ (f_cont f) c = at_ (f_cont f) 0) /\
    first_best (at_ (f_flow f)) (o_choice r).
Proof.
  intros rg mp sp biased zs ws pc pp sol ip data Hok Hnb Hg Ha Hs Hset Hsim.
  exact (static_choice sp mp biased zs ws pc pp (fun a _ => a = (-1)%Z) Hok (childless_stay sp mp pc pp Hok Hnb)
    (no_returns_forgotten sp mp biased (combine zs ws) Hg Ha) sol Hs rg ip data Hset Hsim).
Qed.
Print Assumptions C94_no_returns.

(** ... and nobody works in a population of childless singles if work pays less than basic
    support in every cell and draw of the solver and for the agent herself: mu < 0, work is
    not pleasant, 2007 tariff, no births, no partners. *)
Theorem C94_nobody_works :
  forall rg mp sp biased zs ws pc pp sol ip data rate cap,
  inputs_ok sp mp pc pp -> no_births pc -> no_arrivals pp -> enter_childless sp ip -> enter_single ip ->
  tax_params sp = create_tax_parameters -> ssc_deductions sp = (rate, cap) -> 0 <= rate <= 1 -> 0 <= cap ->
  mu mp < 0 -> 0 <= alg1_replacement_no_child sp -> 1 / 100000000000000 <= support sp -> 0 <= elasticity_scale sp ->
  (forall c, (1 <= c <= 2)%Z -> 0 <= care_costs sp (-1) c) ->
  (forall e ty c, (0 <= e < num_educ_levels sp)%Z -> (0 <= ty < num_types sp)%Z -> (1 <= c <= 2)%Z -> 1 <= leisure mp e ty (-1) c) ->
  (forall t e x z w, (0 <= t < num_periods sp)%Z -> (0 <= e < num_educ_levels sp)%Z -> In x (exp_grid sp) -> In (z, w) (combine zs ws) ->
     let w0 := hourly_wage sp mp biased t e (-1) x in not_worth_it sp w0 (w0 * exp (z * shock_sd mp))) ->
  solved sp mp biased zs ws pc pp sol ->
  sim_setting rg sp sol -> simulation rg mp sp sol ip pc pp data ->
  forall r s, In r data -> shock_of sp mp r s ->
  (let a := o_state r in
   not_worth_it sp (base_wage sp mp (a_period a) (a_educ a) (a_age a) (a_stock a))
                   (observed_wage sp mp (a_period a) (a_educ a) (a_age a) (a_stock a) s)) ->
  o_choice r = 0%Z /\ o_wage r = None.
Proof.
  intros rg mp sp biased zs ws pc pp sol ip data rate cap Hok Hnb Hna Hec Hes Htp Hss Hr Hcap Hmu Hal Hsup Hel Hcost Hlei Hw Hs Hset Hsim r s Hin Hsh.
  cbv zeta. intros Hn.
  pose proof (all_childless rg mp sp sol ip pc pp data Hset Hsim Hec Hnb r Hin) as Ea.
  assert (Em : a_partner (o_state r) = 0%Z).
  { destruct Hok as (_ & _ & _ & Hpt). exact (all_single rg mp sp sol ip pc pp data Hset Hsim Hpt Hes Hna r Hin). }
  pose proof (idle_forgotten sp mp biased (combine zs ws) rate cap (proj1 Hok) Htp Hss Hr Hcap Hmu Hal Hsup Hcost Hlei Hw) as Hf.
  destruct (C94_static_choice rg mp sp biased zs ws pc pp lonely sol ip data Hok (lonely_stay sp mp pc pp Hok Hnb Hna) Hf Hs Hset Hsim r Hin
    (conj Ea Em)) as (f & Ef & _ & (Hc & _ & Hb)).
  assert (Hsp : agent_in_space sp (o_state r)).
  { destruct Hset as (S1 & S2 & S3). destruct Hsim as (g & g' & Hd'). exact (proj1 (listed _ _ _ _ _ _ _ _ S1 S2 S3 g g' data Hd' r Hin)). }
  unfold agent_in_space, in_space in Hsp.
  destruct Hsh as [Hwage (f' & Ef' & Efl)]. assert (f' = f) by congruence. subst f'.
  assert (E0 : o_choice r = 0%Z).
  { destruct (Z.eq_dec (o_choice r) 0) as [|Hne]; [assumption|]. exfalso. pose proof (Hb 0%Z ltac:(lia)) as H.
    rewrite Efl, !at_three, Ea, Em in H by lia. rewrite Ea in Hn.
    pose proof (idle_sim_flow sp mp rate cap (proj1 Hok) Htp Hss Hr Hcap Hmu Hal Hsup (a_educ (o_state r)) (a_type (o_state r))
      (fun c => Hlei (a_educ (o_state r)) (a_type (o_state r)) c ltac:(lia) ltac:(lia)) (a_period (o_state r)) (a_lagged (o_state r)) (a_stock (o_state r)) s
      (Rmult_le_pos _ _ (Rlt_le _ _ (Rmult_lt_0_compat _ _ (exp_pos _) (exp_pos _))) Hel) Hn (o_choice r) ltac:(lia)) as H'.
    lra. }
  split; [exact E0|]. rewrite E0 in Hwage. exact Hwage.
Qed.
Print Assumptions C94_nobody_works.

(** a run of four periods with wages near 1, basic support of 150 a week and positive
    returns to experience: the hypotheses hold, and nobody ever works *)
Example C94_case : exists sol data,
  inputs_ok ex_spec (idle_params returns) no_children no_partners /\
  never_left ex_spec (child_fun no_children) (partner_fun no_partners) lonely /\
  past_is_forgotten ex_spec (idle_params returns) (is_elterngeld ex_spec) false (combine ex_draws ex_weights) lonely /\
  solved ex_spec (idle_params returns) false ex_draws ex_weights no_children no_partners sol /\
  sim_setting ex_rng ex_spec sol /\ simulation ex_rng (idle_params returns) ex_spec sol lonely_ip no_children no_partners data /\
  data <> [] /\ forall r, In r data -> o_choice r = 0%Z /\ o_wage r = None.
Proof.
  pose proof (idle_inputs returns eq_refl) as Hok.
  destruct (any_run ex_spec (idle_params returns) no_children no_partners lonely_ip Hok
    (proj2 (childless_ok ex_spec ex_params ex_inputs eq_refl eq_refl)) (proj2 single_inputs) lonely_init ex_types ex_sim_spec) as (sol & data & Hs & Hset & Hsim).
  exists sol, data.
  assert (Hcost : forall c, (1 <= c <= 2)%Z -> 0 <= care_costs ex_spec (-1) c).
  { intros c Hc. assert (c = 1 \/ c = 2)%Z as [-> | ->] by lia; unfold care_costs; entries; lra. }
  assert (Hsup : 1 / 100000000000000 <= support ex_spec) by (unfold support; cbn [ex_spec regelsatz_single housing_single]; lra).
  assert (Hal : 0 <= alg1_replacement_no_child ex_spec) by (cbn [ex_spec alg1_replacement_no_child]; lra).
  assert (Hmu : mu (idle_params returns) < 0) by (cbn [idle_params mu]; lra).
  refine (conj Hok (conj (lonely_stay _ _ _ _ Hok childless_no_births single_no_arrivals) (conj _ (conj Hs (conj Hset (conj Hsim (conj _ _))))))).
  - apply (idle_forgotten ex_spec (idle_params returns) false _ (215/1000) 1221); try assumption; try reflexivity; try lra; [apply Hok| |].
    + intros e ty c He Hty Hc. apply idle_leisure; assumption.
    + intros t e x z w Ht He Hx Hz. exact (idle_cells false t e x z w Ht He Hx Hz).
  - destruct (someone sol _ lonely_ip _ _ data Hset Hsim) as (r & r' & Hf & _). intros E. destruct Hf as (Hr & _). rewrite E in Hr. destruct Hr.
  - intros r Hr.
    destruct (rows_of_simulation _ _ _ _ _ _ _ _ _ Hok Hs lonely_ip data Hset Hsim) as (col & _ & H).
    destruct (H r Hr) as (z & f & _ & Hsh & _).
    apply (C94_nobody_works ex_rng (idle_params returns) ex_spec false ex_draws ex_weights no_children no_partners sol lonely_ip data (215/1000) 1221
      Hok childless_no_births single_no_arrivals (proj1 lonely_enter) (proj2 lonely_enter) eq_refl eq_refl ltac:(lra) ltac:(lra) Hmu Hal Hsup
      ltac:(cbn [ex_spec elasticity_scale]; lra) Hcost (fun e ty c He Hty Hc => idle_leisure returns e ty c He Hty Hc)
      (fun t e x z w Ht He Hx Hz => idle_cells false t e x z w Ht He Hx Hz) Hs Hset Hsim r (z * shock_sd (idle_params returns)) Hr Hsh).
    cbv zeta. change (shock_sd (idle_params returns)) with 0. unfold observed_wage. rewrite Rmult_0_r, exp_0, Rmult_1_r.
    change (elasticity_scale ex_spec) with 1. rewrite Rmult_1_r. apply idle_not_worth. split; [left; apply exp_pos|].
    assert (Hsp : agent_in_space ex_spec (o_state r)).
    { destruct Hset as (S1 & S2 & S3). destruct Hsim as (g & g' & Hd'). exact (proj1 (listed _ _ _ _ _ _ _ _ S1 S2 S3 g g' data Hd' r Hr)). }
    unfold agent_in_space, in_space in Hsp. cbn [ex_spec num_periods num_educ_levels] in Hsp.
    rewrite (all_childless _ _ _ _ _ _ _ data Hset Hsim (proj1 lonely_enter) childless_no_births r Hr).
    apply low_wage; try lia; [exact (idle_stock sol _ _ data Hset Hsim r Hr)|apply idle_credit; lia].
Qed.

(** returns of zero and no unemployment benefit *)
Example C94_no_returns_case : exists sol data,
  inputs_ok frugal_spec (sure_params flat) no_children settled /\ no_births no_children /\
  (forall e, (0 <= e < num_educ_levels frugal_spec)%Z -> at_ (gamma_1 (sure_params flat)) e = 0) /\ alg1_replacement_no_child frugal_spec = 0 /\
  solved frugal_spec (sure_params flat) false ex_draws ex_weights no_children settled sol /\
  sim_setting ex_rng frugal_spec sol /\ simulation ex_rng (sure_params flat) frugal_spec sol childless_ip no_children settled data /\
  data <> [] /\ forall r, In r data -> a_age (o_state r) = (-1)%Z.
Proof.
  pose proof frugal_inputs as Hok.
  assert (Hsp : sim_spec_ok frugal_spec) by exact ex_sim_spec.
  destruct (any_run frugal_spec (sure_params flat) no_children settled childless_ip Hok
    (proj2 (childless_ok ex_spec ex_params ex_inputs eq_refl eq_refl)) settled_probs (childless_init frugal_spec eq_refl eq_refl eq_refl) ex_types Hsp) as (sol & data & Hs & Hset & Hsim).
  exists sol, data. refine (conj Hok (conj childless_no_births (conj _ (conj eq_refl (conj Hs (conj Hset (conj Hsim (conj _ _)))))))).
  - cbn [frugal_spec num_educ_levels sure_params gamma_1]. intros e He. assert (e = 0 \/ e = 1 \/ e = 2)%Z as [-> | [-> | ->]] by lia; reflexivity.
  - destruct Hset as (S1 & S2 & S3). destruct Hsim as (g & g' & Hd).
    destruct (panel ex_rng (sure_params flat) frugal_spec sol childless_ip _ _ false S1 S2 S3 g g' data Hd) as (educs & Le & _ & Hp & _).
    cbn [frugal_spec num_agents_sim] in Le. destruct educs as [|e educs]; [discriminate Le|].
    destruct (Hp 0%nat e eq_refl) as (y & He & Hy & Hrows).
    assert (Hyr : (y <= 2)%Z). { apply nth_error_In in Hy. cbn [frugal_spec educ_years In] in Hy. lia. }
    destruct (proj2 (Hrows 2%Z)) as (r & Hr & _); [cbn [frugal_spec num_periods]; lia|]. intros E. rewrite E in Hr. destruct Hr.
  - apply (all_childless ex_rng (sure_params flat) frugal_spec sol childless_ip no_children settled data Hset Hsim); [|exact childless_no_births].
    intros p H. in_list H; reflexivity.
Qed.
