(** A one-period Erziehungsgeld economy in which a better wage shock ends part-time work:
    mothers of a baby earn 4 per hour before the shock; 18 hours at that wage leave the
    income below the limit of the allowance (100), at the wage e times as high they do not. *)
From Coq Require Import Reals Lra Lia ZArith List Arith.
From Verif Require Import Base Num M_Params M_Experience M_Tax M_StateSpace M_Solve M_Exog M_Sim L_Num S_Experience S_Interp S_Tax L_Tax S_Benefits
  S_StateSpace S_Bellman L_Bellman S_Solver L_Solver S_Rng L_Rng S_Sim S_SimInputs S_SimEntry L_Trace L_SimUpdate L_SimInit L_Sim L_SimProps L_SimTotal
  L_SimFlow L_SimEntry L_Reserve X_Example L_Witness L_SimExample L_SimCompare.
Import ListNotations.
Open Scope R_scope.

(** the generator of L_Rng.v with all normal variates equal to z *)
Definition const_rng (z : R) : rng R := {|
  rng_state := rng_state ex_rng; rng_seed := rng_seed ex_rng; rng_choice := rng_choice ex_rng;
  rng_binomial := rng_binomial ex_rng; rng_normal := fun g n m => (repeat (repeat z m) n, g) |}.
Lemma const_rng_ok z : rng_ok (const_rng z).
Proof.
  destruct ex_rng_ok as [H1 H2 H3 H4 H5 H6 H7 _ _]. constructor; try assumption.
  - intros. cbn. apply repeat_length.
  - intros g n m r H. cbn in H. apply repeat_spec in H. subst r. apply repeat_length.
Qed.
Lemma const_rng_total z : rng_total (const_rng z).
Proof. destruct ex_rng_total as [H1 H2]. constructor; assumption. Qed.

Definition res_spec : model_spec R := cmp_spec 1 0 0 0.
Definition res_params : model_params R :=
  {| gamma_0 := [ln 4]; gamma_1 := [0]; gamma_p := [1/2]; gamma_p_mom := 0;
     theta_p := [0]; theta_f := [10]; no_kids_f := [0]; no_kids_p := [0];
     yes_kids_f := [0]; yes_kids_p := [0]; child_0_2_f := 0; child_0_2_p := 0;
     child_3_5_f := 0; child_3_5_p := 0; child_6_10_f := 0; child_6_10_p := 0;
     shock_sd := 1; delta := 98/100; mu := -1; type_shares := [1] |}.
Definition res_ip : init_probs R := {|
  ip_educ := [1]; ip_child_age := [[0; 1]]; ip_partner_present := [0];
  ip_exp_pt := [[1; 0; 0; 0; 0]]; ip_exp_ft := [[1; 0; 0; 0; 0]] |}.

Lemma res_inputs : inputs_ok res_spec res_params erz_child erz_partner.
Proof.
  destruct (cmp_inputs 1 0 0 0) as (H1 & _ & H3 & H4). refine (conj H1 (conj _ (conj H3 H4))).
  split; [|split; unfold zlen; cbn; lia]. intros l Hl. in_list Hl; unfold zlen; cbn; lia.
Qed.

Lemma res_init : init_ok res_spec res_ip.
Proof.
  constructor; cbn [res_spec cmp_spec res_ip ip_educ ip_child_age ip_partner_present ip_exp_pt ip_exp_ft num_educ_levels child_age_init_max init_exp_max].
  - shares.
  - reflexivity.
  - intros p H. in_list H; shares.
  - reflexivity.
  - intros x H. in_list H; lra.
  - reflexivity.
  - intros p H. in_list H; shares.
  - reflexivity.
  - intros p H. in_list H; shares.
Qed.
Lemma res_sim_spec : sim_spec_ok res_spec.
Proof.
  unfold sim_spec_ok. cbn [res_spec cmp_spec num_periods num_types child_age_max child_age_init_max num_educ_levels educ_years num_agents_sim].
  repeat (split; [try lia; reflexivity|]). split; [intros y H; cbn [In] in H; lia|]. split; [lia|].
  unfold valid_seed. cbn [res_spec cmp_spec seed_sim]. lia.
Qed.

Lemma res_run : exists sol, solved res_spec res_params false [0] [1] erz_child erz_partner sol /\
  forall z, sim_inputs_ok (const_rng z) res_params res_spec sol res_ip erz_child erz_partner /\
    exists data, simulation (const_rng z) res_params res_spec sol res_ip erz_child erz_partner data /\ exists r, In r data.
Proof.
  destruct (solved_exists res_spec res_params false [0] [1] erz_child erz_partner res_inputs) as [sol Hs].
  exists sol. split; [exact Hs|]. intros z.
  assert (Hok : sim_inputs_ok (const_rng z) res_params res_spec sol res_ip erz_child erz_partner).
  { constructor.
    - split; [apply const_rng_ok|]. split; [exact res_sim_spec|]. eapply solved_solution. exact Hs.
    - apply const_rng_total.
    - right. reflexivity.
    - eapply solved_tables_ok; [exact res_inputs|exact Hs].
    - exact res_init.
    - cbn [res_spec cmp_spec res_params num_types type_shares]. shares.
    - split; [exact (proj1 (proj2 (proj2 res_inputs)))|]. intros r H. in_list H; intros x Hx; in_list Hx; lra.
    - split; [exact (proj2 (proj2 (proj2 res_inputs)))|]. intros r H. in_list H; intros q Hq; in_list Hq; intros pr Hp; in_list Hp; cbn [fst snd]; lra. }
  split; [exact Hok|]. destruct Hok as [(S1 & S2 & S3) I2 I3 I4 I5 I6 I7 I8].
  destruct (simulate_total (const_rng z) S1 I2 res_params res_spec sol res_ip erz_child erz_partner S2 I3 S3 I4 I5 I6 I7 I8 false false 0%Z)
    as (data & g' & Hd).
  exists data. split; [do 2 eexists; exact Hd|].
  destruct (panel (const_rng z) res_params res_spec sol res_ip erz_child erz_partner false S1 S2 S3 _ _ data Hd) as (educs & Le & _ & Hp & _).
  cbn [res_spec cmp_spec num_agents_sim] in Le. destruct educs as [|e educs]; [discriminate Le|].
  destruct (Hp 0%nat e eq_refl) as (y & He & Hy & Hrows).
  assert (Hyr : (y = 0)%Z).
  { apply nth_error_In in Hy. cbn [res_spec cmp_spec educ_years In] in Hy. lia. }
  destruct (proj2 (Hrows 0%Z)) as (r & Hr & _); [cbn [res_spec cmp_spec num_periods]; lia|]. exists r. exact Hr.
Qed.

Lemma res_rows z sol data r : sim_setting (const_rng z) res_spec sol ->
  simulation (const_rng z) res_params res_spec sol res_ip erz_child erz_partner data -> In r data ->
  discrete_state (o_state r) = [0; 0; 0; 0; 0; 0]%Z /\ a_stock (o_state r) = 0.
Proof.
  intros Hset Hsim Hr.
  assert (Hper : forall r', In r' data -> row_period r' = 0%Z).
  { intros r' Hr'. destruct Hset as (H1 & H2 & H3). destruct Hsim as (g & g' & H).
    destruct (listed _ _ _ _ _ _ _ _ H1 H2 H3 _ _ _ H r' Hr') as [Hs _].
    unfold agent_in_space, in_space in Hs. cbn [res_spec cmp_spec num_periods] in Hs. unfold row_period. lia. }
  assert (He : entry_row data r).
  { split; [exact Hr|]. intros r' Hr' _. rewrite (Hper r Hr), (Hper r' Hr'). lia. }
  assert (Hmp : params_ok res_spec res_params) by exact (proj1 (proj2 res_inputs)).
  assert (Hc : forall e a, (0 <= e < num_educ_levels res_spec)%Z -> 0 <= pt_credit res_params false e a).
  { intros e a H. cbn [res_spec cmp_spec num_educ_levels] in H. assert (e = 0%Z) as -> by lia.
    unfold pt_credit, at_. cbn [res_params gamma_p gamma_p_mom Z.to_nat nth]. destruct (_ && _)%bool; lra. }
  destruct (entry_conditions (const_rng z) res_params res_spec sol res_ip erz_child erz_partner Hset data Hsim r He)
    as (E1 & [E0 _] & _ & T1 & [T0 _] & A1 & (pa & Ga & [A0 Oa]) & M1 & (pm & Gm & Dm) & P1 & (ppt & Gp & [P0 Op]) & F1 & (pft & Gf & [F0 Of])).
  cbn [res_spec cmp_spec num_educ_levels num_types child_age_init_max init_exp_max] in E1, T1, A1, P1, F1.
  assert (Ee : a_educ (o_state r) = 0%Z) by lia. rewrite Ee in *.
  destruct Ga as [_ Ga]. cbn in Ga. injection Ga as <-. destruct Gm as [_ Gm]. cbn in Gm. injection Gm as <-.
  destruct Gp as [_ Gp]. cbn in Gp. injection Gp as <-. destruct Gf as [_ Gf]. cbn in Gf. injection Gf as <-.
  apply (drawn_zero _ (const_rng_ok z)) in Dm.
  assert (Epos : forall v, (0 <= v)%Z -> (v <= 4)%Z -> nth_error [1; 0; 0; 0; 0] (Z.to_nat v) <> Some 0 -> v = 0%Z).
  { intros v H0 H4 Hn. assert (v = 0 \/ v = 1 \/ v = 2 \/ v = 3 \/ v = 4)%Z as [-> | [-> | [-> | [-> | ->]]]] by lia;
      [reflexivity|exfalso; apply Hn; reflexivity ..]. }
  assert (Ept : a_exp_pt (o_state r) = 0%Z) by (apply Epos; assumption).
  assert (Eft : a_exp_ft (o_state r) = 0%Z) by (apply Epos; assumption).
  assert (Ea : a_age (o_state r) = 0%Z).
  { assert (a_age (o_state r) = -1 \/ a_age (o_state r) = 0)%Z as [E|E] by lia; [|exact E].
    exfalso. apply Oa. rewrite E. reflexivity. }
  assert (Ey : credited_years res_params (o_state r) = 0) by (unfold credited_years; rewrite Ept, Eft; lra).
  destruct (entry_lagged (const_rng z) res_params res_spec sol res_ip erz_child erz_partner Hset Hmp Hc data Hsim r He) as (_ & _ & L0).
  rewrite Ey in L0.
  destruct (entry_stock (const_rng z) res_params res_spec sol res_ip erz_child erz_partner Hset Hmp Hc data Hsim r He) as (_ & Es & _).
  rewrite Ey in Es. cbn [res_spec cmp_spec init_exp_max] in Es.
  assert (El : a_lagged (o_state r) = 0%Z) by (apply L0; split; [apply (whole_not_broken 0)|lra]).
  split; [|lra]. unfold discrete_state. rewrite Ee, El, Ea, Dm. pose proof (Hper r Hr) as Ep. unfold row_period in Ep. rewrite Ep.
  replace (a_type (o_state r)) with 0%Z by lia. reflexivity.
Qed.

Lemma res_base : base_wage res_spec res_params 0 0 0 0 = 4.
Proof.
  unfold base_wage, at_. cbn [res_params gamma_0 gamma_1 Z.to_nat nth]. rewrite Rmult_0_l, Rplus_0_r. apply exp_ln. lra.
Qed.
Lemma res_observed s : observed_wage res_spec res_params 0 0 0 0 s = 4 * exp s.
Proof. unfold observed_wage. rewrite res_base. cbn [res_spec cmp_spec elasticity_scale]. ring. Qed.

Lemma res_idle s : sim_flow res_spec res_params 0 0 0 0 0 0 0 s 0 = - (13/10 / 205).
Proof.
  unfold sim_flow. change (0 =? 0)%Z with true. cbn iota. unfold sim_resources_spec. change (0 =? 0)%Z with true. cbn iota zeta.
  change (partner_wage res_spec 0 0 0) with 0. unfold res_spec at 1. rewrite cmp_net by lra. change (is_elterngeld res_spec) with false.
  unfold benefits_spec, unemployment_benefit, basic_support, raising_allowance. cbn [worked Z.eqb Pos.eqb orb].
  cbn [res_spec cmp_spec regelsatz_single housing_single regelsatz_child addition_child_single housing_addtion
       erziehungsgeld_income_threshold_single erziehungsgeld]. cbv zeta.
  rewrite (Rmax_right 0 (1 + 1 + (1 + 1 + 1))) by lra.
  destruct (Rle_dec (0 + (1 + 1 + (1 + 1 + 1))) 100); [|lra].
  rewrite Rmax_left by (unfold machine_eps; lra). change (mu res_params) with (-1). change (equivalence 0 0) with (13/10).
  rewrite crra_minus1 by lra. field.
Qed.

Lemma res_leisure_1 : leisure res_params 0 0 0 1 = 1.
Proof.
  unfold leisure, part_time_term, full_time_term, at_.
  cbn [res_params theta_p theta_f yes_kids_f yes_kids_p child_0_2_f child_0_2_p Z.to_nat nth Z.eqb Z.leb Z.compare Pos.eqb].
  match goal with |- exp ?q = _ => replace q with 0 by ring end. apply exp_0.
Qed.
Lemma res_leisure_2 : 11 <= leisure res_params 0 0 0 2.
Proof.
  unfold leisure, part_time_term, full_time_term, at_.
  cbn [res_params theta_p theta_f yes_kids_f yes_kids_p child_0_2_f child_0_2_p Z.to_nat nth Z.eqb Z.leb Z.compare Pos.eqb].
  match goal with |- _ <= exp ?q => replace q with 10 by ring end. pose proof (exp_ineq1 10 ltac:(lra)). lra.
Qed.

Lemma res_net_le own : 0 <= own <= 1221 -> household_net res_spec own 0 <= 4/5 * own.
Proof.
  intros H. unfold household_net. cbv zeta. destruct (Rlt_dec 0 0); [lra|].
  assert (E : after_contributions res_spec own = 4/5 * own).
  { unfold after_contributions, contribution. cbn [res_spec cmp_spec ssc_deductions fst snd]. destruct (Rle_dec own 1221); lra. }
  rewrite E. change (tax_params res_spec) with (create_tax_parameters (T := R)).
  rewrite <- tax_spec by apply tax_table_2007_ok. pose proof (tax07_nonneg (4/5 * own)) as Ht. lra.
Qed.

Lemma res_part_good : sim_flow res_spec res_params 0 0 0 0 0 0 0 0 1 > - (13/10 / 205).
Proof.
  unfold sim_flow. change (1 =? 0)%Z with false. cbn iota. rewrite res_leisure_1, Rmult_1_r.
  unfold sim_resources_spec. change (1 =? 0)%Z with false. cbn iota zeta. rewrite res_observed, exp_0. change (hours 1) with 18.
  change (partner_wage res_spec 0 0 0) with 0. unfold res_spec at 1. rewrite cmp_net by lra.
  assert (E1 : sim_allowance res_spec 0 0 1 (4 * 1 * 18) 0 = 200).
  { unfold sim_allowance. change (is_elterngeld res_spec) with false. cbn iota. change (1 =? 1)%Z with true. cbn iota.
    unfold raising_allowance. cbn [Z.eqb orb res_spec cmp_spec erziehungsgeld_income_threshold_single erziehungsgeld].
    destruct (Rle_dec _ _); lra. }
  rewrite E1. change (sim_care_costs res_spec 0 1) with 0. change (child_benefit res_spec 0) with 0.
  rewrite Rmax_left by (unfold machine_eps; lra). change (mu res_params) with (-1). change (equivalence 0 0) with (13/10).
  rewrite crra_minus1 by lra.
  replace (/ ((4 / 5 * (4 * 1 * 18) + 200 + 0 - 0) / (13 / 10))) with (13/10 / (257 + 6/10)) by field. lra.
Qed.

Lemma res_work_bad c : (c = 1 \/ c = 2)%Z -> sim_flow res_spec res_params 0 0 0 0 0 0 0 1 c < - (13/10 / 205).
Proof.
  intros Hc. unfold sim_flow. replace (c =? 0)%Z with false by lia.
  unfold sim_resources_spec. replace (c =? 0)%Z with false by lia. cbn iota zeta. rewrite res_observed.
  assert (He : 2 < exp 1 <= 3) by (split; [pose proof (exp_ineq1 1 ltac:(lra)); lra|apply exp_le_3]).
  change (partner_wage res_spec 0 0 0) with 0.
  assert (Hh : 18 <= hours c <= 38) by (destruct Hc as [-> | ->]; unfold hours; cbn [Z.eqb Pos.eqb]; lra).
  assert (Ho : 144 <= 4 * exp 1 * hours c <= 456) by nra.
  assert (E1 : sim_allowance res_spec 0 0 c (4 * exp 1 * hours c) 0 = 0).
  { unfold sim_allowance. change (is_elterngeld res_spec) with false. cbn iota. destruct (c =? 1)%Z; [|reflexivity].
    unfold raising_allowance. cbn [Z.eqb orb res_spec cmp_spec erziehungsgeld_income_threshold_single erziehungsgeld].
    destruct (Rle_dec _ _); [lra|reflexivity]. }
  assert (E2 : sim_care_costs res_spec 0 c = 0) by (destruct Hc as [-> | ->]; reflexivity).
  rewrite E1, E2. change (child_benefit res_spec 0) with 0. change (mu res_params) with (-1). change (equivalence 0 0) with (13/10).
  pose proof (res_net_le (4 * exp 1 * hours c) ltac:(lra)) as Hn.
  set (res := Rmax (household_net res_spec (4 * exp 1 * hours c) 0 + 0 + 0 - 0) machine_eps).
  assert (Hr : 0 < res <= 4/5 * (4 * exp 1 * hours c)).
  { unfold res, machine_eps. rmm; lra. }
  rewrite crra_minus1 by (apply Rdiv_lt_0_compat; lra).
  replace (/ (res / (13/10))) with (13/10 * / res) by (field; lra).
  destruct Hc as [-> | ->].
  - rewrite res_leisure_1. assert (Hx : res <= 180) by (change (hours 1) with 18 in Hr; nra).
    assert (/ 180 <= / res) by (apply Rinv_le_contravar; lra). lra.
  - pose proof res_leisure_2 as Hl. assert (Hx : res <= 400) by lra.
    assert (/ 400 <= / res) by (apply Rinv_le_contravar; lra). nra.
Qed.
