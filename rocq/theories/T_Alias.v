(** Property C103: parameters that the data cannot tell apart. *)
From Coq Require Import Reals Lra Lia ZArith List String.
From Verif Require Import Base Num M_Params M_Experience M_Tax M_NonEmployment M_StateSpace M_Exog M_Solve M_Sim M_Spec M_Main S_Experience S_Benefits S_StateSpace S_Bellman S_Solver
  S_Rng S_Sim S_SimInputs S_Main S_Alias L_Num L_StateSpace L_Main L_Alias X_Example L_Witness L_Rng L_SimExample L_SimCompare.
Import ListNotations.
Open Scope R_scope.

(** A constant can be moved from the tastes of all types to the tastes at all education levels:
    the program returns the same data, or raises the same error, for all specifications, tables and
    generators. *)
Theorem C103_types_for_levels :
  forall rg roots s2 spi sp files b sparse g c d mp mp',
  same_but_tastes mp mp' -> types_for_levels c d mp mp' -> tastes_given mp -> sizes_ok sp ->
  simulate rg roots s2 spi mp' sp files b sparse g = simulate rg roots s2 spi mp sp files b sparse g.
Proof.
  intros rg roots s2 spi sp files b sparse g c d mp mp' H1 H2 H3 Hsz. apply program_tastes; [exact H1|]. intros ss Hss cv Hc e ty.
  apply (types_for_levels_utility c d); [exact H2|exact H3|]. destruct (bins_listed sp ss cv Hsz Hss Hc) as (a & _ & Hb). destruct Hb; lia.
Qed.
Print Assumptions C103_types_for_levels.

(** If children leave the model at age 10 or before, a constant can be moved from the tastes of
    mothers to the tastes of mothers of children of the three age groups. *)
Theorem C103_mothers_for_ages :
  forall rg roots s2 spi sp files b sparse g c d mp mp',
  same_but_tastes mp mp' -> mothers_for_ages c d mp mp' -> tastes_given mp -> sizes_ok sp -> (child_age_max sp <= 10)%Z ->
  simulate rg roots s2 spi mp' sp files b sparse g = simulate rg roots s2 spi mp sp files b sparse g.
Proof.
  intros rg roots s2 spi sp files b sparse g c d mp mp' H1 H2 H3 Hsz Hmax. apply program_tastes; [exact H1|]. intros ss Hss cv Hc e ty.
  apply (mothers_for_ages_utility c d); [exact H2|exact H3|]. destruct (bins_listed sp ss cv Hsz Hss Hc) as (a & Ha & Hb). destruct Hb; lia.
Qed.
Print Assumptions C103_mothers_for_ages.

(** Mothers of older children tell the two apart: their utility from work changes by the constant. *)
Theorem C103_older_children :
  forall c d mp mp' e ty, mothers_for_ages c d mp mp' -> tastes_given mp ->
  exists p f, calculate_non_consumption_utility mp e ty 4 = [1; p; f] /\ 0 < p /\ 0 < f /\
    calculate_non_consumption_utility mp' e ty 4 = [1; p * exp (c + d); f * exp c].
Proof.
  intros c d mp mp' e ty [(A1 & A2) (A3 & A4) (A5 & A6) (B1 & B2 & B3) (B4 & B5 & B6)] (N1 & N2 & N3 & N4 & N5 & N6).
  exists (exp (aget (theta_p mp) ty + (aget (yes_kids_f mp) e + aget (yes_kids_p mp) e))), (exp (aget (theta_f mp) ty + aget (yes_kids_f mp) e)).
  split; [|split; [apply exp_pos|split; [apply exp_pos|]]].
  all: unfold calculate_non_consumption_utility; cbv zeta; rewrite ?A1, ?A2, ?A3, ?A4, ?A5, ?A6, ?B1, ?B2, ?B3, ?B4, ?B5, ?B6, ?jget_raised by assumption;
    cbn [map]; unfold b2n; cbn [Z.eqb Pos.eqb Z.ltb Z.compare Pos.compare Pos.compare_cont]; rn; rewrite exp_0, <- ?exp_plus.
  all: f_equal; f_equal; [f_equal; ring|]; f_equal; f_equal; ring.
Qed.
Print Assumptions C103_older_children.

(** The same for the program as it is called, with the arguments it is given. *)
Theorem C103_called :
  forall rg roots s2 spi pa pa' sa files b sparse g h c d mp mp' sp, arg_ok sa h ->
  snd (read_model pa sa h) = Ok (mp, sp) -> snd (read_model pa' sa h) = Ok (mp', sp) ->
  same_but_tastes mp mp' -> tastes_given mp -> sizes_ok sp ->
  types_for_levels c d mp mp' \/ (mothers_for_ages c d mp mp' /\ (child_age_max sp <= 10)%Z) ->
  snd (simulate_of rg roots s2 spi pa' sa files b sparse g h) = snd (simulate_of rg roots s2 spi pa sa files b sparse g h).
Proof.
  intros rg roots s2 spi pa pa' sa files b sparse g h c d mp mp' sp Ha E E' H1 H2 H3 H. rewrite !program_value, E, E' by exact Ha.
  destruct H as [H|(H & Hm)]; [exact (C103_types_for_levels _ _ _ _ _ _ _ _ _ _ _ _ _ H1 H H2 H3)|exact (C103_mothers_for_ages _ _ _ _ _ _ _ _ _ _ _ _ _ H1 H H2 H3 Hm)].
Qed.
Print Assumptions C103_called.

(** The scale of wages and the constant of the wage equation: the solver does not tell a scale
    multiplied by k from a constant raised by ln k. *)
Theorem C103_scale_solution :
  forall sp k mp states covs ci pc pp zs ws b, 0 < k -> 0 < elasticity_scale sp -> gamma_0 mp <> [] ->
  solve (with_scale sp (k * elasticity_scale sp)) states covs ci pc pp zs ws b mp
  = solve sp states covs ci pc pp zs ws b (with_constant mp (raised (ln k) (gamma_0 mp))).
Proof. intros sp k mp states covs ci pc pp zs ws b H1 H2 H3. exact (solve_scale sp k mp H1 H2 H3 states covs ci pc pp zs ws b). Qed.
Print Assumptions C103_scale_solution.

(** Nor does the whole program if benefits do not replace wages. *)
Theorem C103_scale_data :
  forall rg roots s2 spi sp k mp files b sparse g, 0 < k -> 0 < elasticity_scale sp -> gamma_0 mp <> [] -> no_replacement sp ->
  simulate rg roots s2 spi mp (with_scale sp (k * elasticity_scale sp)) files b sparse g
  = simulate rg roots s2 spi (with_constant mp (raised (ln k) (gamma_0 mp))) sp files b sparse g.
Proof. intros rg roots s2 spi sp k mp files b sparse g H1 H2 H3 H4. exact (program_scale sp k mp H1 H2 H3 rg roots s2 spi files b sparse g H4). Qed.
Print Assumptions C103_scale_data.

(** If they do, wages and the utilities of working are still the same in the simulation, but the
    wage that benefits replace is not: it follows the constant, not the scale. *)
Theorem C103_scale_benefits :
  forall sp k mp t e l ty a m x s, 0 < k -> (0 <= e < zlen (gamma_0 mp))%Z ->
  let sp' := with_scale sp (k * elasticity_scale sp) in
  let mp' := with_constant mp (raised (ln k) (gamma_0 mp)) in
  observed_wage sp' mp t e a x s = observed_wage sp mp' t e a x s /\
  (forall c, c <> 0%Z -> sim_flow sp' mp t e l ty a m x s c = sim_flow sp mp' t e l ty a m x s c) /\
  base_wage sp' mp t e a x = base_wage sp mp t e a x /\
  base_wage sp mp' t e a x = k * base_wage sp mp t e a x.
Proof.
  intros sp k mp t e l ty a m x s Hk He sp' mp'.
  assert (Hb : base_wage sp mp' t e a x = k * base_wage sp mp t e a x).
  { unfold base_wage. subst mp'. cbn [with_constant gamma_0 gamma_1].
    assert (E : at_ (raised (ln k) (gamma_0 mp)) e = at_ (gamma_0 mp) e + ln k).
    { unfold at_, raised. rewrite (nth_indep (map _ _) 0 ((fun y => y + ln k) 0)) by (rewrite map_length; unfold zlen in He; lia). exact (map_nth (fun y => y + ln k) _ 0 _). }
    rewrite E. match goal with |- _ = k * ?q => transitivity (exp (ln k) * q); [|rewrite exp_ln by exact Hk; reflexivity] end. rewrite <- exp_plus. f_equal. change (pt_credit (with_constant mp (raised (ln k) (gamma_0 mp)))) with (pt_credit mp). ring. }
  assert (Ho : observed_wage sp' mp t e a x s = observed_wage sp mp' t e a x s).
  { unfold observed_wage. rewrite Hb. change (base_wage sp' mp t e a x) with (base_wage sp mp t e a x). subst sp'. cbn [with_scale elasticity_scale]. ring. }
  split; [exact Ho|]. split; [|split; [reflexivity|exact Hb]]. intros c Hc. unfold sim_flow, sim_resources_spec. cbv zeta.
  rewrite (proj2 (Z.eqb_neq c 0) Hc). rewrite Ho. reflexivity.
Qed.
Print Assumptions C103_scale_benefits.

(** So the simulated utility of not working tells the two apart. *)
Theorem C103_scale_benefits_refuted :
  ~ (forall sp k mp t e l ty a m x s c, spec_ok sp -> params_ok sp mp -> in_space sp t e l ty a m -> 0 < k -> 0 < elasticity_scale sp -> (0 <= c < 3)%Z ->
       sim_flow (with_scale sp (k * elasticity_scale sp)) mp t e l ty a m x s c
       = sim_flow sp (with_constant mp (raised (ln k) (gamma_0 mp))) t e l ty a m x s c).
Proof.
  intros H. pose proof (cmp_inputs 1 0 0 36) as (H1 & H2 & _).
  assert (Hin : in_space (cmp_spec 1 0 0 36) 0 0 2 0 0 0) by (unfold in_space; cbn [cmp_spec num_periods num_educ_levels num_types child_age_max]; lia).
  specialize (H (cmp_spec 1 0 0 36) 2 erz_params 0%Z 0%Z 2%Z 0%Z 0%Z 0%Z 0 0 0%Z H1 H2 Hin ltac:(lra) ltac:(cbn [cmp_spec elasticity_scale]; lra) ltac:(lia)). revert H.
  destruct (C103_scale_benefits (cmp_spec 1 0 0 36) 2 erz_params 0 0 0 0 0 0 0 0 ltac:(lra) ltac:(cbn; lia)) as (_ & _ & B1 & B2).
  unfold sim_flow, sim_resources_spec. cbv zeta. change (0 =? 0)%Z with true. cbn iota. rewrite B1, B2, cmp_base.
  change (partner_wage (with_scale (cmp_spec 1 0 0 36) (2 * elasticity_scale (cmp_spec 1 0 0 36))) 0 0 0) with 0. change (partner_wage (cmp_spec 1 0 0 36) 0 0 0) with 0.
  change (household_net (with_scale (cmp_spec 1 0 0 36) (2 * elasticity_scale (cmp_spec 1 0 0 36)))) with (household_net (cmp_spec 1 0 0 36)). rewrite cmp_net by lra.
  change (is_elterngeld (with_scale (cmp_spec 1 0 0 36) (2 * elasticity_scale (cmp_spec 1 0 0 36)))) with false. change (is_elterngeld (cmp_spec 1 0 0 36)) with false.
  unfold benefits_spec, unemployment_benefit, basic_support, raising_allowance, last_hours.
  cbn [worked Z.eqb Pos.eqb orb]. change (child_benefit (with_scale (cmp_spec 1 0 0 36) (2 * elasticity_scale (cmp_spec 1 0 0 36))) 0) with 36. change (child_benefit (cmp_spec 1 0 0 36) 0) with 36.
  cbn [with_scale cmp_spec alg1_replacement_child regelsatz_single housing_single regelsatz_child addition_child_single
       housing_addtion erziehungsgeld_income_threshold_single erziehungsgeld]. cbv zeta.
  change (mu (with_constant erz_params (raised (ln 2) (gamma_0 erz_params)))) with (-1). change (mu erz_params) with (-1).
  assert (He : 0 < equivalence 0 0) by apply cmp_equiv_pos.
  rewrite (Rmax_left (1 * (65 / 100 * 1) * 38 + 36)) by lra. rewrite (Rmax_left (1 * (65 / 100 * (2 * 1)) * 38 + 36)) by lra.
  destruct (Rle_dec (0 + (1 * (65 / 100 * 1) * 38 + 36)) 100); [|lra].
  destruct (Rle_dec (0 + (1 * (65 / 100 * (2 * 1)) * 38 + 36)) 100); [|lra].
  rewrite !Rmax_left by (unfold machine_eps; lra).
  apply crra_inj; lra.
Qed.
Print Assumptions C103_scale_benefits_refuted.

(** the hypotheses can be met, and the parameters do differ *)
Definition alias_levels : model_params R :=
  {| gamma_0 := gamma_0 ex_params; gamma_1 := gamma_1 ex_params; gamma_p := gamma_p ex_params; gamma_p_mom := gamma_p_mom ex_params;
     theta_p := raised (1 + 2) (theta_p ex_params); theta_f := raised 1 (theta_f ex_params);
     no_kids_f := raised (-1) (no_kids_f ex_params); no_kids_p := raised (-2) (no_kids_p ex_params);
     yes_kids_f := raised (-1) (yes_kids_f ex_params); yes_kids_p := raised (-2) (yes_kids_p ex_params);
     child_0_2_f := child_0_2_f ex_params; child_0_2_p := child_0_2_p ex_params; child_3_5_f := child_3_5_f ex_params; child_3_5_p := child_3_5_p ex_params;
     child_6_10_f := child_6_10_f ex_params; child_6_10_p := child_6_10_p ex_params; shock_sd := shock_sd ex_params; delta := delta ex_params; mu := mu ex_params; type_shares := type_shares ex_params |}.
Definition alias_ages : model_params R :=
  {| gamma_0 := gamma_0 ex_params; gamma_1 := gamma_1 ex_params; gamma_p := gamma_p ex_params; gamma_p_mom := gamma_p_mom ex_params;
     theta_p := theta_p ex_params; theta_f := theta_f ex_params; no_kids_f := no_kids_f ex_params; no_kids_p := no_kids_p ex_params;
     yes_kids_f := raised 1 (yes_kids_f ex_params); yes_kids_p := raised 2 (yes_kids_p ex_params);
     child_0_2_f := child_0_2_f ex_params - 1; child_0_2_p := child_0_2_p ex_params - 2; child_3_5_f := child_3_5_f ex_params - 1; child_3_5_p := child_3_5_p ex_params - 2;
     child_6_10_f := child_6_10_f ex_params - 1; child_6_10_p := child_6_10_p ex_params - 2; shock_sd := shock_sd ex_params; delta := delta ex_params; mu := mu ex_params; type_shares := type_shares ex_params |}.

Example C103_example :
  same_but_tastes ex_params alias_levels /\ types_for_levels 1 2 ex_params alias_levels /\
  same_but_tastes ex_params alias_ages /\ mothers_for_ages 1 2 ex_params alias_ages /\
  tastes_given ex_params /\ sizes_ok X_Example.ex_spec /\ (child_age_max X_Example.ex_spec <= 10)%Z /\
  0 < elasticity_scale X_Example.ex_spec /\ gamma_0 ex_params <> [] /\ alias_levels <> ex_params /\ alias_ages <> ex_params.
Proof.
  repeat match goal with |- _ /\ _ => split end; try (constructor; repeat split; reflexivity); try discriminate; try (cbn; lia); try (cbn; lra).
  - repeat split; discriminate.
  - unfold sizes_ok. cbn. lia.
  - intros E. apply (f_equal (fun m => nth 0 (theta_f m) 0)) in E. cbn in E. lra.
  - intros E. apply (f_equal child_0_2_f) in E. cbn in E. lra.
Qed.
