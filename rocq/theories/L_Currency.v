(** Values and data in another unit of account (C78, C79). *)
From Coq Require Import Reals Lra Lia ZArith List Arith.
From Verif Require Import Base Num M_Params M_Experience M_Tax M_NonEmployment M_StateSpace M_Solve M_Exog M_Sim
  L_Num S_Experience L_Experience S_Interp L_Interp S_Tax S_Benefits L_Tax L_Benefits S_StateSpace L_StateSpace S_Rng S_Sim S_Bellman L_Bellman
  S_Solver L_Solve L_Solver S_SimInputs S_SimEntry S_SimSame S_Invariance S_Reform S_Stability S_Currency L_Value L_Invariance L_Reform L_Stability
  L_Trace L_SimUpdate L_SimInit L_Sim L_SimData L_SimProps L_SimPairs L_SimFlow L_SimEntry L_SimSame L_SimInvariance.
Import ListNotations.
Open Scope R_scope.

(** *** values are homogeneous in flow utilities *)
Lemma interpolate_times k f x g : g <> [] -> interpolate g (map (fun y => k * f y) g) x = k * interpolate g (map f g) x.
Proof.
  intros Hg. rewrite (interpolate_ext g (fun y => k * f y) (fun y => k * f y + 0)) by (intros; ring).
  rewrite interpolate_affine by assumption. ring.
Qed.
Lemma interpolate_scale_list k g v x : List.length g = List.length v ->
  interpolate g (map (Rmult k) v) x = k * interpolate g v x.
Proof.
  revert v. induction g as [|x0 g IH]; intros [|v0 v] Hl; try discriminate Hl; [cbn; ring|].
  destruct g as [|x1 g], v as [|v1 v]; try discriminate Hl; [cbn; ring|].
  destruct g as [|x2 g]; cbn [interpolate map].
  - unfold chord. unfold Rdiv. ring.
  - destruct (Rlt_dec x x1); [unfold chord, Rdiv; ring|]. apply (IH (v1 :: v)). cbn [List.length] in *. lia.
Qed.
Lemma average_times k f f' l : (forall z w, In (z, w) l -> f' z = k * f z) -> average f' l = k * average f l.
Proof.
  induction l as [|[z w] l IH]; intros H; cbn [average]; [ring|].
  rewrite (H z w) by (left; reflexivity). rewrite IH; [ring|]. intros z0 w0 H0. apply (H z0 w0). right. assumption.
Qed.
Lemma Rmax_times k a b : 0 <= k -> Rmax (k * a) (k * b) = k * Rmax a b.
Proof. intros Hk. apply RmaxRmult. assumption. Qed.
Lemma Rmin_times k a b : 0 <= k -> Rmin (k * a) (k * b) = k * Rmin a b.
Proof.
  intros Hk. unfold Rmin. destruct (Rle_dec a b) as [H|H], (Rle_dec (k * a) (k * b)) as [G|G]; try reflexivity.
  - exfalso. apply G. apply Rmult_le_compat_l; assumption.
  - apply Rle_antisym; [assumption|]. apply Rmult_le_compat_l; lra.
Qed.
Lemma best3_times k q q' : 0 <= k -> (forall c, (0 <= c < 3)%Z -> q' c = k * q c) -> best3 q' = k * best3 q.
Proof. intros Hk H. unfold best3. rewrite !H by lia. rewrite !Rmax_times by assumption. reflexivity. Qed.

Section Times.
  Variables sp sp' : model_spec R.
  Variables mp mp' : model_params R.
  Variable biased : bool.
  Variables zs ws : list R.
  Variable pc : list (list R).
  Variable pp : list (list (list (R * R))).
  Variable k : R.
  Hypothesis Hk : 0 <= k.
  Hypothesis Hok : inputs_ok sp mp pc pp.
  Hypothesis Hok' : inputs_ok sp' mp' pc pp.
  Hypothesis Hfr : same_frame sp sp' mp mp'.
  Hypothesis Hde : delta mp' = delta mp.
  Notation F := (flow sp mp (is_elterngeld sp) biased).
  Notation F' := (flow sp' mp' (is_elterngeld sp') biased).
  Notation V := (value sp mp (is_elterngeld sp) biased (combine zs ws) (child_fun pc) (partner_fun pp)).
  Notation V' := (value sp' mp' (is_elterngeld sp') biased (combine zs ws) (child_fun pc) (partner_fun pp)).
  Notation E := (expected_next sp mp biased (child_fun pc) (partner_fun pp)).
  Notation E' := (expected_next sp' mp' biased (child_fun pc) (partner_fun pp)).
  Hypothesis Hf : forall t e l ty a m x c z w, in_space sp t e l ty a m -> In x (exp_grid sp) -> (0 <= c < 3)%Z ->
    In (z, w) (combine zs ws) -> F' t e l ty a m x c z = k * F t e l ty a m x c z.

  Lemma expected_times v v' t e l ty a m c x : in_space sp t e l ty a m -> (t + 1 < num_periods sp)%Z -> (0 <= c < 3)%Z ->
    (forall e l ty a m y, in_space sp (t + 1) e l ty a m -> In y (exp_grid sp) ->
       v' (t + 1)%Z e l ty a m y = k * v (t + 1)%Z e l ty a m y) ->
    E' v' t e ty a m c x = k * E v t e ty a m c x.
  Proof.
    intros Hin Ht Hc Hv. unfold expected_next. cbv zeta.
    assert (Hst : stock_next sp' mp' biased t e a c x = stock_next sp mp biased t e a c x).
    { unfold stock_next, pt_credit. rewrite (fr_credit _ _ _ _ Hfr), (fr_credit_mom _ _ _ _ Hfr), (fr_init _ _ _ _ Hfr). reflexivity. }
    assert (Hag : aged sp' a = aged sp a) by (unfold aged; rewrite (fr_age_max _ _ _ _ Hfr); reflexivity).
    rewrite Hst, Hag, (fr_grid _ _ _ _ Hfr).
    destruct Hok as (Hsp & _). assert (Hg : exp_grid sp <> []) by apply Hsp.
    assert (Hca : (0 <= child_age_max sp)%Z) by apply Hsp.
    assert (Hx : forall age m', (age = aged sp a \/ age = 0)%Z -> (0 <= m' < 2)%Z ->
      interpolate (exp_grid sp) (map (v' (t + 1)%Z e c ty age m') (exp_grid sp)) (stock_next sp mp biased t e a c x)
      = k * interpolate (exp_grid sp) (map (v (t + 1)%Z e c ty age m') (exp_grid sp)) (stock_next sp mp biased t e a c x)).
    { intros age m' Ha Hm'. rewrite <- interpolate_times by assumption. apply interpolate_ext.
      intros y Hy. apply Hv; [|assumption].
      assert (Hage : (-1 <= age <= child_age_max sp)%Z).
      { destruct Ha as [-> | ->]; [|lia]. pose proof (aged_range sp Hca a ltac:(unfold in_space in Hin; lia)). lia. }
      unfold in_space in *. lia. }
    rewrite !Hx by (lia || (left; reflexivity) || (right; reflexivity)). ring.
  Qed.

  Lemma value_times n : forall t e l ty a m x, in_space sp t e l ty a m -> (t + Z.of_nat n = num_periods sp - 1)%Z ->
    In x (exp_grid sp) -> V' n t e l ty a m x = k * V n t e l ty a m x.
  Proof.
    induction n as [|n IH]; intros t e l ty a m x Hin Hn Hx; cbn [value].
    - apply average_times. intros z w Hz. apply best3_times; [assumption|]. intros c Hc.
      rewrite (Hf t e l ty a m x c z w) by assumption. ring.
    - apply average_times. intros z w Hz. apply best3_times; [assumption|]. intros c Hc.
      rewrite (Hf t e l ty a m x c z w) by assumption.
      rewrite (expected_times (V n) (V' n) t e l ty a m c x); try assumption; [rewrite Hde; ring|lia|].
      intros e0 l0 ty0 a0 m0 y Hin0 Hy. apply IH; [assumption|lia|assumption].
  Qed.
  Lemma continuation_times t e l ty a m c x : in_space sp t e l ty a m -> (0 <= c < 3)%Z ->
    continuation sp' mp' (is_elterngeld sp') biased (combine zs ws) (child_fun pc) (partner_fun pp) (remaining sp t) t e ty a m c x
    = k * continuation sp mp (is_elterngeld sp) biased (combine zs ws) (child_fun pc) (partner_fun pp) (remaining sp t) t e ty a m c x.
  Proof.
    intros Hin Hc. pose proof (remaining_eq _ _ _ _ _ _ _ Hin) as Hr. unfold continuation.
    destruct (remaining sp t) as [|n]; [ring|]. apply (expected_times _ _ t e l); try assumption; [lia|].
    intros. apply value_times; [assumption|lia|assumption].
  Qed.
  Lemma solver_times t e l ty a m g c v v' : in_space sp t e l ty a m -> (g < List.length (exp_grid sp))%nat -> (0 <= c < 4)%Z ->
    solver_cell sp mp biased zs ws pc pp t e l ty a m g c = Ok v ->
    solver_cell sp' mp' biased zs ws pc pp t e l ty a m g c = Ok v' -> v' = k * v.
  Proof.
    intros Hin Hg Hc Hv Hv'. destruct (nth_error (exp_grid sp) g) as [x|] eqn:Hx.
    2:{ apply nth_error_None in Hx. lia. }
    assert (Hin' : in_space sp' t e l ty a m) by (eapply in_space_frame; eassumption).
    assert (Hx' : nth_error (exp_grid sp') g = Some x) by (rewrite (fr_grid _ _ _ _ Hfr); assumption).
    assert (Er : remaining sp' t = remaining sp t) by (unfold remaining; rewrite (fr_periods _ _ _ _ Hfr); reflexivity).
    destruct (Z.eq_dec c 3) as [-> | Nc].
    - rewrite (solver_emax sp mp biased zs ws pc pp Hok t e l ty a m g x Hin Hx v Hv).
      rewrite (solver_emax sp' mp' biased zs ws pc pp Hok' t e l ty a m g x Hin' Hx' v' Hv'), Er.
      apply value_times; [assumption|apply (remaining_eq _ _ _ _ _ _ _ Hin)|eapply nth_error_In; eassumption].
    - rewrite (solver_cont sp mp biased zs ws pc pp Hok t e l ty a m g x Hin Hx c v ltac:(lia) Hv).
      rewrite (solver_cont sp' mp' biased zs ws pc pp Hok' t e l ty a m g x Hin' Hx' c v' ltac:(lia) Hv'), Er.
      apply (continuation_times t e l); [assumption|lia].
  Qed.
End Times.

(** *** money *)
Section Currency.
  Variable f : R.
  Hypothesis Hf : 0 < f.
  Variables sp sp' : model_spec R.
  Variables mp mp' : model_params R.
  Hypothesis Hc : in_currency f sp sp' mp mp'.

  Lemma cu_frame : same_frame sp sp' mp mp'.
  Proof.
    destruct (cu_world _ _ _ _ _ Hc) as (W1 & W2 & W3 & W4 & W5 & W6 & W7 & _).
    split; try (symmetry; assumption); [apply (cu_grid _ _ _ _ _ Hc)|apply (cu_gamma_p _ _ _ _ _ Hc)|apply (cu_gamma_p_mom _ _ _ _ _ Hc)].
  Qed.
  Lemma cu_elterngeld : is_elterngeld sp' = is_elterngeld sp.
  Proof. unfold is_elterngeld. rewrite (cu_regime _ _ _ _ _ Hc). reflexivity. Qed.

  Lemma cu_lt x y : (if Rlt_dec (f * x) (f * y) then true else false) = (if Rlt_dec x y then true else false).
  Proof.
    destruct (Rlt_dec x y) as [H|H], (Rlt_dec (f * x) (f * y)) as [G|G]; try reflexivity; exfalso.
    - apply G. apply Rmult_lt_compat_l; assumption.
    - apply H. apply Rmult_lt_reg_l with f; assumption.
  Qed.
  Lemma if_lt {A} x y (u v : A) : (if Rlt_dec (f * x) (f * y) then u else v) = (if Rlt_dec x y then u else v).
  Proof. pose proof (cu_lt x y). destruct (Rlt_dec x y), (Rlt_dec (f * x) (f * y)); congruence. Qed.
  Lemma if_le {A} x y (u v : A) : (if Rle_dec (f * x) (f * y) then u else v) = (if Rle_dec x y then u else v).
  Proof.
    destruct (Rle_dec x y) as [H|H], (Rle_dec (f * x) (f * y)) as [G|G]; try reflexivity; exfalso.
    - apply G. apply Rmult_le_compat_l; lra.
    - apply H. apply Rmult_le_reg_l with f; assumption.
  Qed.
  Lemma if_pos {A} y (u v : A) : (if Rlt_dec 0 (f * y) then u else v) = (if Rlt_dec 0 y then u else v).
  Proof. rewrite <- (if_lt 0 y), Rmult_0_r. reflexivity. Qed.
  Lemma if_times {A} (P : {A} + {~ A}) u v : (if P then f * u else f * v) = f * (if P then u else v).
  Proof. destruct P; reflexivity. Qed.

  Lemma tax_times y : tax_due (tax_params sp') (f * y) = f * tax_due (tax_params sp) y.
  Proof.
    unfold tax_due. cbv zeta. rewrite !(cu_thresholds _ _ _ _ _ Hc), !(cu_intercepts _ _ _ _ _ Hc), !(cu_linear _ _ _ _ _ Hc), !(cu_quadratic _ _ _ _ _ Hc).
    rewrite !if_lt.
    assert (Hz : forall b l q th, f * b + l * (f * y - f * th) + q / f * (f * y - f * th) ^ 2
                 = f * (b + l * (y - th) + q * (y - th) ^ 2)) by (intros; field; lra).
    rewrite !Hz. destruct (Rlt_dec y (nth 0 _ 0)); [ring|]. rewrite !if_times. reflexivity.
  Qed.
  Lemma contribution_times w : after_contributions sp' (f * w) = f * after_contributions sp w.
  Proof.
    unfold after_contributions, contribution. rewrite (cu_rate _ _ _ _ _ Hc), (cu_cap _ _ _ _ _ Hc), if_le.
    destruct (Rle_dec w (snd (ssc_deductions sp))); ring.
  Qed.
  Lemma net_times own male : household_net sp' (f * own) (f * male) = f * household_net sp own male.
  Proof.
    unfold household_net. cbv zeta. rewrite !contribution_times, (cu_splitting _ _ _ _ _ Hc).
    rewrite if_pos.
    replace ((f * after_contributions sp own + f * after_contributions sp male) / 2)
      with (f * ((after_contributions sp own + after_contributions sp male) / 2)) by field.
    rewrite !tax_times. destruct (Rlt_dec 0 male); [|ring]. destruct (tax_splitting sp); ring.
  Qed.

  Lemma net_times_0 male : household_net sp' 0 (f * male) = f * household_net sp 0 male.
  Proof. rewrite <- net_times, Rmult_0_r. reflexivity. Qed.

  Lemma male_times t e m : partner_wage sp' t e m = f * partner_wage sp t e m.
  Proof.
    unfold partner_wage. destruct (m =? 1)%Z; [|ring].
    rewrite (cu_cf_const _ _ _ _ _ Hc), (cu_cf_age _ _ _ _ _ Hc), (cu_cf_age_sq _ _ _ _ _ Hc), (cu_cf_educ _ _ _ _ _ Hc).
    match goal with |- 38 * exp ?u = f * (38 * exp ?v) => replace u with (ln f + v) by ring end.
    rewrite exp_plus, exp_ln by assumption. ring.
  Qed.
  Lemma credit_same biased e a : pt_credit mp' biased e a = pt_credit mp biased e a.
  Proof. unfold pt_credit. rewrite (cu_gamma_p _ _ _ _ _ Hc), (cu_gamma_p_mom _ _ _ _ _ Hc). reflexivity. Qed.
  Lemma init_same : init_exp_max sp' = init_exp_max sp.
  Proof. destruct (cu_world _ _ _ _ _ Hc) as (_ & _ & _ & _ & _ & _ & W & _). symmetry. exact W. Qed.
  Lemma hourly_times biased t e a x : (0 <= e < num_educ_levels sp)%Z ->
    hourly_wage sp' mp' biased t e a x = f * hourly_wage sp mp biased t e a x.
  Proof.
    intros He. unfold hourly_wage. rewrite credit_same, init_same, (cu_gamma_0 _ _ _ _ _ Hc e He), (cu_gamma_1 _ _ _ _ _ Hc), (cu_elasticity _ _ _ _ _ Hc).
    match goal with |- exp ?u = f * exp ?v => replace u with (ln f + v) by ring end.
    rewrite exp_plus, exp_ln by assumption. ring.
  Qed.
  Lemma base_times t e a x : (0 <= e < num_educ_levels sp)%Z -> base_wage sp' mp' t e a x = f * base_wage sp mp t e a x.
  Proof.
    intros He. unfold base_wage. rewrite credit_same, init_same, (cu_gamma_0 _ _ _ _ _ Hc e He), (cu_gamma_1 _ _ _ _ _ Hc).
    match goal with |- exp ?u = f * exp ?v => replace u with (ln f + v) by ring end.
    rewrite exp_plus, exp_ln by assumption. ring.
  Qed.
  Lemma observed_times t e a x s : (0 <= e < num_educ_levels sp)%Z -> observed_wage sp' mp' t e a x s = f * observed_wage sp mp t e a x s.
  Proof. intros He. unfold observed_wage. rewrite base_times, (cu_elasticity _ _ _ _ _ Hc) by assumption. ring. Qed.

  Lemma child_times a : child_benefit sp' a = f * child_benefit sp a.
  Proof. unfold child_benefit. rewrite (cu_child _ _ _ _ _ Hc). destruct (a =? -1)%Z; ring. Qed.
  Lemma allowance_times a m y : raising_allowance sp' a m (f * y) = f * raising_allowance sp a m y.
  Proof.
    unfold raising_allowance. destruct ((a =? 0) || (a =? 1))%Z; [|ring].
    rewrite (cu_limit_single _ _ _ _ _ Hc), (cu_limit_married _ _ _ _ _ Hc), (cu_allowance _ _ _ _ _ Hc).
    destruct (m =? 1)%Z; rewrite if_le; destruct (Rle_dec _ _); ring.
  Qed.
  Lemma benefits_times a l m w b male el :
    benefits_spec sp' a l m (f * w) (f * b) (f * male) el = f * benefits_spec sp a l m w b male el.
  Proof.
    assert (Hbasic : basic_support sp' a m = f * basic_support sp a m).
    { unfold basic_support. rewrite (cu_regelsatz _ _ _ _ _ Hc), (cu_housing _ _ _ _ _ Hc), (cu_addition _ _ _ _ _ Hc),
        (cu_regelsatz_child _ _ _ _ _ Hc), (cu_addition_child _ _ _ _ _ Hc). destruct (m =? 1)%Z, (a =? -1)%Z; ring. }
    assert (Hunemp : unemployment_benefit sp' a l (f * w) (f * b) = f * unemployment_benefit sp a l w b).
    { unfold unemployment_benefit. rewrite (cu_alg1 _ _ _ _ _ Hc), (cu_alg1_child _ _ _ _ _ Hc). destruct (worked l), (a =? -1)%Z; ring. }
    assert (Hpar : parental_benefit sp' l (f * w) (f * b) = f * parental_benefit sp l w b).
    { unfold parental_benefit. rewrite (cu_parental _ _ _ _ _ Hc), (cu_min _ _ _ _ _ Hc), (cu_max _ _ _ _ _ Hc). destruct (worked l); [|ring].
      replace (elterngeld_replacement sp * (65/100 * (f * w)) * last_hours l)
        with (f * (elterngeld_replacement sp * (65/100 * w) * last_hours l)) by ring.
      rewrite Rmax_times, Rmin_times by lra. ring. }
    unfold benefits_spec. rewrite Hbasic, Hunemp, Hpar. destruct el.
    - destruct (a =? 0)%Z; apply Rmax_times; lra.
    - rewrite Rmax_times by lra. cbv zeta.
      replace (f * male + f * Rmax (unemployment_benefit sp a l w b) (basic_support sp a m))
        with (f * (male + Rmax (unemployment_benefit sp a l w b) (basic_support sp a m))) by ring.
      rewrite allowance_times. ring.
  Qed.
  Lemma crra_times mu_ c q : 0 < q -> crra mu_ (f * c / q) = Rpower f mu_ * crra mu_ (c / q).
  Proof.
    intros Hq. unfold crra. replace (f * c / q) with (f * (c / q)) by (field; lra).
    set (u := c / q). destruct (Rlt_dec 0 u) as [H|H], (Rlt_dec 0 (f * u)) as [G|G].
    - rewrite <- Rpower_mult_distr by assumption. unfold Rdiv. ring.
    - exfalso. apply G. apply Rmult_lt_0_compat; assumption.
    - exfalso. apply H. apply Rmult_lt_reg_l with f; [assumption|]. rewrite Rmult_0_r. assumption.
    - unfold Rdiv. ring.
  Qed.
  Lemma floor_times y floor : clear_of floor f y -> Rmax (f * y) floor = f * Rmax y floor.
  Proof. intros [H1 H2]. rewrite !Rmax_left by assumption. reflexivity. Qed.
  Lemma leisure_same e ty a c : leisure mp' e ty a c = leisure mp e ty a c.
  Proof.
    unfold leisure, part_time_term, full_time_term.
    rewrite (cu_theta_p _ _ _ _ _ Hc), (cu_theta_f _ _ _ _ _ Hc), (cu_no_kids_f _ _ _ _ _ Hc), (cu_no_kids_p _ _ _ _ _ Hc),
      (cu_yes_kids_f _ _ _ _ _ Hc), (cu_yes_kids_p _ _ _ _ _ Hc), (cu_child_0_2_f _ _ _ _ _ Hc), (cu_child_0_2_p _ _ _ _ _ Hc),
      (cu_child_3_5_f _ _ _ _ _ Hc), (cu_child_3_5_p _ _ _ _ _ Hc), (cu_child_6_10_f _ _ _ _ _ Hc), (cu_child_6_10_p _ _ _ _ _ Hc).
    reflexivity.
  Qed.

  Lemma income_times biased t e a m x c z : (0 <= e < num_educ_levels sp)%Z ->
    working_income sp' mp' biased t e a m x c z = f * working_income sp mp biased t e a m x c z.
  Proof.
    intros He. unfold working_income. cbv zeta. rewrite cu_elterngeld, male_times, hourly_times, (cu_sd _ _ _ _ _ Hc) by assumption.
    set (w := hourly_wage sp mp biased t e a x). set (male := partner_wage sp t e m). set (sh := exp (z * shock_sd mp)).
    replace (hours c * (f * w * sh)) with (f * (hours c * (w * sh))) by ring. set (own := hours c * (w * sh)).
    rewrite net_times, child_times. unfold care_costs. rewrite (cu_care _ _ _ _ _ Hc).
    assert (Hwa : working_allowance sp' (is_elterngeld sp) a m c (f * own) (f * male) = f * working_allowance sp (is_elterngeld sp) a m c own male).
    { unfold working_allowance. destruct (is_elterngeld sp); [ring|]. destruct (c =? 1)%Z; [|ring].
      rewrite child_times. rewrite if_pos. replace (f * male + f * own) with (f * (male + own)) by ring.
      rewrite allowance_times. destruct (Rlt_dec _ _); ring. }
    rewrite Hwa. ring.
  Qed.
  Lemma equivalence_pos a m : 0 < equivalence a m.
  Proof. unfold equivalence. destruct (a =? -1)%Z, (m =? 1)%Z; lra. Qed.

  Lemma flow_times biased t e l ty a m x c z : (0 <= e < num_educ_levels sp)%Z -> (0 <= c < 3)%Z ->
    (c <> 0%Z -> clear_of (1 / 100000000000000) f (working_income sp mp biased t e a m x c z)) ->
    flow sp' mp' (is_elterngeld sp') biased t e l ty a m x c z
    = Rpower f (mu mp) * flow sp mp (is_elterngeld sp) biased t e l ty a m x c z.
  Proof.
    intros He Hcc Hcl. unfold flow. cbv zeta. destruct (c =? 0)%Z eqn:E0.
    - rewrite cu_elterngeld, male_times, hourly_times, child_times, (cu_mu _ _ _ _ _ Hc) by assumption.
      rewrite net_times_0, benefits_times, <- Rmult_plus_distr_l.
      apply crra_times. apply equivalence_pos.
    - apply Z.eqb_neq in E0.
      change (crra (mu mp') (Rmax (working_income sp' mp' biased t e a m x c z) (1 / 100000000000000) / equivalence a m) * leisure mp' e ty a c
        = Rpower f (mu mp) * (crra (mu mp) (Rmax (working_income sp mp biased t e a m x c z) (1 / 100000000000000) / equivalence a m) * leisure mp e ty a c)).
      rewrite income_times, (cu_mu _ _ _ _ _ Hc), leisure_same, floor_times by auto.
      rewrite crra_times by apply equivalence_pos. ring.
  Qed.

  Lemma resources_times t e l a m x s c : (0 <= e < num_educ_levels sp)%Z ->
    sim_resources_spec sp' mp' t e l a m x s c = f * sim_resources_spec sp mp t e l a m x s c.
  Proof.
    intros He. unfold sim_resources_spec. cbv zeta. rewrite cu_elterngeld, male_times, child_times, base_times, observed_times by assumption.
    destruct (c =? 0)%Z.
    - rewrite net_times_0, benefits_times. ring.
    - set (w := observed_wage sp mp t e a x s). set (male := partner_wage sp t e m).
      replace (f * w * hours c) with (f * (w * hours c)) by ring. set (own := w * hours c).
      rewrite net_times.
      assert (Ha : sim_allowance sp' a m c (f * own) (f * male) = f * sim_allowance sp a m c own male).
      { unfold sim_allowance. rewrite cu_elterngeld. destruct (is_elterngeld sp); [ring|]. destruct (c =? 1)%Z; [|ring].
        replace (f * male + f * own) with (f * (male + own)) by ring. apply allowance_times. }
      assert (Hcc : sim_care_costs sp' a c = f * sim_care_costs sp a c).
      { unfold sim_care_costs. rewrite !(cu_care _ _ _ _ _ Hc). destruct ((0 <=? a) && (a <=? 2))%Z; [ring|].
        destruct ((3 <=? a) && (a <=? 5))%Z; ring. }
      rewrite Ha, Hcc. ring.
  Qed.
  Lemma sim_flow_times t e l ty a m x s c : (0 <= e < num_educ_levels sp)%Z ->
    clear_of machine_eps f (sim_resources_spec sp mp t e l a m x s c) ->
    sim_flow sp' mp' t e l ty a m x s c = Rpower f (mu mp) * sim_flow sp mp t e l ty a m x s c.
  Proof.
    intros He Hcl. unfold sim_flow. rewrite resources_times, (cu_mu _ _ _ _ _ Hc), leisure_same, floor_times by assumption.
    rewrite crra_times by apply equivalence_pos. ring.
  Qed.
End Currency.

(** *** the solver's table *)
Lemma solver_currency f sp sp' mp mp' biased zs ws pc pp :
  0 < f -> in_currency f sp sp' mp mp' -> inputs_ok sp mp pc pp -> inputs_ok sp' mp' pc pp ->
  solution_clear f sp mp biased (combine zs ws) ->
  forall t e l ty a m g c v v', in_space sp t e l ty a m -> (g < List.length (exp_grid sp))%nat -> (0 <= c < 4)%Z ->
  solver_cell sp mp biased zs ws pc pp t e l ty a m g c = Ok v ->
  solver_cell sp' mp' biased zs ws pc pp t e l ty a m g c = Ok v' -> v' = Rpower f (mu mp) * v.
Proof.
  intros Hf Hcu Hok Hok' Hcl. intros t e l ty a m g c v v'.
  apply (solver_times sp sp' mp mp' biased zs ws pc pp (Rpower f (mu mp)) ltac:(left; apply exp_pos) Hok Hok'
    (cu_frame f sp sp' mp mp' Hcu) (cu_delta _ _ _ _ _ Hcu)).
  intros t0 e0 l0 ty0 a0 m0 x c0 z w Hin Hx Hc Hz. apply (flow_times f Hf sp sp' mp mp' Hcu); [unfold in_space in Hin; lia|assumption|].
  intros Hn. apply (Hcl t0 e0 l0 ty0 a0 m0 x c0 z w); try assumption. lia.
Qed.

(** *** the data *)
Lemma map2_times k d u v : map2 (fun a b => a + d * b) (map (Rmult k) u) (map (Rmult k) v)
  = map (Rmult k) (map2 (fun a b => a + d * b) u v).
Proof.
  revert v. induction u as [|a u IH]; intros [|b v]; try reflexivity. cbn [map map2]. rewrite IH. f_equal. ring.
Qed.
Lemma first_best_times k v v' c c' : 0 < k -> (forall i, (0 <= i < 3)%Z -> v' i = k * v i) ->
  first_best v c -> first_best v' c' -> c' = c.
Proof.
  intros Hk Hv (R1 & M1 & S1) (R2 & M2 & S2).
  assert (Q : forall i j, (0 <= i < 3)%Z -> (0 <= j < 3)%Z -> v' i <= v' j -> v i <= v j).
  { intros i j Hi Hj. rewrite !Hv by assumption. apply Rmult_le_reg_l. assumption. }
  assert (Qs : forall i j, (0 <= i < 3)%Z -> (0 <= j < 3)%Z -> v' i < v' j -> v i < v j).
  { intros i j Hi Hj. rewrite !Hv by assumption. apply Rmult_lt_reg_l. assumption. }
  apply (first_best_unique v); [|exact (conj R1 (conj M1 S1))].
  refine (conj R2 (conj _ _)).
  - intros i Hi. apply Q; [assumption|assumption|]. apply M2. assumption.
  - intros i Hi. apply Qs; [lia|assumption|]. apply S2. assumption.
Qed.

Section Data.
  Variable f : R.
  Hypothesis Hf : 0 < f.
  Variables sp sp' : model_spec R.
  Variables mp mp' : model_params R.
  Hypothesis Hcu : in_currency f sp sp' mp mp'.
  Variable biased : bool.
  Variables zs ws : list R.
  Variable pc : list (list R).
  Variable pp : list (list (list (R * R))).
  Variables sol sol' : solution R.
  Hypothesis Hok : inputs_ok sp mp pc pp.
  Hypothesis Hok' : inputs_ok sp' mp' pc pp.
  Hypothesis Hcl : solution_clear f sp mp biased (combine zs ws).
  Hypothesis Hs : solved sp mp biased zs ws pc pp sol.
  Hypothesis Hs' : solved sp' mp' biased zs ws pc pp sol'.
  Notation k := (Rpower f (mu mp)).

  Lemma row_times a d r1 i1 r2 i2 : agent_in_space sp a ->
    (forall c, (0 <= c < 3)%Z -> clear_of machine_eps f
       (sim_resources_spec sp mp (a_period a) (a_educ a) (a_lagged a) (a_age a) (a_partner a) (a_stock a) d c)) ->
    sim_row mp sp sol false false (a_period a) a d = Ok (r1, i1) ->
    sim_row mp' sp' sol' false false (a_period a) a d = Ok (r2, i2) -> row_in_currency f k r1 r2.
  Proof.
    intros Hin Hflo Q1 Q2. destruct a as [aid t e l pt ft x ty a m].
    unfold agent_in_space in Hin. cbn [a_period a_educ a_lagged a_type a_age a_partner a_stock] in *.
    assert (Hin2 : in_space sp' t e l ty a m) by (eapply in_space_frame; [eapply cu_frame; eassumption|eassumption]).
    destruct (row_payoffs mp sp biased zs ws pc pp sol Hok Hs t e l ty a m x d aid pt ft r1 i1 Hin Q1) as (f1 & A1 & A2 & A3 & A4 & A5 & A6 & A7).
    destruct (row_payoffs mp' sp' biased zs ws pc pp sol' Hok' Hs' t e l ty a m x d aid pt ft r2 i2 Hin2 Q2) as (f2 & B1 & B2 & B3 & B4 & B5 & B6 & B7).
    pose proof (sim_row_facts mp sp sol (sizes' sp mp pc pp Hok) (solved_solution mp sp biased zs ws pc pp sol Hs)
                  false false t (mkAgent aid t e l pt ft x ty a m) d r1 i1 Hin Q1) as RF1.
    pose proof (sim_row_facts mp' sp' sol' (sizes' sp' mp' pc pp Hok') (solved_solution mp' sp' biased zs ws pc pp sol' Hs')
                  false false t (mkAgent aid t e l pt ft x ty a m) d r2 i2 Hin2 Q2) as RF2.
    pose proof (rf_state _ _ _ _ _ _ _ _ _ _ RF1) as G1. pose proof (rf_state _ _ _ _ _ _ _ _ _ _ RF2) as G2.
    pose proof (rf_wage _ _ _ _ _ _ _ _ _ _ RF1) as V1. pose proof (rf_wage _ _ _ _ _ _ _ _ _ _ RF2) as V2.
    assert (He : (0 <= t)%Z /\ (0 <= e < num_educ_levels sp)%Z) by (unfold in_space in Hin; lia).
    assert (He2 : (0 <= e < num_educ_levels sp')%Z) by (unfold in_space in Hin2; lia).
    rewrite (sim_wage_eq mp sp pc pp Hok) in V1 by (cbn [a_educ]; lia).
    rewrite (sim_wage_eq mp' sp' pc pp Hok') in V2 by (cbn [a_educ]; lia).
    cbn [a_educ a_age a_stock] in V1, V2. rewrite (observed_times f Hf sp sp' mp mp' Hcu) in V2 by apply He.
    assert (Ef : f_flow f2 = map (Rmult k) (f_flow f1)).
    { rewrite A4, B4, map_map. apply map_ext_in. intros c Hc. apply (sim_flow_times f Hf sp sp' mp mp' Hcu); [apply He|].
      apply Hflo. cbn in Hc. lia. }
    assert (Er : remaining sp' t = remaining sp t).
    { unfold remaining. rewrite (fr_periods _ _ _ _ (cu_frame f sp sp' mp mp' Hcu)). reflexivity. }
    assert (Ecn : f_cont f2 = map (Rmult k) (f_cont f1)).
    { rewrite A5, B5, map_map, (cu_grid _ _ _ _ _ Hcu), Er. apply map_ext_in. intros c Hc.
      assert (Hgr : exp_grid sp <> []) by apply Hok.
      transitivity (interpolate (uniform_grid (List.length (exp_grid sp)))
        (map (fun y => k * continuation sp mp (is_elterngeld sp) biased (combine zs ws) (child_fun pc) (partner_fun pp) (remaining sp t) t e ty a m c y) (exp_grid sp)) (clip01 x)).
      - f_equal. apply map_ext_in. intros y Hy.
        apply (continuation_times sp sp' mp mp' biased zs ws pc pp k ltac:(left; apply exp_pos) Hok
          (cu_frame f sp sp' mp mp' Hcu) (cu_delta _ _ _ _ _ Hcu)) with (l := l); [|assumption|cbn in Hc; lia].
        intros t0 e0 l0 ty0 a0 m0 x0 c0 z w Hin0 Hx Hc0 Hz. apply (flow_times f Hf sp sp' mp mp' Hcu); [unfold in_space in Hin0; lia|assumption|].
        intros Hn. apply (Hcl t0 e0 l0 ty0 a0 m0 x0 c0 z w); try assumption. lia.
      - rewrite <- (map_map (continuation sp mp (is_elterngeld sp) biased (combine zs ws) (child_fun pc) (partner_fun pp) (remaining sp t) t e ty a m c) (Rmult k)).
        apply interpolate_scale_list. rewrite map_length. unfold uniform_grid. rewrite map_length, seq_length. reflexivity. }
    assert (Ev : f_value f2 = map (Rmult k) (f_value f1)) by (rewrite A6, B6, Ef, Ecn, (cu_delta _ _ _ _ _ Hcu); apply map2_times).
    assert (Ech : o_choice r2 = o_choice r1).
    { apply (first_best_times k (fun c => nth (Z.to_nat c) (f_value f1) 0) (fun c => nth (Z.to_nat c) (f_value f2) 0)); try assumption; [apply exp_pos|].
      intros i Hi. rewrite Ev. rewrite <- (Rmult_0_r k) at 1. apply map_nth. }
    unfold row_in_currency. rewrite G1, G2. refine (conj eq_refl (conj Ech (conj _ _))).
    - rewrite V1, V2. reflexivity.
    - exists f1. split; [exact A1|]. rewrite B1. f_equal.
      destruct f2 as [v1 v2 v3 v4 v5]. cbn [f_male_wage f_non_cons f_flow f_cont f_value] in *.
      rewrite B2, A2, A3, B3, Ef, Ecn, Ev, (male_times f Hf sp sp' mp mp' Hcu), !(leisure_same f sp sp' mp mp' Hcu). reflexivity.
  Qed.

  Lemma data_currency rg ip data data' : sim_setting rg sp sol -> sim_setting rg sp' sol' ->
    simulation rg mp sp sol ip pc pp data -> simulation rg mp' sp' sol' ip pc pp data' ->
    data_clear f rg sp mp data ->
    Forall2 (row_in_currency f k) data data'.
  Proof.
    intros (Hrg & P1 & L1) (_ & P2 & L2) (g1 & g1' & D1) (g2 & g2' & D2) Hd.
    set (nrm := fst (rng_normal rg (rng_seed rg (seed_sim sp)) (Z.to_nat (num_periods sp)) (Z.to_nat (num_agents_sim sp)))).
    assert (Hinc : forall e a t l ty m, in_space sp t e l ty a m -> get_pt_increment mp' e a false = get_pt_increment mp e a false).
    { intros e a t l ty m Hin. assert (Hin2 : in_space sp' t e l ty a m) by (eapply in_space_frame; [eapply cu_frame; eassumption|eassumption]).
      unfold in_space in Hin, Hin2.
      rewrite (increment_spec sp mp) by (try apply Hok; lia). rewrite (increment_spec sp' mp') by (try apply Hok'; lia).
      apply (credit_same f sp sp' mp mp' Hcu). }
    assert (F : Forall2 (alike_rows (fun _ _ => True) (row_in_currency f k)) data data').
    { apply (same_rows rg Hrg mp mp' sp sp' sol sol' ip pc pp P1 P2 L1 L2 (cu_world _ _ _ _ _ Hcu)
        (eq_sym (cu_shares _ _ _ _ _ Hcu)) (eq_sym (cu_sd _ _ _ _ _ Hcu)) false false (fun _ => True) (fun _ _ => True) (row_in_currency f k)
        (fun r => let a := o_state r in forall d, (exists row z, In row nrm /\ In z row /\ d = z * shock_sd mp) -> forall c, (0 <= c < 3)%Z -> clear_of machine_eps f
           (sim_resources_spec sp mp (a_period a) (a_educ a) (a_lagged a) (a_age a) (a_partner a) (a_stock a) d c))
        (fun d => exists row z, In row nrm /\ In z row /\ d = z * shock_sd mp))
        with (g1 := g1) (g2 := g2) (g1' := g1') (g2' := g2'); try assumption.
      - intros r1 r2 (_ & E & _). congruence.
      - intros r1 r2 (E1 & E2 & E3 & c & E4 & E5). unfold row_in_currency. rewrite !hide_state, !hide_choice, !hide_full.
        refine (conj E1 (conj E2 (conj _ (ex_intro _ c (conj E4 E5))))). unfold hide_wage. rewrite E2.
        destruct (o_choice r1 =? 0)%Z; [reflexivity|exact E3].
      - intros id p e a m x y t a0 Hin _ _. unfold a0, init_agent. cbv zeta.
        rewrite (Hinc e a p (a_lagged a0) t m Hin), (init_same f sp sp' mp mp' Hcu). reflexivity.
      - intros a d r1 i1 r2 i2 Hin _ HD _ Q1 HL Q2. rewrite hide_state, (sim_row_state _ _ _ _ _ _ _ _ _ _ Q1) in HL.
        apply (row_times a d r1 i1 r2 i2 Hin (HL d HD) Q1 Q2).
      - intros a c age m Hin _ _. unfold next_agent. cbv zeta.
        rewrite (Hinc _ _ _ _ _ _ Hin), (init_same f sp sp' mp mp' Hcu). reflexivity.
      - intros r Hr. split; [exact I|]. cbv zeta. intros d (row & z & Hrow & Hz & ->) c Hc. exact (Hd r Hr row z Hrow Hz c Hc).
      - intros g i d g' Hp row Hrow x Hx.
        assert (HE : (0 <= num_educ_levels sp)%Z) by apply (sizes sp P1).
        destruct (prepare_spec rg Hrg _ _ _ _ _ _ _ _ Hp HE) as (_ & _ & _ & _ & _ & -> & _).
        unfold scaled_draws in Hrow. apply in_map_iff in Hrow. destruct Hrow as (row0 & <- & Hrow0).
        apply in_map_iff in Hx. destruct Hx as (z & <- & Hz). exists row0, z. exact (conj Hrow0 (conj Hz eq_refl)). }
    clear - F. induction F as [|r1 r2 l1 l2 [_ H] F IH]; constructor; [apply H; exact I|exact IH].
  Qed.
End Data.
