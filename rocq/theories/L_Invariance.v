(** Invariances of the Bellman recursion (C30, C31). *)
From Coq Require Import Reals Lra Lia ZArith List Arith.
From Verif Require Import Base Num M_Params L_Num S_Experience S_Interp S_Tax S_Benefits S_StateSpace
  S_Bellman S_Invariance L_Value.
Import ListNotations.
Open Scope R_scope.

Section Childless.
  Variables sp sp' : model_spec R.
  Variables mp mp' : model_params R.
  Hypothesis Hs : same_without_children sp sp' mp mp'.
  Variables eg eg' biased : bool.
  Variable draws : list (R * R).
  Variables pc pc' : Z -> Z -> R.
  Variable pp : Z -> Z -> Z -> Z -> R.
  Hypothesis Hpc : forall t e, (0 <= t < num_periods sp - 1)%Z -> (0 <= e < num_educ_levels sp)%Z -> pc t e = 0.
  Hypothesis Hpc' : forall t e, (0 <= t < num_periods sp - 1)%Z -> (0 <= e < num_educ_levels sp)%Z -> pc' t e = 0.

  Lemma credit_childless e : pt_credit mp' biased e (-1) = pt_credit mp biased e (-1).
  Proof. unfold pt_credit. rewrite (sw_gamma_p _ _ _ _ Hs). reflexivity. Qed.
  Lemma stock_childless t e c x : stock_next sp' mp' biased t e (-1) c x = stock_next sp mp biased t e (-1) c x.
  Proof. unfold stock_next. rewrite credit_childless. rewrite (sw_init _ _ _ _ Hs). reflexivity. Qed.
  Lemma wage_childless t e x : hourly_wage sp' mp' biased t e (-1) x = hourly_wage sp mp biased t e (-1) x.
  Proof.
    unfold hourly_wage. rewrite credit_childless. 
    rewrite (sw_init _ _ _ _ Hs), (sw_gamma_0 _ _ _ _ Hs), (sw_gamma_1 _ _ _ _ Hs), (sw_elasticity _ _ _ _ Hs). reflexivity.
  Qed.
  Lemma partner_wage_childless t e m : partner_wage sp' t e m = partner_wage sp t e m.
  Proof.
    unfold partner_wage. 
    rewrite (sw_cf_const _ _ _ _ Hs), (sw_cf_age _ _ _ _ Hs), (sw_cf_age_sq _ _ _ _ Hs), (sw_cf_educ _ _ _ _ Hs). reflexivity.
  Qed.
  Lemma net_childless f m : household_net sp' f m = household_net sp f m.
  Proof.
    unfold household_net, after_contributions. 
    rewrite (sw_tax _ _ _ _ Hs), (sw_ssc _ _ _ _ Hs), (sw_split _ _ _ _ Hs). reflexivity.
  Qed.
  Lemma benefits_childless l m w mw :
    benefits_spec sp' (-1) l m w 0 mw eg' = benefits_spec sp (-1) l m w 0 mw eg.
  Proof.
    unfold benefits_spec, unemployment_benefit, basic_support, raising_allowance. 
    change (-1 =? -1)%Z with true. change (-1 =? 0)%Z with false. change (-1 =? 1)%Z with false.
    cbn [orb]. rewrite (sw_alg1 _ _ _ _ Hs), (sw_regelsatz _ _ _ _ Hs), (sw_housing _ _ _ _ Hs).
    destruct eg, eg'; cbv zeta; lra.
  Qed.

  Lemma flow_childless t e l ty m x c z :
    flow sp' mp' eg' biased t e l ty (-1) m x c z = flow sp mp eg biased t e l ty (-1) m x c z.
  Proof.
    unfold flow. cbv zeta. unfold child_benefit. change (-1 =? -1)%Z with true. cbn iota.
    rewrite !wage_childless, !partner_wage_childless, !net_childless.
    unfold working_allowance, child_benefit. change (-1 =? -1)%Z with true. cbn iota.
    destruct (Rlt_dec 0 0); [lra|].
    unfold leisure, care_costs. change (-1 =? -1)%Z with true. change (0 <=? -1)%Z with false.
    change (3 <=? -1)%Z with false. cbn [andb]. cbv zeta.
    unfold part_time_term, full_time_term.
    rewrite (sw_no_care _ _ _ _ Hs), (sw_theta_p _ _ _ _ Hs), (sw_theta_f _ _ _ _ Hs), (sw_no_kids_f _ _ _ _ Hs), (sw_no_kids_p _ _ _ _ Hs), (sw_sd _ _ _ _ Hs), (sw_mu _ _ _ _ Hs).
    rewrite benefits_childless.
    destruct (c =? 0)%Z; [reflexivity|]. f_equal. f_equal. f_equal.
    destruct eg, eg'; destruct (c =? 1)%Z; reflexivity.
  Qed.

  Lemma value_childless n : forall t e l ty m x, (0 <= t)%Z -> (t + Z.of_nat n = num_periods sp - 1)%Z ->
    (0 <= e < num_educ_levels sp)%Z ->
    value sp' mp' eg' biased draws pc' pp n t e l ty (-1) m x
    = value sp mp eg biased draws pc pp n t e l ty (-1) m x.
  Proof.
    assert (Ed : delta mp' = delta mp) by (destruct Hs; assumption).
    induction n as [|n IH]; intros t e l ty m x Ht Hn He; rewrite !value_eq;
      apply average_ext'; intros z; apply best3_ext; intros c Hc; rewrite flow_childless, Ed; [reflexivity|].
    f_equal. f_equal. cbn [continuation]. unfold expected_next. cbv zeta.
    rewrite Hpc, Hpc' by lia. rewrite stock_childless.
    assert (Eg : exp_grid sp' = exp_grid sp) by (destruct Hs; assumption). rewrite Eg.
    change (aged sp' (-1)) with (-1)%Z. change (aged sp (-1)) with (-1)%Z.
    rewrite !(interpolate_ext _ (value sp' mp' eg' biased draws pc' pp n (t + 1)%Z e c ty (-1)%Z 0%Z)
               (value sp mp eg biased draws pc pp n (t + 1)%Z e c ty (-1)%Z 0%Z))
      by (intros; apply IH; lia).
    rewrite !(interpolate_ext _ (value sp' mp' eg' biased draws pc' pp n (t + 1)%Z e c ty (-1)%Z 1%Z)
               (value sp mp eg biased draws pc pp n (t + 1)%Z e c ty (-1)%Z 1%Z))
      by (intros; apply IH; lia).
    lra.
  Qed.
End Childless.

Section Splitting.
  Variable sp : model_spec R.
  Variable mp : model_params R.
  Variables eg biased flag : bool.
  Variable draws : list (R * R).
  Variable pc : Z -> Z -> R.
  Variable pp : Z -> Z -> Z -> Z -> R.
  Hypothesis Hpp : forall t e, (0 <= t < num_periods sp - 1)%Z -> (0 <= e < num_educ_levels sp)%Z -> pp t e 0%Z 1%Z = 0.
  Notation sp' := (with_splitting sp flag).

  Lemma flow_single t e l ty a x c z :
    flow sp' mp eg biased t e l ty a 0 x c z = flow sp mp eg biased t e l ty a 0 x c z.
  Proof.
    unfold flow. cbv zeta. change (partner_wage sp' t e 0) with 0. change (partner_wage sp t e 0) with 0.
    unfold household_net. destruct (Rlt_dec 0 0) as [H|_]; [lra|]. reflexivity.
  Qed.

  Lemma value_single n : forall t e l ty a x, (0 <= t)%Z -> (t + Z.of_nat n = num_periods sp - 1)%Z ->
    (0 <= e < num_educ_levels sp)%Z ->
    value sp' mp eg biased draws pc pp n t e l ty a 0 x
    = value sp mp eg biased draws pc pp n t e l ty a 0 x.
  Proof.
    induction n as [|n IH]; intros t e l ty a x Ht Hn He; rewrite !value_eq;
      apply average_ext'; intros z; apply best3_ext; intros c Hc; rewrite flow_single; [reflexivity|].
    f_equal. f_equal. cbn [continuation]. unfold expected_next. cbv zeta.
    rewrite Hpp by lia.
    change (exp_grid sp') with (exp_grid sp).
    change (stock_next sp' mp biased t e a c x) with (stock_next sp mp biased t e a c x).
    change (aged sp' a) with (aged sp a).
    assert (E : forall age, interpolate (exp_grid sp)
         (map (value sp' mp eg biased draws pc pp n (t + 1)%Z e c ty age 0%Z) (exp_grid sp)) (stock_next sp mp biased t e a c x)
       = interpolate (exp_grid sp)
         (map (value sp mp eg biased draws pc pp n (t + 1)%Z e c ty age 0%Z) (exp_grid sp)) (stock_next sp mp biased t e a c x)).
    { intros age. apply interpolate_ext. intros y Hy. apply IH; lia. }
    rewrite !E. lra.
  Qed.
End Splitting.
