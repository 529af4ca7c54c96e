(** Comparative statics of the Bellman recursion: monotonicity in experience (C29) and
    invariances (C30, C31). *)
From Coq Require Import Reals Lra Lia ZArith List Arith.
From Verif Require Import Base Num M_Params M_Experience M_Tax L_Num S_Experience L_Experience
  S_Interp L_Interp S_Tax L_Tax S_Benefits L_Benefits S_StateSpace L_StateSpace S_Bellman L_Bellman L_Value.
Import ListNotations.
Open Scope R_scope.

Lemma crra_mono mu_ c c' : mu_ <> 0 -> 0 < c -> c <= c' -> crra mu_ c <= crra mu_ c'.
Proof.
  intros Hm Hc Hle. unfold crra.
  destruct (Rlt_dec 0 c) as [_|]; [|lra]. destruct (Rlt_dec 0 c') as [_|]; [|lra].
  destruct (Rlt_dec 0 mu_) as [Hp|Hp].
  - apply Rmult_le_compat_r; [left; apply Rinv_0_lt_compat; assumption|].
    apply Rle_Rpower_l; lra.
  - assert (Hn : mu_ < 0) by lra.
    replace mu_ with (- - mu_) at 1 3 by ring. rewrite !(Rpower_Ropp _ (- mu_)).
    assert (Rpower c (- mu_) <= Rpower c' (- mu_)) by (apply Rle_Rpower_l; lra).
    assert (0 < Rpower c (- mu_)) by (unfold Rpower; apply exp_pos).
    assert (/ Rpower c' (- mu_) <= / Rpower c (- mu_)) by (apply Rinv_le_contravar; assumption).
    assert (/ mu_ < 0) by (apply Rinv_lt_0_compat; assumption).
    unfold Rdiv. nra.
Qed.

Lemma max_years_ge0 i t p : (0 <= i)%Z -> (0 <= t)%Z -> 0 <= max_years i t p.
Proof.
  intros Hi Ht. unfold max_years. assert (0 <= IZR i) by (apply IZR_le; lia).
  assert (0 <= IZR t) by (apply IZR_le; lia). rmm; nra.
Qed.

Lemma ln_le' x y : 0 < x -> x <= y -> ln x <= ln y.
Proof. intros Hx [H|H]; [left; apply ln_increasing; assumption|subst; lra]. Qed.
Lemma exp_le' x y : x <= y -> exp x <= exp y.
Proof. intros [H|H]; [left; apply exp_increasing; assumption|subst; lra]. Qed.

Section Mono.
  Variable sp : model_spec R.
  Variable mp : model_params R.
  Variable biased : bool.
  Variable draws : list (R * R).
  Variable pc : Z -> Z -> R.
  Variable pp : Z -> Z -> Z -> Z -> R.
  Variables rate cap : R.
  Hypothesis Hsp : spec_ok sp.
  Hypothesis Htp : tax_params sp = create_tax_parameters.
  Hypothesis Hss : ssc_deductions sp = (rate, cap).
  Hypothesis Hrate : 0 <= rate < 1.
  Hypothesis Hcap : 0 <= cap.
  Hypothesis Hfloor : forall a, 0 < basic_support sp a 0.
  Hypothesis Hr1 : 0 <= alg1_replacement_no_child sp.
  Hypothesis Hr2 : 0 <= alg1_replacement_child sp.
  Hypothesis Hr3 : 0 <= elterngeld_replacement sp.
  Hypothesis Hmu : mu mp <> 0.
  Hypothesis Hd : 0 <= delta mp.
  Hypothesis Hg1 : forall e, (0 <= e < num_educ_levels sp)%Z -> 0 <= at_ (gamma_1 mp) e.
  Hypothesis Hg0 : forall x, In x (exp_grid sp) -> 0 <= x.
  Hypothesis Hpc : forall t e, (0 <= t < num_periods sp - 1)%Z -> (0 <= e < num_educ_levels sp)%Z -> 0 <= pc t e <= 1.
  Hypothesis Hpp : forall t e m m', (0 <= t < num_periods sp - 1)%Z -> (0 <= e < num_educ_levels sp)%Z ->
    (0 <= m < 2)%Z -> (0 <= m' < 2)%Z -> 0 <= pp t e m m'.
  Hypothesis Hw : forall z w, In (z, w) draws -> 0 <= w.
  Notation V := (value sp mp true biased draws pc pp).
  Notation F := (flow sp mp true biased).

  Lemma hourly_mono t e a x y : (0 <= t)%Z -> (0 <= e < num_educ_levels sp)%Z -> 0 <= x <= y ->
    hourly_wage sp mp biased t e a x <= hourly_wage sp mp biased t e a y.
  Proof.
    intros Ht He Hx. unfold hourly_wage. apply exp_le'.
    pose proof (Hg1 e He). destruct Hsp as (_ & _ & _ & _ & Hi & _).
    pose proof (max_years_ge0 _ _ (pt_credit mp biased e a) Hi Ht).
    apply Rplus_le_compat_r, Rplus_le_compat_l, Rmult_le_compat_l; [assumption|].
    unfold years_of. apply ln_le'; nra.
  Qed.
  Lemma stock_mono t e a c x y : (0 <= t)%Z -> x <= y ->
    stock_next sp mp biased t e a c x <= stock_next sp mp biased t e a c y.
  Proof.
    intros Ht Hxy. unfold stock_next. destruct Hsp as (_ & _ & _ & _ & Hi & _).
    pose proof (max_years_ge0 _ _ (pt_credit mp biased e a) Hi Ht).
    assert (Hp : 0 < max_years (init_exp_max sp) (t + 1) (pt_credit mp biased e a)).
    { unfold max_years. assert (0 <= IZR (init_exp_max sp)) by (apply IZR_le; lia).
      assert (1 <= IZR (t + 1)) by (apply IZR_le; lia). rmm; nra. }
    assert (forall u v, u <= v -> u / max_years (init_exp_max sp) (t + 1) (pt_credit mp biased e a)
                                  <= v / max_years (init_exp_max sp) (t + 1) (pt_credit mp biased e a)).
    { intros u v Huv. apply Rmult_le_compat_r; [left; apply Rinv_0_lt_compat|]; assumption. }
    assert (Hle : (years_of x (init_exp_max sp) t (pt_credit mp biased e a) + credit c (pt_credit mp biased e a))
       <= (years_of y (init_exp_max sp) t (pt_credit mp biased e a) + credit c (pt_credit mp biased e a)))
      by (unfold years_of; nra).
    apply H0 in Hle. rmm; lra.
  Qed.

  Lemma net_mono f f' m : f <= f' -> household_net sp f m <= household_net sp f' m.
  Proof.
    intros [H|H]; [|subst; lra]. destruct Hsp as (_ & _ & _ & _ & _ & _ & _ & Ht & _).
    rewrite <- !net_spec by assumption. rewrite Htp, Hss. left. apply net_strict; assumption.
  Qed.

  Lemma equivalence_pos a m : 0 < equivalence a m.
  Proof. unfold equivalence. destruct (a =? -1)%Z; destruct (m =? 1)%Z; lra. Qed.

  Lemma benefits_mono a l m w w' cb mw : 0 <= w <= w' ->
    benefits_spec sp a l m w cb mw true <= benefits_spec sp a l m w' cb mw true.
  Proof.
    intros H. unfold benefits_spec.
    match goal with |- Rmax ?u _ <= Rmax ?v _ => assert (u <= v) end.
    2:{ rmm; lra. }
    unfold parental_benefit, unemployment_benefit. destruct (worked l); [|destruct (a =? 0)%Z; lra].
    assert (Hh : 0 <= last_hours l) by (unfold last_hours; destruct (l =? 1)%Z; [lra|destruct (l =? 2)%Z; lra]).
    assert (K : forall r, 0 <= r -> r * (65/100 * w) * last_hours l <= r * (65/100 * w') * last_hours l).
    { intros r Hr. apply Rmult_le_compat_r; [assumption|]. apply Rmult_le_compat_l; lra. }
    pose proof (K _ Hr1). pose proof (K _ Hr2). pose proof (K _ Hr3).
    destruct (a =? 0)%Z; [rmm; lra|]. destruct (a =? -1)%Z; lra.
  Qed.

  Lemma resources_spec_pos t e l a m w cb : (0 <= m < 2)%Z ->
    0 < household_net sp 0 (partner_wage sp t e m)
        + benefits_spec sp a l m w cb (partner_wage sp t e m) true.
  Proof.
    intros Hm. destruct Hsp as (_ & _ & _ & _ & _ & _ & _ & Ht & _).
    rewrite <- net_spec by assumption. rewrite Htp, Hss.
    pose proof (benefits_floor sp a l m w cb (partner_wage sp t e m) true ltac:(discriminate)) as Hb.
    assert (m = 0 \/ m = 1)%Z as [-> | ->] by lia.
    - pose proof (Hfloor a). replace (partner_wage sp t e 0) with 0 in * by reflexivity.
      rewrite net_zero by assumption. lra.
    - destruct (partner_wage_sign sp t e 1 ltac:(right; reflexivity)) as [[Hs _] _].
      specialize (Hs eq_refl).
      pose proof (net_pos rate cap Hrate Hcap 0 (partner_wage sp t e 1) (tax_splitting sp)) as Hn.
      assert (0 < calculate_net_income create_tax_parameters (rate, cap) 0 (partner_wage sp t e 1) (tax_splitting sp))
        by (apply Hn; lra).
      replace (basic_support sp a 1) with 0 in Hb by reflexivity. lra.
  Qed.

  Lemma flow_mono t e l ty a m x y c z : in_space sp t e l ty a m -> 0 <= x <= y -> (0 <= c < 3)%Z ->
    F t e l ty a m x c z <= F t e l ty a m y c z.
  Proof.
    intros (Ht & He & Hl & Hty & Ha & Hm) Hx Hc. unfold flow. cbv zeta.
    pose proof (hourly_mono t e a x y ltac:(lia) He Hx) as Hh.
    assert (Hpos : 0 < hourly_wage sp mp biased t e a x) by (unfold hourly_wage; apply exp_pos).
    pose proof (equivalence_pos a m) as Heq.
    assert (Dv : forall u v, u <= v -> u / equivalence a m <= v / equivalence a m)
      by (intros; apply Rmult_le_compat_r; [left; apply Rinv_0_lt_compat|]; assumption).
    assert (Dp : forall u, 0 < u -> 0 < u / equivalence a m)
      by (intros; apply Rmult_lt_0_compat; [|apply Rinv_0_lt_compat]; assumption).
    destruct (Z.eqb_spec c 0) as [->|Hc0].
    - apply crra_mono; [assumption|apply Dp, resources_spec_pos; assumption|].
      apply Dv, Rplus_le_compat_l, benefits_mono. lra.
    - apply Rmult_le_compat_r.
      { unfold leisure. cbv zeta. left. destruct (c =? 1)%Z; apply exp_pos. }
      unfold working_allowance. apply crra_mono; [assumption|apply Dp; rmm; lra|].
      assert (Ho : hours c * (hourly_wage sp mp biased t e a x * exp (z * shock_sd mp))
                   <= hours c * (hourly_wage sp mp biased t e a y * exp (z * shock_sd mp))).
      { apply Rmult_le_compat_l; [unfold hours; destruct (c =? 1)%Z; lra|].
        apply Rmult_le_compat_r; [left; apply exp_pos|assumption]. }
      apply (net_mono _ _ (partner_wage sp t e m)) in Ho. apply Dv. rmm; lra.
  Qed.

  Lemma value_mono n : forall t e l ty a m x y, in_space sp t e l ty a m ->
    (t + Z.of_nat n = num_periods sp - 1)%Z -> 0 <= x <= y ->
    V n t e l ty a m x <= V n t e l ty a m y.
  Proof.
    pose proof Hsp as (_ & _ & _ & Hca & _ & Hgi & Hgn & _).
    induction n as [|n IH]; intros t e l ty a m x y Hin Hn Hx; rewrite !value_eq;
      apply average_le; try assumption; intros z; apply best3_mono; intros c Hc;
      pose proof (flow_mono t e l ty a m x y c z Hin Hx Hc) as Hf; [cbn [continuation]; lra|].
    apply Rplus_le_compat; [assumption|]. apply Rmult_le_compat_l; [assumption|].
    cbn [continuation]. unfold expected_next. cbv zeta.
    destruct Hin as (Ht & He & Hl & Hty & Ha & Hm).
    pose proof (Hpc t e ltac:(lia) He). pose proof (Hpp t e m 0%Z ltac:(lia) He Hm ltac:(lia)).
    pose proof (Hpp t e m 1%Z ltac:(lia) He Hm ltac:(lia)).
    assert (I : forall age m', (-1 <= age <= child_age_max sp)%Z -> (0 <= m' < 2)%Z ->
      interpolate (exp_grid sp) (map (V n (t + 1)%Z e c ty age m') (exp_grid sp)) (stock_next sp mp biased t e a c x)
      <= interpolate (exp_grid sp) (map (V n (t + 1)%Z e c ty age m') (exp_grid sp)) (stock_next sp mp biased t e a c y)).
    { intros age m' Hage Hm'. apply interpolate_mono_query; try assumption.
      - intros u v Hu Hv Huv. apply IH; [unfold in_space; repeat split; lia|lia|].
        split; [apply Hg0; assumption|assumption].
      - apply stock_mono; [lia|lra]. }
    pose proof (aged_range sp Hca a Ha) as Hag.
    apply Rplus_le_compat; (apply Rmult_le_compat_l; [lra|]);
      apply Rplus_le_compat; (apply Rmult_le_compat_l; [assumption|apply I; lia]).
  Qed.
End Mono.
