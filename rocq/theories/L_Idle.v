(** Lemmas for C94. *)
From Coq Require Import Reals Lra Lia ZArith List Arith String.
From Verif Require Import Base Num M_Params M_Tax M_Exog M_Sim L_Num S_Experience S_Interp S_Tax S_Benefits S_StateSpace L_StateSpace
  S_Bellman L_Tax L_Bellman S_Solver L_Value L_Solver S_Rng L_Rng S_Sim S_SimInputs S_SimSame L_Sim L_SimProps L_SimFlow L_Mono L_Reform
  L_Stability L_SimInvariance S_Idle.
Import ListNotations.
Open Scope R_scope.

Lemma interpolate_const_on g f x k : g <> [] -> (forall y, In y g -> f y = k) -> interpolate g (map f g) x = k.
Proof.
  intros Hg H. rewrite (interpolate_ext g f (fun y => 0 * f y + k)) by (intros y Hy; rewrite (H y Hy); ring).
  rewrite interpolate_affine by assumption. ring.
Qed.
Lemma best3_plus q k : best3 (fun c => q c + k) = best3 q + k.
Proof. unfold best3. rmm; lra. Qed.

Section Static.
  Variable sp : model_spec R.
  Variable mp : model_params R.
  Variables eg biased : bool.
  Variable draws : list (R * R).
  Variable pc : Z -> Z -> R.
  Variable pp : Z -> Z -> Z -> Z -> R.
  Variable home : Z -> Z -> Prop.
  Hypothesis Hca : (0 <= child_age_max sp)%Z.
  Hypothesis Hg : exp_grid sp <> [].
  Hypothesis Hh : never_left sp pc pp home.
  Hypothesis Hf : past_is_forgotten sp mp eg biased draws home.
  Notation V := (value sp mp eg biased draws pc pp).
  Notation C := (continuation sp mp eg biased draws pc pp).

  Lemma average_in_ext f f' (l : list (R * R)) : (forall z w, In (z, w) l -> f z = f' z) -> average f l = average f' l.
  Proof.
    induction l as [|[z w] l IH]; intros H; [reflexivity|]. cbn [average].
    rewrite (H z w (or_introl eq_refl)), IH; [reflexivity|]. intros z' w' H'. apply (H z' w'). right. exact H'.
  Qed.

  Lemma forgotten n :
    (forall t e l l' ty a m x x', in_space sp t e l ty a m -> in_space sp t e l' ty a m -> home a m ->
       (t + Z.of_nat n = num_periods sp - 1)%Z -> In x (exp_grid sp) -> In x' (exp_grid sp) ->
       V n t e l ty a m x = V n t e l' ty a m x') /\
    (forall t e l ty a m c c' x x', in_space sp t e l ty a m -> home a m ->
       (t + Z.of_nat n = num_periods sp - 1)%Z -> (0 <= c < 3)%Z -> (0 <= c' < 3)%Z ->
       C n t e ty a m c x = C n t e ty a m c' x').
  Proof.
    assert (Step : forall n,
      (forall t e l ty a m c c' x x', in_space sp t e l ty a m -> home a m ->
         (t + Z.of_nat n = num_periods sp - 1)%Z -> (0 <= c < 3)%Z -> (0 <= c' < 3)%Z ->
         C n t e ty a m c x = C n t e ty a m c' x') ->
      forall t e l l' ty a m x x', in_space sp t e l ty a m -> in_space sp t e l' ty a m -> home a m ->
         (t + Z.of_nat n = num_periods sp - 1)%Z -> In x (exp_grid sp) -> In x' (exp_grid sp) ->
         V n t e l ty a m x = V n t e l' ty a m x').
    { clear n. intros n HC t e l l' ty a m x x' Hin Hin' Hhome Hn Hx Hx'. rewrite !value_eq.
      set (k := delta mp * C n t e ty a m 0%Z x).
      apply average_in_ext. intros z w Hz.
      rewrite (best3_ext _ (fun c => flow sp mp eg biased t e l ty a m x c z + k))
        by (intros c Hc; unfold k; rewrite (HC t e l ty a m c 0%Z x x Hin Hhome Hn Hc ltac:(lia)); reflexivity).
      rewrite (best3_ext (fun c => flow sp mp eg biased t e l' ty a m x' c z + _) (fun c => flow sp mp eg biased t e l' ty a m x' c z + k))
        by (intros c Hc; unfold k; rewrite (HC t e l ty a m c 0%Z x' x Hin Hhome Hn Hc ltac:(lia)); reflexivity).
      rewrite !best3_plus. f_equal. eapply Hf; eassumption. }
    induction n as [|n [IHV _]].
    - split; [|reflexivity]. apply Step. reflexivity.
    - assert (HC : forall t e l ty a m c c' x x', in_space sp t e l ty a m -> home a m ->
         (t + Z.of_nat (S n) = num_periods sp - 1)%Z -> (0 <= c < 3)%Z -> (0 <= c' < 3)%Z ->
         C (S n) t e ty a m c x = C (S n) t e ty a m c' x').
      { intros t e l ty a m c c' x x' Hin Hhome Hn Hc Hc'. cbn [continuation]. unfold expected_next. cbv zeta.
        unfold in_space in Hin. pose proof (aged_range sp Hca a ltac:(lia)) as Hag.
        destruct (exp_grid sp) as [|y0 gr] eqn:Eg; [congruence|]. rewrite <- Eg in *.
        assert (Hy0 : In y0 (exp_grid sp)) by (rewrite Eg; left; reflexivity).
        assert (K : forall age m' d x, (-1 <= age <= child_age_max sp)%Z -> (0 <= m' < 2)%Z -> home age m' -> (0 <= d < 3)%Z ->
          interpolate (exp_grid sp) (map (V n (t + 1)%Z e d ty age m') (exp_grid sp)) x = V n (t + 1)%Z e 0%Z ty age m' y0).
        { intros age m' d u Hage Hm' Hho Hd. apply interpolate_const_on; [assumption|]. intros y Hy.
          apply IHV; try assumption; try lia; unfold in_space; lia. }
        assert (Z0 : forall m' p, (0 <= m' < 2)%Z -> p = pp t e m m' ->
          (1 - pc t e) * (p * interpolate (exp_grid sp) (map (V n (t + 1)%Z e c ty (aged sp a) m') (exp_grid sp)) (stock_next sp mp biased t e a c x))
          = (1 - pc t e) * (p * interpolate (exp_grid sp) (map (V n (t + 1)%Z e c' ty (aged sp a) m') (exp_grid sp)) (stock_next sp mp biased t e a c' x'))
          /\ pc t e * (p * interpolate (exp_grid sp) (map (V n (t + 1)%Z e c ty 0%Z m') (exp_grid sp)) (stock_next sp mp biased t e a c x))
          = pc t e * (p * interpolate (exp_grid sp) (map (V n (t + 1)%Z e c' ty 0%Z m') (exp_grid sp)) (stock_next sp mp biased t e a c' x'))).
        { intros m' p Hm' Ep. destruct (Req_dec p 0) as [E0|E0]; [rewrite E0; split; ring|].
          destruct (Hh t e a m m' ltac:(lia) ltac:(lia) ltac:(lia) ltac:(lia) Hm' Hhome ltac:(congruence)) as [H1 H0]. split.
          - destruct (Req_dec (pc t e) 1) as [E1|E1]; [rewrite E1; ring|]. rewrite !K; auto; lia.
          - destruct (Req_dec (pc t e) 0) as [E1|E1]; [rewrite E1; ring|]. rewrite !K; auto; lia. }
        destruct (Z0 0%Z _ ltac:(lia) eq_refl) as [A1 A2]. destruct (Z0 1%Z _ ltac:(lia) eq_refl) as [B1 B2].
        rewrite !Rmult_plus_distr_l, A1, A2, B1, B2. reflexivity. }
      split; [apply Step; exact HC|exact HC].
  Qed.
End Static.

Lemma at_three (f : Z -> R) c : (0 <= c < 3)%Z -> at_ (map f [0; 1; 2]%Z) c = f c.
Proof. intros Hc. assert (c = 0 \/ c = 1 \/ c = 2)%Z as [-> | [-> | ->]] by lia; reflexivity. Qed.

Section Tables.
  Variable sp : model_spec R.
  Variable mp : model_params R.
  Variable biased : bool.
  Variables zs ws : list R.
  Variable pc : list (list R).
  Variable pp : list (list (list (R * R))).
  Variable home : Z -> Z -> Prop.
  Hypothesis Hok : inputs_ok sp mp pc pp.
  Hypothesis Hh : never_left sp (child_fun pc) (partner_fun pp) home.
  Hypothesis Hf : past_is_forgotten sp mp (is_elterngeld sp) biased (combine zs ws) home.

  Lemma spec_age : (0 <= child_age_max sp)%Z. Proof. destruct Hok as ((_ & _ & _ & H & _) & _). exact H. Qed.
  Lemma spec_grid : exp_grid sp <> []. Proof. destruct Hok as ((_ & _ & _ & _ & _ & _ & H & _) & _). exact H. Qed.

  Lemma remaining_sum t e l ty a m : in_space sp t e l ty a m -> (t + Z.of_nat (remaining sp t) = num_periods sp - 1)%Z.
  Proof. unfold in_space, remaining. lia. Qed.

  Lemma forgotten_table t e l l' ty a m g g' c c' :
    in_space sp t e l ty a m -> in_space sp t e l' ty a m -> home a m ->
    (g < List.length (exp_grid sp))%nat -> (g' < List.length (exp_grid sp))%nat ->
    (0 <= c < 3)%Z -> (0 <= c' < 3)%Z ->
    solver_cell sp mp biased zs ws pc pp t e l ty a m g 3 = solver_cell sp mp biased zs ws pc pp t e l' ty a m g' 3 /\
    solver_cell sp mp biased zs ws pc pp t e l ty a m g c = solver_cell sp mp biased zs ws pc pp t e l' ty a m g' c'.
  Proof.
    intros Hin Hin' Hho Hg Hg' Hc Hc'.
    destruct (nth_error (exp_grid sp) g) as [x|] eqn:Ex; [|apply nth_error_None in Ex; lia].
    destruct (nth_error (exp_grid sp) g') as [x'|] eqn:Ex'; [|apply nth_error_None in Ex'; lia].
    destruct (solver_values _ _ biased zs ws _ _ Hok _ _ _ _ _ _ _ _ Hin Ex) as (A0 & A1 & A2 & A3).
    destruct (solver_values _ _ biased zs ws _ _ Hok _ _ _ _ _ _ _ _ Hin' Ex') as (B0 & B1 & B2 & B3).
    destruct (forgotten sp mp (is_elterngeld sp) biased (combine zs ws) (child_fun pc) (partner_fun pp) home spec_age spec_grid Hh Hf (remaining sp t)) as [FV FC].
    pose proof (remaining_sum _ _ _ _ _ _ Hin) as Hn. split.
    - rewrite A3, B3. f_equal. apply FV; try assumption; eapply nth_error_In; eassumption.
    - transitivity (@Ok R (continuation sp mp (is_elterngeld sp) biased (combine zs ws) (child_fun pc) (partner_fun pp) (remaining sp t) t e ty a m c x)).
      + assert (c = 0 \/ c = 1 \/ c = 2)%Z as [-> | [-> | ->]] by lia; assumption.
      + rewrite (FC t e l ty a m c c' x x' Hin Hho Hn Hc Hc'). symmetry.
        assert (c' = 0 \/ c' = 1 \/ c' = 2)%Z as [-> | [-> | ->]] by lia; assumption.
  Qed.

  Variable sol : solution R.
  Hypothesis Hs : solved sp mp biased zs ws pc pp sol.

  Lemma static_choice rg ip data : sim_setting rg sp sol -> simulation rg mp sp sol ip pc pp data ->
    forall r, In r data -> home (a_age (o_state r)) (a_partner (o_state r)) ->
    exists f, o_full r = Some f /\
      (forall c, (0 <= c < 3)%Z -> at_ (f_cont f) c = at_ (f_cont f) 0) /\
      first_best (at_ (f_flow f)) (o_choice r).
  Proof.
    intros Hset Hsim r Hr Hho.
    destruct (rows_of_simulation rg mp sp biased zs ws pc pp sol Hok Hs ip data Hset Hsim) as (col & _ & H).
    destruct (H r Hr) as (z & f & _ & _ & Hfull & _ & _ & Ef & Ec & Ev & Hb). exists f. split; [exact Hfull|].
    assert (Hin : agent_in_space sp (o_state r)).
    { destruct Hset as (S1 & S2 & S3). destruct Hsim as (g & g' & Hd'). exact (proj1 (listed _ _ _ _ _ _ _ _ S1 S2 S3 g g' data Hd' r Hr)). }
    unfold agent_in_space in Hin.
    destruct (forgotten sp mp (is_elterngeld sp) biased (combine zs ws) (child_fun pc) (partner_fun pp) home spec_age spec_grid Hh Hf (remaining sp (a_period (o_state r)))) as [_ FC].
    pose proof (remaining_sum _ _ _ _ _ _ Hin) as Hn.
    assert (Econt : forall c, (0 <= c < 3)%Z -> at_ (f_cont f) c = at_ (f_cont f) 0).
    { intros c Hc. rewrite Ec, !at_three by lia. f_equal. apply map_ext. intros y.
      apply (FC _ _ _ _ _ _ c 0%Z y y Hin Hho Hn Hc). lia. }
    split; [exact Econt|].
    destruct Hb as (Hc & Hb1 & Hb2).
    assert (Hv : forall c, (0 <= c < 3)%Z -> nth (Z.to_nat c) (f_value f) 0 = at_ (f_flow f) c + delta mp * at_ (f_cont f) 0).
    { intros c Hcc. rewrite <- (Econt c Hcc). rewrite Ev, Ef, Ec. assert (c = 0 \/ c = 1 \/ c = 2)%Z as [-> | [-> | ->]] by lia; reflexivity. }
    refine (conj Hc (conj _ _)).
    - intros c' Hc'. pose proof (Hb1 c' Hc') as H1. rewrite !Hv in H1 by assumption. lra.
    - intros c' Hc'. pose proof (Hb2 c' Hc') as H1. rewrite !Hv in H1 by lia. lra.
  Qed.
End Tables.

(** *** childless singles for whom work does not pay *)
Definition lonely (a m : Z) : Prop := (a = -1 /\ m = 0)%Z.

Section Idle.
  Variable sp : model_spec R.
  Variable mp : model_params R.
  Variable biased : bool.
  Variables rate cap : R.
  Hypothesis Hsp : spec_ok sp.
  Hypothesis Htp : tax_params sp = create_tax_parameters.
  Hypothesis Hss : ssc_deductions sp = (rate, cap).
  Hypothesis Hr : 0 <= rate <= 1.
  Hypothesis Hcap : 0 <= cap.
  Hypothesis Hmu : mu mp < 0.
  Hypothesis Hal : 0 <= alg1_replacement_no_child sp.
  Hypothesis Hsup : 1 / 100000000000000 <= support sp.
  Hypothesis Hcost : forall c, (1 <= c <= 2)%Z -> 0 <= care_costs sp (-1) c.

  Lemma net_below own : 0 <= own -> household_net sp own 0 <= own.
  Proof.
    intros Ho. unfold household_net. destruct (Rlt_dec 0 0) as [H|_]; [lra|].
    assert (Ht : tax_table_ok (tax_params sp)) by (destruct Hsp as (_ & _ & _ & _ & _ & _ & _ & H & _); exact H).
    rewrite <- tax_spec by exact Ht. rewrite Htp.
    pose proof (tax07_nonneg (after_contributions sp own)) as H1.
    unfold after_contributions in *. rewrite Hss in *. cbn [fst snd] in *. rewrite <- ssc_spec in *.
    pose proof (ssc_bounds rate cap own Hr Hcap Ho). lra.
  Qed.
  Lemma net_nothing : household_net sp 0 0 = 0.
  Proof.
    unfold household_net. destruct (Rlt_dec 0 0) as [H|_]; [lra|].
    assert (Ht : tax_table_ok (tax_params sp)) by (destruct Hsp as (_ & _ & _ & _ & _ & _ & _ & H & _); exact H).
    assert (E : after_contributions sp 0 = 0).
    { unfold after_contributions. rewrite Hss. cbn [fst snd]. unfold contribution. destruct (Rle_dec 0 cap); [ring|contradiction]. }
    rewrite E, <- tax_spec by exact Ht. rewrite Htp.
    assert (H1 : tax07 0 = 0) by (apply tax07_zero; rewrite Rmult_0_l; lra). rewrite H1. ring.
  Qed.

  Lemma idle_benefits l w0 cb reg : 0 <= w0 ->
    alg1_replacement_no_child sp * (65/100 * w0) * 38 <= support sp ->
    benefits_spec sp (-1) l 0 w0 cb 0 reg = support sp.
  Proof.
    intros Hw Hb. assert (Ht : 0 < support sp) by lra. unfold benefits_spec, unemployment_benefit, raising_allowance, basic_support.
    change (-1 =? -1)%Z with true. change (-1 =? 0)%Z with false. change (-1 =? 1)%Z with false. change (0 =? 1)%Z with false. cbn [orb].
    change (regelsatz_single sp + housing_single sp) with (support sp).
    assert (E : (if worked l then alg1_replacement_no_child sp * (65 / 100 * w0) * last_hours l else 0) <= support sp).
    { destruct (worked l); [|lra]. eapply Rle_trans; [|exact Hb]. apply Rmult_le_compat_l.
      - apply Rmult_le_pos; lra.
      - unfold last_hours. destruct (l =? 1)%Z; [lra|]. destruct (l =? 2)%Z; lra. }
    destruct reg; rewrite Rmax_right by exact E; ring.
  Qed.

  Lemma crra_below eps cons fac : 0 < eps -> cons <= support sp -> eps <= support sp -> 1 <= fac ->
    crra (mu mp) (Rmax cons eps / 1) * fac <= crra (mu mp) (support sp / 1).
  Proof.
    intros He Hc Hes Hfac.
    assert (H1 : crra (mu mp) (Rmax cons eps / 1) <= crra (mu mp) (support sp / 1)).
    { apply crra_mono; [lra| |]; unfold Rdiv; rewrite Rinv_1, !Rmult_1_r; rmm; lra. }
    pose proof (crra_nonpos (mu mp) (Rmax cons eps / 1) Hmu). nra.
  Qed.

  Section Tastes.
  Variables e ty : Z.
  Hypothesis Hlei : forall c, (1 <= c <= 2)%Z -> 1 <= leisure mp e ty (-1) c.

  Lemma idle_flow t l x z : not_worth_it sp (hourly_wage sp mp biased t e (-1) x) (hourly_wage sp mp biased t e (-1) x * exp (z * shock_sd mp)) ->
    flow sp mp (is_elterngeld sp) biased t e l ty (-1) 0 x 0 z = crra (mu mp) (support sp / 1) /\
    forall c, (1 <= c <= 2)%Z -> flow sp mp (is_elterngeld sp) biased t e l ty (-1) 0 x c z <= crra (mu mp) (support sp / 1).
  Proof.
    intros [N1 N2]. set (w := hourly_wage sp mp biased t e (-1) x) in *.
    assert (Hw : 0 < w) by (unfold w, hourly_wage; apply exp_pos).
    assert (Hm0 : partner_wage sp t e 0 = 0) by reflexivity.
    split.
    - unfold flow. cbv zeta. rewrite Hm0. change (0 =? 0)%Z with true. cbv iota. fold w.
      rewrite idle_benefits by (assumption || lra). rewrite net_nothing. change (equivalence (-1) 0) with 1. rewrite Rplus_0_l. reflexivity.
    - intros c Hc. unfold flow. cbv zeta. rewrite Hm0. replace (c =? 0)%Z with false by (symmetry; apply Z.eqb_neq; lia). fold w.
      change (equivalence (-1) 0) with 1. change (child_benefit sp (-1)) with 0.
      apply crra_below; [lra| |exact Hsup|apply Hlei; assumption].
      set (we := w * exp (z * shock_sd mp)) in *. assert (Hwe : 0 < we) by (apply Rmult_lt_0_compat; [assumption|apply exp_pos]).
      assert (Hown : 0 <= hours c * we <= 38 * we) by (unfold hours; destruct (c =? 1)%Z; lra).
      pose proof (net_below _ (proj1 Hown)). pose proof (Hcost c Hc).
      assert (Ea : working_allowance sp (is_elterngeld sp) (-1) 0 c (hours c * we) 0 = 0).
      { unfold working_allowance. destruct (is_elterngeld sp); [reflexivity|]. change (child_benefit sp (-1)) with 0.
        destruct (c =? 1)%Z; [|reflexivity]. destruct (Rlt_dec 0 0) as [H9|_]; [lra|reflexivity]. }
      rewrite Ea. lra.
  Qed.

  Lemma idle_sim_flow t l x s : 0 <= observed_wage sp mp t e (-1) x s ->
    not_worth_it sp (base_wage sp mp t e (-1) x) (observed_wage sp mp t e (-1) x s) ->
    forall c, (1 <= c <= 2)%Z -> sim_flow sp mp t e l ty (-1) 0 x s c <= sim_flow sp mp t e l ty (-1) 0 x s 0.
  Proof.
    intros Hwe [N1 N2] c Hc. set (w := base_wage sp mp t e (-1) x) in *.
    assert (Hw : 0 < w) by (unfold w, base_wage; apply exp_pos).
    assert (Hm0 : partner_wage sp t e 0 = 0) by reflexivity.
    assert (He : 0 < machine_eps <= support sp).
    { unfold machine_eps. lra. }
    unfold sim_flow. change (equivalence (-1) 0) with 1. change (0 =? 0)%Z with true. replace (c =? 0)%Z with false by (symmetry; apply Z.eqb_neq; lia).
    rewrite Rmult_1_r.
    assert (E0 : sim_resources_spec sp mp t e l (-1) 0 x s 0 = support sp).
    { unfold sim_resources_spec. rewrite Hm0. change (0 =? 0)%Z with true. cbv zeta iota. fold w.
      rewrite idle_benefits by (assumption || lra). rewrite net_nothing. ring. }
    rewrite E0, (Rmax_left (support sp)) by apply He.
    apply crra_below; [apply He| |apply He|apply Hlei; assumption].
    unfold sim_resources_spec. cbv zeta. rewrite Hm0. replace (c =? 0)%Z with false by (symmetry; apply Z.eqb_neq; lia).
    change (child_benefit sp (-1)) with 0. change (sim_care_costs sp (-1) c) with 0. set (we := observed_wage sp mp t e (-1) x s) in *.
    assert (Hown : 0 <= we * hours c <= 38 * we) by (unfold hours; destruct (c =? 1)%Z; lra).
    pose proof (net_below _ (proj1 Hown)).
    assert (Ea : sim_allowance sp (-1) 0 c (we * hours c) 0 = 0).
    { unfold sim_allowance. destruct (is_elterngeld sp); [reflexivity|]. destruct (c =? 1)%Z; reflexivity. }
    rewrite Ea. lra.
  Qed.
  End Tastes.
End Idle.

Lemma childless_stay sp mp pc pp : inputs_ok sp mp pc pp -> no_births pc ->
  never_left sp (child_fun pc) (partner_fun pp) (fun a _ => a = (-1)%Z).
Proof.
  intros Hok Hnb t e a m m' Ht He Ha Hm Hm' -> Hp.
  rewrite (no_births_fun sp mp pc pp Hok Hnb t e) by lia. split; [reflexivity|]. intros H. congruence.
Qed.
Lemma lonely_stay sp mp pc pp : inputs_ok sp mp pc pp -> no_births pc -> no_arrivals pp ->
  never_left sp (child_fun pc) (partner_fun pp) lonely.
Proof.
  intros Hok Hnb Hna t e a m m' Ht He Ha Hm Hm' [-> ->] Hp.
  destruct (childless_stay sp mp pc pp Hok Hnb t e (-1)%Z 0%Z m' Ht He ltac:(lia) Hm Hm' eq_refl Hp) as [H1 H2].
  assert (Em : m' = 0%Z).
  { destruct (Z.eq_dec m' 0) as [|Hne]; [assumption|]. assert (m' = 1%Z) by lia. subst m'. exfalso. apply Hp.
    apply (no_arrivals_fun sp mp pc pp Hok Hna); lia. }
  subst m'. split; intros H; [split; reflexivity|apply H2 in H; discriminate].
Qed.

Lemma no_returns_forgotten sp mp biased draws : (forall e, (0 <= e < num_educ_levels sp)%Z -> at_ (gamma_1 mp) e = 0) ->
  alg1_replacement_no_child sp = 0 ->
  past_is_forgotten sp mp (is_elterngeld sp) biased draws (fun a _ => a = (-1)%Z).
Proof.
  intros Hg Ha t e l l' ty a m x x' z w Hin Hin' -> _ _ _. apply best3_ext. intros c Hc.
  assert (Ew : hourly_wage sp mp biased t e (-1) x = hourly_wage sp mp biased t e (-1) x').
  { unfold hourly_wage. unfold in_space in Hin. rewrite (Hg e) by lia. rewrite !Rmult_0_l. reflexivity. }
  assert (Eb : forall l w0 cb mw reg, benefits_spec sp (-1) l m w0 cb mw reg = benefits_spec sp (-1) 0 m 0 cb mw reg).
  { intros k w0 cb mw reg.
    assert (Eu : unemployment_benefit sp (-1) k w0 cb = 0 /\ unemployment_benefit sp (-1) 0 0 cb = 0).
    { unfold unemployment_benefit. change (-1 =? -1)%Z with true. rewrite Ha. destruct (worked k); split; try reflexivity; cbv iota; ring. }
    unfold benefits_spec. change (-1 =? 0)%Z with false. destruct Eu as [-> ->]. reflexivity. }
  unfold flow. cbv zeta. rewrite Ew. rewrite (Eb l), (Eb l'). reflexivity.
Qed.

Lemma idle_forgotten sp mp biased draws rate cap : spec_ok sp -> tax_params sp = create_tax_parameters -> ssc_deductions sp = (rate, cap) ->
  0 <= rate <= 1 -> 0 <= cap -> mu mp < 0 -> 0 <= alg1_replacement_no_child sp -> 1 / 100000000000000 <= support sp ->
  (forall c, (1 <= c <= 2)%Z -> 0 <= care_costs sp (-1) c) ->
  (forall e ty c, (0 <= e < num_educ_levels sp)%Z -> (0 <= ty < num_types sp)%Z -> (1 <= c <= 2)%Z -> 1 <= leisure mp e ty (-1) c) ->
  (forall t e x z w, (0 <= t < num_periods sp)%Z -> (0 <= e < num_educ_levels sp)%Z -> In x (exp_grid sp) -> In (z, w) draws ->
     let w0 := hourly_wage sp mp biased t e (-1) x in not_worth_it sp w0 (w0 * exp (z * shock_sd mp))) ->
  past_is_forgotten sp mp (is_elterngeld sp) biased draws lonely.
Proof.
  intros Hsp Htp Hss Hr Hcap Hmu Hal Hsup Hcost Hlei Hw t e l l' ty a m x x' z w Hin Hin' [-> ->] Hx Hx' Hz.
  unfold in_space in Hin.
  assert (B : forall l x, In x (exp_grid sp) -> best3 (fun c => flow sp mp (is_elterngeld sp) biased t e l ty (-1) 0 x c z) = crra (mu mp) (support sp / 1)).
  { intros k y Hy.
    destruct (idle_flow sp mp biased rate cap Hsp Htp Hss Hr Hcap Hmu Hal Hsup Hcost e ty (fun c => Hlei e ty c ltac:(lia) ltac:(lia)) t k y z
      (Hw t e y z w ltac:(lia) ltac:(lia) Hy Hz)) as [E0 E1].
    unfold best3. rewrite E0. pose proof (E1 1%Z ltac:(lia)). pose proof (E1 2%Z ltac:(lia)). rmm; lra. }
  rewrite !B by assumption. reflexivity.
Qed.
