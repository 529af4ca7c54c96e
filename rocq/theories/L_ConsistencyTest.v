(** Lemmas for C101: the inputs of the test. *)
From Coq Require Import Reals Lra Lia ZArith List Arith String.
From Verif Require Import Base Num M_Params M_Tax M_Exog M_Sim M_AuxFuncs M_Consistency L_Num S_Experience S_Interp L_Interp S_Tax S_Benefits S_StateSpace L_StateSpace
  S_Bellman L_Tax L_Bellman S_Solver L_Value L_Solver S_Rng L_Rng S_Sim S_SimInputs S_SimEntry S_SimSame L_Sim L_SimProps L_SimFlow L_SimSame L_Mono L_Reform S_Stability
  L_Stability L_SimInvariance S_Idle L_Idle S_GridSim S_AuxFuncs L_AuxFuncs S_Exog S_Main T_Exog L_Grid L_GridSim L_Reserve S_Consistency L_Consistency L_Witness L_GridWitness X_Consistency.
Import ListNotations.
Open Scope R_scope.

(** *** numbers *)
Lemma crra_square s : 0 < s -> crra (-(5/10)) (s * s) = - (2 / s).
Proof.
  intros Hs. unfold crra. assert (0 < s * s) by nra. destruct (Rlt_dec 0 (s * s)) as [_|]; [|contradiction].
  rewrite Rpower_Ropp. replace (5/10) with (/ 2) by lra. rewrite Rpower_sqrt by assumption. rewrite sqrt_square by lra. field. lra.
Qed.
Lemma crra_ge s c : 0 < s -> s * s <= c -> - (2 / s) <= crra (-(5/10)) c.
Proof. intros Hs H. rewrite <- crra_square by assumption. apply crra_mono; [lra|nra|exact H]. Qed.
Lemma crra_le s c : 0 < s -> 0 < c -> c <= s * s -> crra (-(5/10)) c <= - (2 / s).
Proof. intros Hs Hc H. rewrite <- crra_square by assumption. apply crra_mono; [lra|exact Hc|exact H]. Qed.

Definition idle_u : R := crra (-(5/10)) (1685/10).
Lemma idle_u_bounds : -(1541/10000) <= idle_u <= -(15396/100000).
Proof.
  unfold idle_u. pose proof (crra_ge (1298/100) (1685/10) ltac:(lra) ltac:(lra)). pose proof (crra_le (1299/100) (1685/10) ltac:(lra) ltac:(lra) ltac:(lra)). lra.
Qed.

Lemma low_pay y : 0 <= y <= 5 -> 1 <= exp (1/10 * ln (y + 1)) <= 12/10.
Proof.
  intros Hy. assert (H0 : 0 <= ln (y + 1)) by (rewrite <- ln_1; destruct (Req_dec y 0) as [->|]; [rewrite Rplus_0_l; lra|left; apply ln_increasing; lra]).
  assert (H1 : ln (y + 1) <= 10 * ln (12/10)).
  { apply Rle_trans with (ln ((12/10) ^ 10)).
    - destruct (Req_dec (y + 1) ((12/10)^10)) as [->|Hn]; [lra|]. left. apply ln_increasing; [lra|]. simpl. simpl in Hn. lra.
    - right. rewrite <- Rpower_pow by lra. unfold Rpower. rewrite ln_exp. simpl INR. ring. }
  assert (M : forall a b, a <= b -> exp a <= exp b) by (intros a b [H | ->]; [left; apply exp_increasing; exact H|lra]).
  pose proof (M 0 (1/10 * ln (y + 1)) ltac:(lra)) as A. pose proof (M (1/10 * ln (y + 1)) (ln (12/10)) ltac:(lra)) as B.
  rewrite exp_0 in A. rewrite exp_ln in B by lra. split; assumption.
Qed.

Section Test.
  Variable sp : model_spec R.
  Variable mp : model_params R.
  Hypothesis F : ct_spec sp.
  Hypothesis P : ct_mp mp.
  Hypothesis Hsp : spec_ok sp.

  Lemma t_grid x : In x (exp_grid sp) -> 0 <= x <= 1.
  Proof.
    rewrite (cs_grid _ F). intros H. pose proof (L_Grid.uniform_spans 10 ltac:(lia)) as (_ & U0 & U1).
    apply In_nth with (d := 0) in H. destruct H as (i & Hi & <-). rewrite uniform_grid_length in Hi.
    pose proof (uniform_increasing 10) as I. unfold S_Interp.increasing in I. rewrite uniform_grid_length in *.
    change (10 - 1)%nat with 9%nat in U1. split.
    - destruct i; [lra|]. pose proof (I 0%nat (S i) ltac:(lia)). lra.
    - destruct (Nat.eq_dec i 9) as [->|]; [lra|]. pose proof (I i 9%nat ltac:(lia)). lra.
  Qed.

  Lemma t_credit biased a : Rmax 1 (pt_credit mp biased 0 a) = 1.
  Proof.
    unfold pt_credit. rewrite (cp_gamma_p _ P), (cp_mom _ P). change (at_ [5/10; 5/10; 5/10] 0) with (5/10).
    destruct biased; [rmm; lra|]. destruct (_ && _)%bool; rmm; lra.
  Qed.
  Lemma t_years biased t a x : (0 <= t < 5)%Z -> 0 <= x <= 1 -> 0 <= years_of x (init_exp_max sp) t (pt_credit mp biased 0 a) <= 5.
  Proof.
    intros Ht Hx. unfold years_of, max_years. rewrite t_credit, (cs_exp_init _ F). rewrite Rmult_1_r, Rplus_0_l.
    assert (0 <= IZR t <= 5) by (split; [apply IZR_le; lia|apply IZR_le; lia]). nra.
  Qed.
  Lemma t_base t a x : (0 <= t < 5)%Z -> 0 <= x <= 1 -> 1 <= base_wage sp mp t 0 a x <= 12/10.
  Proof.
    intros Ht Hx. unfold base_wage. rewrite (cp_gamma_0 _ P), (cp_gamma_1 _ P). change (at_ [0; 0; 0] 0) with 0. change (at_ [1/10; 1/10; 1/10] 0) with (1/10).
    rewrite Rplus_0_l. apply low_pay. apply t_years; assumption.
  Qed.
  Lemma t_wage biased t a x : (0 <= t < 5)%Z -> 0 <= x <= 1 -> 1 <= hourly_wage sp mp biased t 0 a x <= 12/10.
  Proof.
    intros Ht Hx. unfold hourly_wage. rewrite (cp_gamma_0 _ P), (cp_gamma_1 _ P), (cs_scale _ F), ln_1. change (at_ [0; 0; 0] 0) with 0. change (at_ [1/10; 1/10; 1/10] 0) with (1/10).
    rewrite Rplus_0_l, Rplus_0_r. apply low_pay. apply t_years; assumption.
  Qed.

  Lemma t_leisure a c : (1 <= c <= 2)%Z -> leisure mp 0 0 a c = 1.
  Proof.
    intros Hc. destruct (cp_theta _ P) as [T1 T2]. destruct (cp_no_kids _ P) as [N1 N2]. destruct (cp_yes_kids _ P) as [Y1 Y2].
    destruct (cp_ages _ P) as (A1 & A2 & A3 & A4 & A5 & A6).
    unfold leisure, part_time_term, full_time_term. rewrite T1, T2, N1, N2, Y1, Y2, A1, A2, A3, A4, A5, A6.
    change (Z.to_nat 0) with 0%nat. cbn [nth at_]. unfold at_. change (Z.to_nat 0) with 0%nat. cbn [nth].
    cbv zeta. rewrite <- exp_0.
    destruct (c =? 1)%Z; f_equal; (destruct (a =? -1)%Z; [|destruct (a <=? 2)%Z; [|destruct (a <=? 5)%Z; [|destruct (a <=? 10)%Z]]]); lra.
  Qed.

  Lemma t_support : support sp = 1685/10.
  Proof. unfold support. destruct (cs_support _ F) as (-> & -> & _). lra. Qed.
  Lemma t_regime : is_elterngeld sp = true.
  Proof. unfold is_elterngeld. rewrite (cs_regime _ F). reflexivity. Qed.
  Lemma t_cost a c : care_costs sp a c = 0.
  Proof.
    unfold care_costs. rewrite (cs_costs _ F). match goal with |- context [nth ?n _ []] => generalize n end. intros k. destruct k as [|[|[|k]]]; cbn [nth]; unfold at_;
      try (destruct (Z.to_nat (c - 1)) as [|[|[|]]]; reflexivity). destruct k; cbn [nth]; destruct (Z.to_nat (c - 1)); reflexivity.
  Qed.
  Lemma t_child a : child_benefit sp a = 0.
  Proof. unfold child_benefit. rewrite (cs_benefits _ F). destruct (a =? -1)%Z; reflexivity. Qed.
  Lemma t_male t m : partner_wage sp t 0 m = if (m =? 1)%Z then 38 else 0.
  Proof.
    unfold partner_wage. destruct (cs_partner _ F) as (-> & -> & -> & ->). destruct (m =? 1)%Z; [|reflexivity].
    replace (_ + _ + _ + _) with 0 by ring. rewrite exp_0. ring.
  Qed.
  Lemma t_after w : 0 <= w <= 100 -> after_contributions sp w = 785/1000 * w.
  Proof.
    intros Hw. unfold after_contributions. rewrite (cs_ssc _ F). cbn [fst snd]. unfold contribution. destruct (Rle_dec w _) as [_|Hn]; [lra|]. exfalso. apply Hn. lra.
  Qed.
  Lemma t_tax y : 0 <= y <= 100 -> tax_due (tax_params sp) y = 0.
  Proof.
    intros Hy. assert (Ht : tax_table_ok (tax_params sp)) by (destruct Hsp as (_ & _ & _ & _ & _ & _ & _ & H & _); exact H).
    rewrite <- tax_spec by exact Ht. rewrite (cs_tax _ F). apply tax07_zero. rewrite Y_weeks, Y_val. lra.
  Qed.
  Lemma t_net own male : 0 <= own <= 100 -> 0 <= male <= 100 -> household_net sp own male = 785/1000 * (own + male).
  Proof.
    intros Ho Hm. unfold household_net. rewrite !t_after by lra. rewrite (cs_split _ F). cbv zeta. destruct (Rlt_dec 0 male) as [H|H].
    - rewrite t_tax by lra. lra.
    - assert (male = 0) as -> by lra. rewrite t_tax by lra. lra.
  Qed.

  Lemma t_benefits a l w cb male : (-1 <= a <= 2)%Z -> 1685/10 <= benefits_spec sp a l 0 w cb male true / equivalence a 0.
  Proof.
    intros Ha. unfold benefits_spec, equivalence, basic_support. change (0 =? 1)%Z with false. destruct (cs_support _ F) as (-> & -> & -> & -> & ->).
    set (b := if (a =? 0)%Z then _ else _). clearbody b. destruct (a =? -1)%Z.
    - assert (168.5 <= Rmax b (91 + 775/10)) by (rmm; lra). unfold Rdiv at 2. lra.
    - assert (275.5 <= Rmax b (91 + 775/10 + (59 + 33 + 15))) by (rmm; lra). lra.
  Qed.

  Lemma t_flow_nonpos biased t l a m x c z : (0 <= c < 3)%Z -> flow sp mp true biased t 0 l 0 a m x c z <= 0.
  Proof.
    intros Hc. unfold flow. cbv zeta. rewrite (cp_mu _ P). destruct (Z.eq_dec c 0) as [->|Hn]; [apply crra_nonpos; lra|].
    replace (c =? 0)%Z with false by (symmetry; apply Z.eqb_neq; lia). rewrite t_leisure by lia. rewrite Rmult_1_r. apply crra_nonpos. lra.
  Qed.

  Lemma t_single biased t l a x z : (0 <= t < 5)%Z -> (-1 <= a <= 2)%Z -> idle_u <= flow sp mp true biased t 0 l 0 a 0 x 0 z.
  Proof.
    intros Ht Ha. unfold flow. cbv zeta. change (0 =? 0)%Z with true. cbv iota. rewrite t_male. change (0 =? 1)%Z with false. cbv iota.
    rewrite t_net by lra. rewrite (cp_mu _ P). unfold idle_u. apply crra_mono; [lra|lra|].
    replace (785/1000 * (0 + 0)) with 0 by ring. rewrite Rplus_0_l. apply t_benefits. exact Ha.
  Qed.
  Lemma t_couple biased t l a x z : (0 <= t < 5)%Z -> 0 <= x <= 1 -> (-1 <= a <= 2)%Z -> -(36/100) <= flow sp mp true biased t 0 l 0 a 1 x 2 z.
  Proof.
    intros Ht Hx Ha. unfold flow. cbv zeta. change (2 =? 0)%Z with false. cbv iota. rewrite t_male. change (1 =? 1)%Z with true. cbv iota.
    rewrite (cp_sd _ P), Rmult_0_r, exp_0, Rmult_1_r. pose proof (t_wage biased t a x Ht Hx) as Hw. change (hours 2) with 38.
    rewrite t_net by lra. rewrite t_child, t_cost. unfold working_allowance. rewrite t_leisure by lia. rewrite Rmult_1_r, (cp_mu _ P).
    apply Rle_trans with (- (2 / (57/10))); [lra|]. apply crra_ge; [lra|].
    set (k := Rmax _ _). assert (Hk : 5966/100 <= k) by (unfold k; rmm; lra).
    unfold equivalence. change (1 =? 1)%Z with true. destruct (a =? -1)%Z; lra.
  Qed.

  Lemma t_best_near biased draws : best_near (1/4) idle_u sp mp (is_elterngeld sp) biased draws.
  Proof.
    rewrite t_regime. intros t e l ty a m x z w Hin Hx Hz. unfold in_space in Hin.
    rewrite (cs_periods _ F), (cs_levels _ F), (cs_types _ F), (cs_age_max _ F) in Hin. assert (e = 0%Z) as -> by lia. assert (ty = 0%Z) as -> by lia.
    pose proof (t_grid x Hx) as Hx1. pose proof idle_u_bounds. apply near_bounds. unfold best3.
    pose proof (t_flow_nonpos biased t l a m x 0%Z z ltac:(lia)). pose proof (t_flow_nonpos biased t l a m x 1%Z z ltac:(lia)). pose proof (t_flow_nonpos biased t l a m x 2%Z z ltac:(lia)).
    assert (m = 0 \/ m = 1)%Z as [-> | ->] by lia.
    - pose proof (t_single biased t l a x z ltac:(lia) ltac:(lia)). split; rmm; lra.
    - pose proof (t_couple biased t l a x z ltac:(lia) Hx1 ltac:(lia)). split; rmm; lra.
  Qed.

  Lemma t_not_worth w : 1 <= w <= 12/10 -> not_worth_it sp w w.
  Proof. intros H. unfold not_worth_it. rewrite t_support. destruct (cs_alg1 _ F) as [-> _]. lra. Qed.

  Lemma t_idle_best biased draws : idle_best idle_u sp mp (is_elterngeld sp) biased draws.
  Proof.
    intros t e l ty x z w Hin Hx Hz. unfold in_space in Hin.
    rewrite (cs_periods _ F), (cs_levels _ F), (cs_types _ F), (cs_age_max _ F) in Hin. assert (e = 0%Z) as -> by lia. assert (ty = 0%Z) as -> by lia.
    assert (E : idle_u = crra (mu mp) (support sp / 1)) by (rewrite (cp_mu _ P), t_support; unfold idle_u; f_equal; lra). rewrite E.
    apply (L_Idle.idle_flow sp mp biased (215/1000) (63000 / (12 * (43/10))) Hsp (cs_tax _ F) (cs_ssc _ F)); try lra.
    - rewrite (cp_mu _ P). lra.
    - destruct (cs_alg1 _ F) as [-> _]. lra.
    - rewrite t_support. lra.
    - intros c _. rewrite t_cost. lra.
    - intros c Hc. rewrite t_leisure by lia. lra.
    - rewrite (cp_sd _ P), Rmult_0_r, exp_0, Rmult_1_r. apply t_not_worth, t_wage; [lia|apply t_grid; exact Hx].
  Qed.

  (** rows of childless singles *)
  Lemma t_row t l x s : (0 <= t < 5)%Z -> 0 <= x <= 1 -> s = 0 ->
    sim_flow sp mp t 0 l 0 (-1) 0 x s 0 = idle_u /\
    forall c, (1 <= c <= 2)%Z -> sim_flow sp mp t 0 l 0 (-1) 0 x s c <= idle_u - 14/100.
  Proof.
    intros Ht Hx ->. pose proof (t_base t (-1) x Ht Hx) as Hw. unfold sim_flow. change (equivalence (-1) 0) with 1. rewrite (cp_mu _ P). split.
    - change (0 =? 0)%Z with true. cbv iota. rewrite Rmult_1_r. unfold idle_u. f_equal. unfold sim_resources_spec. rewrite t_male. change (0 =? 1)%Z with false.
      change (0 =? 0)%Z with true. cbv zeta iota. rewrite t_net by lra.
      rewrite (idle_benefits sp).
      + rewrite t_support. unfold machine_eps. rmm; lra.
      + destruct (cs_alg1 _ F) as [-> _]. lra.
      + rewrite t_support. lra.
      + lra.
      + apply t_not_worth. exact Hw.
    - intros c Hc. replace (c =? 0)%Z with false by (symmetry; apply Z.eqb_neq; lia). rewrite t_leisure by lia. rewrite Rmult_1_r.
      apply Rle_trans with (- (2 / (68/10))); [|pose proof idle_u_bounds; lra].
      assert (B : sim_resources_spec sp mp t 0 l (-1) 0 x 0 c <= 456/10).
      { unfold sim_resources_spec. rewrite t_male. change (0 =? 1)%Z with false. replace (c =? 0)%Z with false by (symmetry; apply Z.eqb_neq; lia).
        cbv zeta iota. rewrite t_child. change (sim_care_costs sp (-1) c) with 0. unfold sim_allowance. rewrite t_regime.
        assert (Ho : observed_wage sp mp t 0 (-1) x 0 = base_wage sp mp t 0 (-1) x) by (unfold observed_wage; rewrite exp_0, (cs_scale _ F); ring). rewrite Ho.
        assert (Hh : 18 <= hours c <= 38) by (unfold hours; destruct (c =? 1)%Z; lra).
        rewrite t_net by nra. nra. }
      apply crra_le; [lra| |].
      + unfold machine_eps. rmm; lra.
      + unfold machine_eps. rmm; lra.
  Qed.
End Test.

Lemma t_drift n : (n <= 4)%nat -> 2 * (95/100) * drift (2 * tiny) (1/4) (95/100) n <= 14/100.
Proof.
  intros H. do 5 (destruct n as [|n]; [unfold tiny; cbn [drift geometric]; lra|]). lia.
Qed.

(** *** tables of the files *)
Lemma t_tables sp ip pc pp : ct_spec sp -> tables_of sp ct_files ip pc pp ->
  forall t, (0 <= t < 5)%Z -> child_fun pc t 0 = tiny /\
    forall m, (0 <= m < 2)%Z -> partner_fun pp t 0 m 0 = (if (m =? 0)%Z then 1 - tiny else tiny) /\ partner_fun pp t 0 m 1 = (if (m =? 0)%Z then tiny else 1 - tiny).
Proof.
  intros F (_ & _ & _ & _ & _ & Hc & Hp) t Ht.
  destruct (C48_births sp ct_rate 5 (xf_child ct_files)) as (tab & Et & _ & Hn); [rewrite (cs_periods _ F); lia|rewrite (cs_last _ F); lia|exact ct_births|].
  assert (tab = pc) by congruence. subst tab.
  destruct (C48_partner_transitions sp ct_rate ct_rate 5 5 (xf_arrival ct_files) (xf_separation ct_files)) as (tab & Et' & _ & Hn');
    rewrite ?(cs_periods _ F), ?(cs_levels _ F); [lia|lia|lia|apply ct_changes|apply ct_changes|].
  assert (tab = pp) by congruence. subst tab. rewrite (cs_periods _ F) in *. split.
  - unfold child_fun. rewrite (nth_error_nth _ _ _ (Hn t Ht)). rewrite (cs_last _ F). replace (t <=? 4)%Z with true by (symmetry; apply Z.leb_le; lia). reflexivity.
  - intros m Hm. destruct (Hn' t Ht) as (row & Er & _ & Hrow). unfold partner_fun. rewrite (nth_error_nth _ _ _ Er).
    rewrite (cs_levels _ F) in Hrow. rewrite (nth_error_nth _ _ _ (Hrow 0%Z ltac:(lia))).
    assert (m = 0 \/ m = 1)%Z as [-> | ->] by lia; split; reflexivity.
Qed.

Lemma mean_const l k : l <> [] -> (forall x, In x l -> x = k) -> mean l = k.
Proof.
  intros Hl H. unfold mean. assert (E : S_AuxFuncs.total l = INR (List.length l) * k).
  { clear Hl. induction l as [|x l IH]; [cbn; ring|]. change (S_AuxFuncs.total (x :: l)) with (x + S_AuxFuncs.total l).
    rewrite IH by (intros y Hy; apply H; right; exact Hy). rewrite (H x (or_introl eq_refl)). change (List.length (k :: l)) with (S (List.length l)). rewrite S_INR. ring. }
  rewrite E. assert (INR (List.length l) <> 0) by (apply not_0_INR; destruct l; [contradiction|discriminate]). field. assumption.
Qed.
Lemma mean_near l k r : l <> [] -> (forall x, In x l -> near r k x) -> near r k (mean l).
Proof.
  intros Hl H. apply near_bounds. assert (Hn : 0 < INR (List.length l)) by (apply lt_0_INR; destruct l; [contradiction|cbn; lia]).
  assert (B : INR (List.length l) * (k - r) <= S_AuxFuncs.total l <= INR (List.length l) * (k + r)).
  { clear Hl Hn. induction l as [|x l IH]; [cbn; lra|]. change (S_AuxFuncs.total (x :: l)) with (x + S_AuxFuncs.total l).
    change (List.length (x :: l)) with (S (List.length l)). rewrite S_INR. pose proof (IH (fun y Hy => H y (or_intror Hy))).
    pose proof (proj1 (near_bounds _ _ _) (H x (or_introl eq_refl))). lra. }
  unfold mean. split.
  - apply Rmult_le_reg_r with (INR (List.length l)); [exact Hn|]. replace (_ / _ * _) with (S_AuxFuncs.total l) by (field; lra). lra.
  - apply Rmult_le_reg_r with (INR (List.length l)); [exact Hn|]. replace (_ / _ * _) with (S_AuxFuncs.total l) by (field; lra). lra.
Qed.

(** a career from period t on has one row per period *)
Lemma career_length last data rs : career last data rs -> forall r rs', rs = r :: rs' -> Z.of_nat (List.length rs') = (last - row_period r)%Z.
Proof.
  induction 1 as [r Hr E | r r' rs (_ & _ & _ & Ep) Hca IH]; intros q rs' Eq; injection Eq as <- <-; [cbn [List.length]; lia|].
  pose proof (IH r' rs eq_refl). cbn [List.length]. lia.
Qed.
Lemma discounted_const d u us : (forall v, In v us -> v = u) -> us <> [] -> discounted d us = u * geometric d (List.length us - 1).
Proof.
  induction us as [|v us IH]; intros H Hn; [contradiction|]. cbn [discounted List.length]. rewrite (H v (or_introl eq_refl)).
  destruct us as [|w us]; [cbn [discounted List.length Nat.sub geometric]; ring|]. rewrite IH; [|intros y Hy; apply H; right; exact Hy|discriminate].
  cbn [List.length]. replace (S (S (List.length us)) - 1)%nat with (S (S (List.length us) - 1)) by lia. cbn [geometric]. ring.
Qed.

Section Passes.
  Variable rg : rng R.
  Variable mp : model_params R.
  Variable sp : model_spec R.
  Variable biased : bool.
  Variables zs ws : list R.
  Variable pc : list (list R).
  Variable pp : list (list (list (R * R))).
  Variable sol : solution R.
  Variable ip : init_probs R.
  Variable data : list (out_row R).
  Hypothesis F : ct_spec sp.
  Hypothesis P : ct_mp mp.
  Hypothesis Htab : tables_of sp ct_files ip pc pp.
  Hypothesis Hok : inputs_ok sp mp pc pp.
  Hypothesis Hs : solved sp mp biased zs ws pc pp sol.
  Hypothesis Hset : sim_setting rg sp sol.
  Hypothesis Hsim : simulation rg mp sp sol ip pc pp data.
  Hypothesis Hw : nonneg_weights zs ws.
  Hypothesis Hw1 : average (fun _ => 1) (combine zs ws) = 1.

  Lemma p_stock r : In r data -> 0 <= a_stock (o_state r) <= 1.
  Proof.
    intros Hr. pose proof Hok as (_ & Hpar & _).
    assert (Hc : forall e a, (0 <= e < num_educ_levels sp)%Z -> 0 <= pt_credit mp false e a).
    { intros e a He. rewrite (cs_levels _ F) in He. assert (e = 0%Z) as -> by lia. unfold pt_credit. rewrite (cp_gamma_p _ P), (cp_mom _ P).
      change (at_ [5/10; 5/10; 5/10] 0) with (5/10). destruct (_ && _)%bool; lra. }
    destruct (stock_bounds rg mp sp sol ip _ _ Hset Hpar Hc data Hsim r Hr) as [Hx0 [He | Hx1]]; [|lra].
    destruct (entry_stock rg mp sp sol ip _ _ Hset Hpar Hc data Hsim r He) as (_ & _ & E0). rewrite E0 by apply (cs_exp_init _ F). lra.
  Qed.

  Lemma p_rare : probabilities sp pc pp /\ rarely_left (2 * tiny) sp (child_fun pc) (partner_fun pp).
  Proof.
    pose proof tiny_ok. split.
    - intros t e Ht He. rewrite (cs_periods _ F), (cs_levels _ F) in *. assert (e = 0%Z) as -> by lia.
      destruct (t_tables sp ip pc pp F Htab t ltac:(lia)) as [E1 E2]. rewrite E1. split; [lra|]. intros m Hm. destruct (E2 m Hm) as [-> ->].
      destruct (m =? 0)%Z; lra.
    - intros t e Ht He. rewrite (cs_periods _ F), (cs_levels _ F) in *. assert (e = 0%Z) as -> by lia.
      destruct (t_tables sp ip pc pp F Htab t ltac:(lia)) as [E1 E2]. rewrite E1. destruct (E2 0%Z ltac:(lia)) as [-> _]. change (0 =? 0)%Z with true. cbv iota.
      unfold tiny. lra.
  Qed.

  Lemma p_row r : In r data -> a_age (o_state r) = (-1)%Z -> a_partner (o_state r) = 0%Z ->
    o_choice r = 0%Z /\ chosen_flow r idle_u /\
    forall v, chosen_value r v -> near (95/100 * drift (2 * tiny) (1/4) (95/100) (remaining sp (row_period r))) (idle_u * geometric (95/100) (remaining sp (row_period r))) v.
  Proof.
    intros Hr Ea Em. destruct p_rare as [Hp Hrare]. pose proof Hok as (Hsp & _).
    assert (Hspan : spans_unit (exp_grid sp)).
    { rewrite (cs_grid _ F). unfold spans_unit. rewrite uniform_grid_length. split; [lia|]. destruct (L_Grid.uniform_spans 10 ltac:(lia)) as (_ & U0 & U1). rewrite uniform_grid_length in U1. split; assumption. }
    destruct (rare_row sp mp biased zs ws pc pp sol idle_u (1/4) (2 * tiny) rg ip data Hok Hs Hw Hw1 Hp Hspan ltac:(rewrite (cp_delta _ P); lra) ltac:(lra) Hrare
      (t_best_near sp mp F P Hsp biased _) (t_idle_best sp mp F P Hsp biased _) Hset Hsim r Hr Ea Em) as (f & Hf & _ & H).
    destruct (rows_of_simulation rg mp sp biased zs ws pc pp sol Hok Hs ip data Hset Hsim) as (col & _ & Hrows).
    destruct (Hrows r Hr) as (z & f' & _ & _ & Hf' & _ & _ & Ef & _). assert (f' = f) by congruence. subst f'.
    pose proof (data_space rg mp sp pc pp sol ip data Hset Hsim r Hr) as Hin. unfold agent_in_space, in_space in Hin.
    rewrite (cs_periods _ F), (cs_levels _ F), (cs_types _ F) in Hin. rewrite Ea, Em in *.
    assert (Ee : a_educ (o_state r) = 0%Z) by lia. assert (Et : a_type (o_state r) = 0%Z) by lia. rewrite Ee, Et in Ef.
    assert (Hn : (remaining sp (row_period r) <= 4)%nat) by (unfold remaining, row_period; rewrite (cs_periods _ F); lia).
    destruct (t_row sp mp F P Hsp (a_period (o_state r)) (a_lagged (o_state r)) (a_stock (o_state r)) (z * shock_sd mp) ltac:(lia) (p_stock r Hr) ltac:(rewrite (cp_sd _ P); ring)) as [T0 T1].
    rewrite (cp_delta _ P) in H.
    destruct (H (14/100)) as [H1 H2].
    - rewrite Ef, at_three by lia. exact T0.
    - intros c Hc. rewrite Ef, at_three by lia. apply T1. exact Hc.
    - apply t_drift. exact Hn.
    - split; [exact H1|]. split.
      + exists f. split; [exact Hf|]. rewrite H1, Ef, at_three by lia. symmetry. exact T0.
      + intros v (f2 & E2 & ->). assert (f2 = f) by congruence. subst f2. rewrite H1. exact H2.
  Qed.

  Hypothesis Hlone : forall r, In r data -> a_age (o_state r) = (-1)%Z /\ a_partner (o_state r) = 0%Z.

  Lemma p_passes : consistency_test data (95/100) = Ok tt.
  Proof.
    assert (Hne : data <> [] \/ data = []) by (destruct data; [right; reflexivity|left; discriminate]).
    destruct Hne as [Hne | ->]; [|reflexivity].
    assert (Hz : forall y, In y (educ_years sp) -> y = 0%Z) by (rewrite (cs_years _ F); intros y [<- | []]; reflexivity).
    destruct (compared_gap rg mp sp biased zs ws pc pp sol ip data Hok Hs Hset Hsim Hne Hz) as (a & b & Ec & Ea & Hb & _).
    rewrite (cp_delta _ P) in Ec, Ea. unfold consistency_test. rewrite Ec. cbn [bind fst snd].
    destruct (lives_exist rg mp sp biased zs ws pc pp sol ip data Hok Hs Hset Hsim) as (firsts & lives & Hag & Hl).
    destruct (statistic rg mp sp biased zs ws pc pp sol ip data Hok Hs Hset Hsim (95/100) Hne) as (a' & Ea' & _ & Hmean).
    assert (a' = a) by congruence. subst a'. specialize (Hmean firsts lives Hag Hl).
    (* everybody enters in period 0 *)
    assert (H0 : forall r us, S_AuxFuncs.life sp data r us -> row_period r = 0%Z /\ In r data).
    { intros r us [(rs & Hca & _) Hfirst]. pose proof (career_in _ _ _ Hca r (or_introl eq_refl)) as Hr. split; [|exact Hr].
      destruct (starts rg mp sp pc pp sol ip data Hset Hsim Hz (row_id r)) as (q & Hq & Eq & Eq0); [exists r; auto|].
      pose proof (Hfirst q Hq Eq). pose proof (data_space rg mp sp pc pp sol ip data Hset Hsim r Hr) as Hin. unfold agent_in_space, in_space in Hin. unfold row_period in *. lia. }
    assert (Hfne : firsts <> []).
    { intros ->. destruct Hag as [_ Hag]. destruct data as [|r d]; [contradiction|]. destruct (proj2 (Hag (row_id r)) (ex_intro _ r (conj (or_introl eq_refl) eq_refl))). }
    assert (A : a = idle_u * geometric (95/100) 4).
    { rewrite Hmean. apply mean_const.
      - destruct Hl; [contradiction|discriminate].
      - clear Hmean Hag Hfne. induction Hl as [|r us firsts lives Hlife Hl IH]; [intros x []|]. intros x [<- | Hx]; [|apply IH; exact Hx].
        destruct (H0 r us Hlife) as [E0 _]. rewrite E0. change (Z.to_nat 0) with 0%nat. cbn [pow]. rewrite Rmult_1_l.
        destruct Hlife as [(rs & Hca & Hus) _]. pose proof (career_length _ _ _ Hca r rs eq_refl) as Hlen. rewrite E0, (cs_periods _ F) in Hlen.
        pose proof (Forall2_length _ _ _ Hus) as Hlen'. cbn [List.length] in Hlen'.
        rewrite (discounted_const _ idle_u).
        + replace (List.length us - 1)%nat with 4%nat by lia. reflexivity.
        + intros v Hv. pose proof (career_in _ _ _ Hca) as Hin. clear - Hus Hv Hin P F Htab Hok Hs Hset Hsim Hw Hw1 Hlone.
          induction Hus as [|q w qs us Hq Hus IH]; [destruct Hv|]. destruct Hv as [-> | Hv]; [|apply IH; [exact Hv|intros p Hp; apply Hin; right; exact Hp]].
          destruct (Hlone q (Hin q (or_introl eq_refl))) as [L1 L2]. destruct (p_row q (Hin q (or_introl eq_refl)) L1 L2) as (_ & (f & Ef & ->) & _).
          destruct Hq as (f2 & Ef2 & ->). congruence.
        + intros ->. discriminate Hlen'. }
    assert (B : near (95/100 * drift (2 * tiny) (1/4) (95/100) 4) (idle_u * geometric (95/100) 4) b).
    { assert (Hv : exists vs, Forall2 (fun r v => row_period r = 0%Z /\ In r data /\ chosen_value r v) firsts vs).
      { clear Hmean Hag Hfne. induction Hl as [|r us firsts lives Hlife Hl [vs IH]]; [exists []; constructor|].
        destruct (H0 r us Hlife) as [E0 Hr]. destruct (best_exists rg mp sp biased zs ws pc pp sol ip data Hok Hs Hset Hsim r Hr) as (v & _ & Hv).
        exists (v :: vs). constructor; [auto|exact IH]. }
      destruct Hv as [vs Hvs]. rewrite (Hb firsts vs Hag Hvs). apply mean_near.
      - destruct Hvs; [contradiction|discriminate].
      - clear Hb Hmean Hag Hfne Hl. induction Hvs as [|r v firsts vs (E0 & Hr & Hv) Hvs IH]; [intros x []|]. intros x [<- | Hx]; [|apply IH; exact Hx].
        destruct (Hlone r Hr) as [L1 L2]. destruct (p_row r Hr L1 L2) as (_ & _ & H). specialize (H v Hv).
        assert (Er : remaining sp (row_period r) = 4%nat) by (unfold remaining; rewrite E0, (cs_periods _ F); reflexivity). rewrite Er in H. exact H. }
    apply near_bounds in B. pose proof idle_u_bounds as U. unfold tiny in B. cbn [drift geometric] in A, B.
    unfold assert_allclose, nabs, nlit. rn.
    assert (Hb0 : b < 0) by lra.
    match goal with |- context [Rleb ?x ?y] => assert (Hle : x <= y) end.
    { destruct (Rltb_spec (a - b) 0); destruct (Rltb_spec b 0); lra. }
    apply Rleb_true in Hle. rewrite Hle. reflexivity.
  Qed.
End Passes.
