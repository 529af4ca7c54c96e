(** What the simulation reports, over the real numbers. *)
From Coq Require Import Reals Lra Lia ZArith List Arith.
From Verif Require Import Base Num M_Params M_Experience M_Tax M_NonEmployment M_StateSpace M_Solve M_Exog M_Sim
  L_Num S_Experience L_Experience S_Interp L_Interp S_Tax S_Benefits L_Tax L_Benefits S_StateSpace L_StateSpace S_Rng S_Sim S_Bellman L_Bellman
  S_Solver L_Solve L_Solver S_SimInputs L_Trace L_SimUpdate L_SimInit L_Sim L_SimData L_SimProps.
Import ListNotations.
Open Scope R_scope.

Section Payoff.
  Variable sp : model_spec R.
  Variable mp : model_params R.
  Hypothesis Hsp : spec_ok sp.
  Hypothesis Hmp : params_ok sp mp.

  Lemma base_wage_eq t e a x : (0 <= t)%Z -> (0 <= e < num_educ_levels sp)%Z ->
    exp (calculate_log_wage mp e x (init_exp_max sp) (get_pt_increment mp e a false) t) = base_wage sp mp t e a x.
  Proof.
    intros Ht He. unfold base_wage. rewrite (increment_spec sp mp Hmp) by assumption.
    rewrite log_wage_eq; [reflexivity|assumption| |].
    - split; [lia|]. apply (at_educ sp mp Hmp); [simpl; tauto|assumption].
    - apply (at_educ sp mp Hmp); [simpl; tauto|assumption].
  Qed.

  Lemma care_eq a b c j : bin_of a b -> (j = 1 \/ j = 2)%Z ->
    nth (Z.to_nat (j - 1)) (get_child_care_cost_for_choice b (child_care_costs sp)) c = sim_care_costs sp a j.
  Proof.
    intros Hb Hj. unfold get_child_care_cost_for_choice, sim_care_costs, at_.
    destruct Hsp as (_ & _ & _ & _ & _ & _ & _ & _ & (r0 & r1 & r2 & -> & L0 & L1 & L2) & _).
    cbn [nth]. change (jget [] [r0; r1; r2] 1) with r1. change (jget [] [r0; r1; r2] 2) with r2.
    change (range 2) with [0%Z; 1%Z]. cbn [map].
    assert (A1 : forall r i, List.length r = 2%nat -> (i = 0 \/ i = 1)%Z -> aget r i = nth (Z.to_nat i) r 0).
    { intros r i Lr Hi. apply aget_R. unfold zlen. lia. }
    destruct Hb; cbn [Z.ltb Z.eqb Z.compare Pos.compare Pos.compare_cont Pos.eqb].
    - destruct Hj as [-> | ->]; reflexivity.
    - replace ((0 <=? a) && (a <=? 2))%Z with true by lia.
      rewrite !A1 by lia; destruct Hj as [-> | ->]; reflexivity.
    - replace ((0 <=? a) && (a <=? 2))%Z with false by lia. replace ((3 <=? a) && (a <=? 5))%Z with true by lia.
      rewrite !A1 by lia; destruct Hj as [-> | ->]; reflexivity.
    - replace ((0 <=? a) && (a <=? 2))%Z with false by lia. replace ((3 <=? a) && (a <=? 5))%Z with false by lia.
      destruct Hj as [-> | ->]; reflexivity.
    - replace ((0 <=? a) && (a <=? 2))%Z with false by lia. replace ((3 <=? a) && (a <=? 5))%Z with false by lia.
      destruct Hj as [-> | ->]; reflexivity.
  Qed.

  Lemma eps_R : np_eps = machine_eps.
  Proof. unfold np_eps, machine_eps. rewrite nlit_R. reflexivity. Qed.

  Lemma erz_eq t e a m own : (m = 0 \/ m = 1)%Z ->
    calc_erziehungsgeld (partner_wage sp t e m) own (m =? 1)%Z ((a =? 0) || (a =? 1))%Z
      (erziehungsgeld_income_threshold_single sp) (erziehungsgeld_income_threshold_married sp) (erziehungsgeld sp)
    = raising_allowance sp a m (partner_wage sp t e m + own).
  Proof.
    intros Hm. unfold calc_erziehungsgeld, raising_allowance. rewrite !b2n_R. rn.
    destruct ((a =? 0) || (a =? 1))%Z; rewrite ?andb_true_r, ?andb_false_r; [|lra].
    destruct (m =? 1)%Z;
      repeat match goal with |- context [Rleb ?p ?q] => destruct (Rleb_spec p q) end;
      repeat match goal with |- context [Rle_dec ?p ?q] => destruct (Rle_dec p q) end; lra.
  Qed.

  Lemma sim_resources_eq t e l ty a m x s c :
    in_space sp t e l ty a m ->
    bin_of a (cov_bin c) -> cov_male_wage c = partner_wage sp t e m ->
    cov_child_ben c = (if (a =? -1)%Z then 0 else child_benefits sp) ->
    let lw := calculate_log_wage mp e x (init_exp_max sp) (get_pt_increment mp e a false) t in
    sim_resources sp [t; e; l; ty; a; m] c a m lw (nexp (nadd lw s) * elasticity_scale sp)
    = Ok (map (fun ch => Rmax (sim_resources_spec sp mp t e l a m x s ch) machine_eps) [0; 1; 2]%Z).
  Proof.
    intros Hin Hb Hmw Hcb lw. pose proof Hin as (Ht & He & Hl & Hty & Ha & Hm).
    pose proof Hsp as (_ & _ & _ & _ & _ & _ & _ & Htax & _ & Hreg).
    unfold sim_resources, calculate_non_employment_consumption_resources.
    rewrite (regime_ok sp Hsp). cbn [bind].
    change ([t; e; l; ty; a; m]) with (state_row t e l ty a m). rewrite resources_eq, net_spec by assumption.
    unfold lw at 1. rewrite base_wage_eq by lia. rewrite Hmw, Hcb.
    pose proof (care_eq a (cov_bin c) 0 1 Hb ltac:(lia)) as C1. pose proof (care_eq a (cov_bin c) 0 2 Hb ltac:(lia)) as C2.
    assert (Lc : List.length (get_child_care_cost_for_choice (cov_bin c) (child_care_costs sp)) = 2%nat) by reflexivity.
    destruct (get_child_care_cost_for_choice (cov_bin c) (child_care_costs sp)) as [|k1 [|k2 [|? ?]]]; try discriminate Lc.
    change (nth (Z.to_nat (1 - 1)) [k1; k2] 0) with k1 in C1. change (nth (Z.to_nat (2 - 1)) [k1; k2] 0) with k2 in C2.
    assert (Ew : nexp (nadd lw s) * elasticity_scale sp = observed_wage sp mp t e a x s).
    { unfold observed_wage. rn. rewrite exp_plus. unfold lw. rewrite base_wage_eq by lia. reflexivity. }
    assert (H1 : hours_of 1 = hours 1) by reflexivity. assert (H2 : hours_of 2 = hours 2) by reflexivity.
    cbn [map]. rewrite !H1, !H2. rn. rewrite !Ew. cbn [nth]. rewrite !net_spec by assumption.
    rewrite (erz_eq t e a m) by lia.
    unfold sim_resources_spec. cbn [Z.eqb Pos.eqb]. unfold sim_allowance. cbn [Z.eqb Pos.eqb].
    unfold is_elterngeld at 1 2. f_equal.
    destruct Hreg as [Er | Er]; rewrite Er; cbn [String.eqb Ascii.eqb Bool.eqb map map2];
      rewrite !nmax_R, !eps_R; rn; subst k1 k2; unfold child_benefit; unfold is_elterngeld; rewrite Er; cbn [String.eqb Ascii.eqb Bool.eqb];
      repeat (f_equal; try lra).
  Qed.

  Lemma flow_eq t e l ty a m x s : in_space sp t e l ty a m ->
    map2 (fun r u => flow_utility (mu mp) r (equivalence a m) u)
      (map (fun ch => Rmax (sim_resources_spec sp mp t e l a m x s ch) machine_eps) [0; 1; 2]%Z)
      [1; leisure mp e ty a 1; leisure mp e ty a 2]
    = map (sim_flow sp mp t e l ty a m x s) [0; 1; 2]%Z.
  Proof.
    intros Hin. cbn [map map2]. unfold flow_utility, sim_flow. cbn [Z.eqb Pos.eqb].
    rewrite <- !crra_spec. rn. reflexivity.
  Qed.
End Payoff.

(** the first maximum *)
Lemma argmax_from_first (l : list R) : forall best bi i (pre : list R),
  zlen pre = i -> (0 <= bi < i)%Z -> nth (Z.to_nat bi) pre 0 = best ->
  (forall k, (0 <= k < i)%Z -> nth (Z.to_nat k) pre 0 <= best) ->
  (forall k, (0 <= k < bi)%Z -> nth (Z.to_nat k) pre 0 < best) ->
  let c := argmax_from best bi i l in
  (0 <= c < zlen (pre ++ l))%Z /\
  (forall k, (0 <= k < zlen (pre ++ l))%Z -> nth (Z.to_nat k) (pre ++ l) 0 <= nth (Z.to_nat c) (pre ++ l) 0) /\
  (forall k, (0 <= k < c)%Z -> nth (Z.to_nat k) (pre ++ l) 0 < nth (Z.to_nat c) (pre ++ l) 0).
Proof.
  induction l as [|x l IH]; intros best bi i pre Hi Hbi Hb H1 H2.
  - cbn [argmax_from]. rewrite app_nil_r. rewrite Hb. split; [lia|]. split; [|exact H2].
    intros k Hk. apply H1. lia.
  - replace (pre ++ x :: l) with ((pre ++ [x]) ++ l) by (rewrite <- app_assoc; reflexivity).
    assert (Hl : zlen (pre ++ [x]) = (i + 1)%Z) by (rewrite zlen_app; change (zlen [x]) with 1%Z; lia).
    assert (Hx : nth (Z.to_nat i) (pre ++ [x]) 0 = x).
    { rewrite app_nth2 by (unfold zlen in Hi; lia). replace (Z.to_nat i - List.length pre)%nat with 0%nat by (unfold zlen in Hi; lia). reflexivity. }
    assert (Hold : forall k, (0 <= k < i)%Z -> nth (Z.to_nat k) (pre ++ [x]) 0 = nth (Z.to_nat k) pre 0).
    { intros k Hk. apply app_nth1. unfold zlen in Hi. lia. }
    cbn [argmax_from]. rn. destruct (Rltb_spec best x) as [Hlt|Hle]; apply IH; try lia.
    + exact Hx.
    + intros k Hk. destruct (Z.eq_dec k i) as [->|Hne]; [rewrite Hx; lra|].
      rewrite Hold by lia. specialize (H1 k ltac:(lia)). lra.
    + intros k Hk. rewrite Hold by lia. specialize (H1 k Hk). lra.
    + rewrite Hold by lia. exact Hb.
    + intros k Hk. destruct (Z.eq_dec k i) as [->|Hne]; [rewrite Hx; lra|]. rewrite Hold by lia. apply H1. lia.
    + intros k Hk. rewrite Hold by lia. apply H2. exact Hk.
Qed.
Lemma argmax_first (v : Z -> R) : first_best v (argmax (map v [0; 1; 2]%Z)).
Proof.
  cbn [map argmax].
  pose proof (argmax_from_first [v 1%Z; v 2%Z] (v 0%Z) 0 1 [v 0%Z] eq_refl ltac:(lia) eq_refl) as H.
  cbn zeta in H. specialize (H ltac:(intros k Hk; assert (k = 0)%Z as -> by lia; cbn; lra) ltac:(intros; lia)).
  change (zlen ([v 0%Z] ++ [v 1%Z; v 2%Z])) with 3%Z in H. set (c := argmax_from _ _ _ _) in *.
  destruct H as (Hc & H1 & H2).
  assert (Hn : forall k, (0 <= k < 3)%Z -> nth (Z.to_nat k) ([v 0%Z] ++ [v 1%Z; v 2%Z]) 0 = v k).
  { intros k Hk. assert (k = 0 \/ k = 1 \/ k = 2)%Z as [-> | [-> | ->]] by lia; reflexivity. }
  split; [exact Hc|]. split.
  - intros k Hk. rewrite <- (Hn k ltac:(lia)), <- (Hn c Hc). apply H1. exact Hk.
  - intros k Hk. rewrite <- (Hn k ltac:(lia)), <- (Hn c Hc). apply H2. exact Hk.
Qed.

Lemma clip01_unit x : 0 <= clip01 x <= 1.
Proof. unfold clip01. rmm; lra. Qed.

Lemma interp_uniform_spec v s : v <> [] ->
  interp_uniform_grid v s = Ok (interpolate (uniform_grid (List.length v)) v (clip01 s)).
Proof.
  intros Hv. destruct v as [|v0 [|v1 v]]; [congruence|apply interp_uniform_single|].
  rewrite interp_uniform_clip. rewrite interp_uniform_eq; [|cbn; lia|apply clip01_unit].
  rewrite interp_spec; [reflexivity|apply uniform_increasing| |rewrite uniform_grid_length; reflexivity].
  intros E. apply (f_equal (@List.length R)) in E. rewrite uniform_grid_length in E. discriminate E.
Qed.

Section Rows.
  Variable rg : rng R.
  Variable mp : model_params R.
  Variable sp : model_spec R.
  Variable biased : bool.
  Variables zs ws : list R.
  Variable pc : list (list R).
  Variable pp : list (list (list (R * R))).
  Variable sol : solution R.
  Hypothesis Hok : inputs_ok sp mp pc pp.
  Hypothesis Hsolved : solved sp mp biased zs ws pc pp sol.

  Lemma solved_solution : solution_for sp sol.
  Proof. destruct Hsolved as (ss & H1 & H2 & H3 & H4 & H5 & _). exists ss. repeat split; assumption. Qed.

  Notation C := (continuation sp mp (is_elterngeld sp) biased (combine zs ws) (child_fun pc) (partner_fun pp)).

  Lemma solved_tables t e l ty a m : in_space sp t e l ty a m ->
    exists i rows c,
      ix_get (sol_indexer sol) (t, e, l, ty, a, m) = Ok i /\
      np_get (sol_emaxs sol) i = Ok rows /\ List.length rows = List.length (exp_grid sp) /\
      (forall k, (0 <= k < 3)%Z -> map (fun q => aget q k) rows = map (C (remaining sp t) t e ty a m k) (exp_grid sp)) /\
      np_get (sol_non_cons sol) i = Ok [1; leisure mp e ty a 1; leisure mp e ty a 2] /\
      np_get (sol_covariates sol) i = Ok c /\
      bin_of a (cov_bin c) /\ cov_male_wage c = partner_wage sp t e m /\
      cov_equiv c = equivalence a m /\ cov_child_ben c = (if (a =? -1)%Z then 0 else child_benefits sp).
  Proof.
    intros Hin. destruct (solver_run sp mp biased zs ws pc pp Hok) as (ss & ncu & emaxs & E1 & E2 & E3 & E4 & H).
    destruct Hsolved as (ss' & F1 & F2 & F3 & F4 & F5 & F6). rewrite E1 in F1. injection F1 as <-.
    rewrite E2 in F6. injection F6 as F6 F7.
    destruct (H t e l ty a m Hin) as (i & rows & G1 & G2 & G3 & G4 & G5).
    pose proof (sizes' sp mp pc pp Hok) as Hsz.
    destruct (ss_cov sp ss i t e l ty a m Hsz E1 Hin G1) as (c & Hc & B1 & B2 & B3 & B4).
    exists i, rows, c. rewrite F3, F4, <- F6, <- F7. split; [exact G1|]. split; [exact G2|]. split; [exact G3|].
    split; [|repeat (split; [assumption|]); assumption].
    intros k Hk. apply nth_ext with (d := 0) (d' := 0); rewrite !map_length; [exact G3|]. intros j Hj.
    destruct (nth_error_some (exp_grid sp) j) as [x Hx]; [lia|]. specialize (G4 j x Hx).
    apply np_get_zat_inv in G4; [|lia]. unfold zat in G4. rewrite of_nat_ltb0, Nat2Z.id in G4.
    pose proof (map_nth_error (fun q => aget q k) j rows G4) as N1. pose proof (map_nth_error (C (remaining sp t) t e ty a m k) j (exp_grid sp) Hx) as N2.
    apply nth_error_nth with (d := 0) in N1. apply nth_error_nth with (d := 0) in N2. rewrite N1, N2.
    assert (k = 0 \/ k = 1 \/ k = 2)%Z as [-> | [-> | ->]] by lia; reflexivity.
  Qed.

  Lemma solved_tables_ok : tables_ok sol.
  Proof.
    destruct (solver_run sp mp biased zs ws pc pp Hok) as (ss & ncu & emaxs & E1 & E2 & E3 & E4 & H).
    destruct Hsolved as (ss' & F1 & F2 & F3 & F4 & F5 & F6). rewrite E1 in F1. injection F1 as <-.
    rewrite E2 in F6. injection F6 as F6 F7. unfold tables_ok. rewrite <- F6, <- F7, F2.
    split; [exact E3|]. split; [exact E4|]. intros rows Hr.
    pose proof (sizes' sp mp pc pp Hok) as Hsz.
    destruct (in_zat emaxs rows Hr) as (i & Hi). pose proof (zat_some _ _ _ Hi) as Hlt. rewrite E3 in Hlt.
    destruct (zat_exists (ss_states ss) i Hlt) as (st & Hst).
    destruct (ss_rows sp Hsz ss E1 i st ltac:(lia) (np_get_zat _ _ _ Hst)) as (p & e & l & t & a & m & Hin & _ & Hix).
    destruct (H p e l t a m Hin) as (i' & rows' & G1 & G2 & G3 & _). rewrite Hix in G1. injection G1 as <-.
    rewrite (np_get_zat _ _ _ Hi) in G2. injection G2 as <-. intros ->. destruct Hok as ((_ & _ & _ & _ & _ & _ & Hne & _) & _).
    destruct (exp_grid sp); [congruence|discriminate G3].
  Qed.

  (** one reported row *)
  Lemma row_payoffs t e l ty a m x s aid pt ft r i :
    in_space sp t e l ty a m ->
    sim_row mp sp sol false false t (mkAgent aid t e l pt ft x ty a m) s = Ok (r, i) ->
    exists f, o_full r = Some f /\
      f_male_wage f = partner_wage sp t e m /\
      f_non_cons f = [1; leisure mp e ty a 1; leisure mp e ty a 2] /\
      f_flow f = map (sim_flow sp mp t e l ty a m x s) [0; 1; 2]%Z /\
      f_cont f = map (fun c => interpolate (uniform_grid (List.length (exp_grid sp)))
                         (map (C (remaining sp t) t e ty a m c) (exp_grid sp)) (clip01 x)) [0; 1; 2]%Z /\
      f_value f = map2 (fun u v => u + delta mp * v) (f_flow f) (f_cont f) /\
      first_best (fun c => nth (Z.to_nat c) (f_value f) 0) (o_choice r).
  Proof.
    intros Hin H. pose proof (sizes' sp mp pc pp Hok) as Hsz.
    pose proof (sim_row_facts mp sp sol Hsz solved_solution false false t (mkAgent aid t e l pt ft x ty a m) s r i Hin H) as RF.
    destruct (solved_tables t e l ty a m Hin) as (i' & rows & c & T1 & T2 & T3 & T4 & T5 & T6 & B1 & B2 & B3 & B4).
    pose proof (rf_ix _ _ _ _ _ _ _ _ _ _ RF) as Ei. cbn [a_period a_educ a_lagged a_type a_age a_partner] in Ei.
    rewrite T1 in Ei. injection Ei as <-.
    destruct (rf_full _ _ _ _ _ _ _ _ _ _ RF) as (er & cont & nc & c' & res & R1 & R2 & R3 & R4 & R5 & R6).
    rewrite T2 in R1. injection R1 as <-. rewrite T5 in R3. injection R3 as <-. rewrite T6 in R4. injection R4 as <-.
    unfold discrete_state, sim_wage in R5. cbn [a_period a_educ a_lagged a_type a_age a_partner a_stock] in R5, R2.
    destruct Hok as (Hsp & Hmp & _).
    pose proof (sim_resources_eq sp mp Hsp Hmp t e l ty a m x s c Hin B1 B2 B4) as Er. cbn zeta in Er.
    change (@nmul R RNum) with Rmult in R5. rewrite Er in R5. injection R5 as <-.
    cbn zeta in R6. rewrite B3 in R6.
    pose proof (flow_eq sp mp t e l ty a m x s Hin) as Ef. cbn [map] in Ef. rewrite Ef in R6. clear Ef.
    assert (Ec : cont = map (fun c => interpolate (uniform_grid (List.length (exp_grid sp)))
                         (map (C (remaining sp t) t e ty a m c) (exp_grid sp)) (clip01 x)) [0; 1; 2]%Z).
    { change (range NUM_CHOICES) with [0; 1; 2]%Z in R2.
      rewrite (mapM_Ok _ (fun c => interpolate (uniform_grid (List.length (exp_grid sp)))
                         (map (C (remaining sp t) t e ty a m c) (exp_grid sp)) (clip01 x))) in R2; [congruence|].
      intros k Hk. rewrite T4 by (cbn in Hk; lia). rewrite interp_uniform_spec; [rewrite map_length; reflexivity|].
      destruct Hsp as (_ & _ & _ & _ & _ & _ & Hne & _). destruct (exp_grid sp); [congruence|discriminate]. }
    rewrite B2 in R6. destruct R6 as [R6 R7]. eexists. split; [exact R7|].
    cbn [f_male_wage f_non_cons f_flow f_cont f_value]. split; [reflexivity|]. split; [reflexivity|]. split; [reflexivity|].
    split; [exact Ec|]. split; [reflexivity|]. rewrite R6. subst cont. cbn [map map2].
    match goal with |- first_best _ (argmax [?p; ?q; ?u]) =>
      pose proof (argmax_first (fun k => nth (Z.to_nat k) [p; q; u] 0)) as Hf;
      change (map (fun k => nth (Z.to_nat k) [p; q; u] 0) [0; 1; 2]%Z) with [p; q; u] in Hf end.
    exact Hf.
  Qed.

  Lemma sim_wage_eq t (a : agent R) s : (0 <= t)%Z -> (0 <= a_educ a < num_educ_levels sp)%Z ->
    sim_wage mp sp false t a s = observed_wage sp mp t (a_educ a) (a_age a) (a_stock a) s.
  Proof.
    intros Ht He. unfold sim_wage, observed_wage. destruct Hok as (Hsp & Hmp & _). rn.
    rewrite exp_plus, (base_wage_eq sp mp Hmp) by assumption. reflexivity.
  Qed.

  Lemma element_map {A B} (f : A -> B) (m : list (list A)) t k y :
    match nth_error (map (map f) m) t with Some r => nth_error r k | None => None end = Some y ->
    exists x, match nth_error m t with Some r => nth_error r k | None => None end = Some x /\ y = f x.
  Proof.
    rewrite nth_error_map'. destruct (nth_error m t) as [r|]; [|discriminate]. cbn [option_map].
    rewrite nth_error_map'. destruct (nth_error r k) as [x|]; [|discriminate]. cbn [option_map].
    intros H. injection H as <-. exists x. split; reflexivity.
  Qed.

  Lemma rows_of_simulation_at ip data : sim_setting rg sp sol -> simulation rg mp sp sol ip pc pp data ->
    exists column : Z -> nat,
    (forall r r', In r data -> In r' data -> column (row_id r) = column (row_id r') -> row_id r = row_id r') /\
    ((forall y, In y (educ_years sp) -> y = 0%Z) -> forall r, In r data -> column (row_id r) = Z.to_nat (row_id r)) /\
    forall r, In r data -> exists z f,
      let a := o_state r in
      element (fst (rng_normal rg (rng_seed rg (seed_sim sp)) (Z.to_nat (num_periods sp)) (Z.to_nat (num_agents_sim sp))))
        (Z.to_nat (row_period r)) (column (row_id r)) = Some z /\
      shock_of sp mp r (z * shock_sd mp) /\ o_full r = Some f /\
      f_male_wage f = partner_wage sp (a_period a) (a_educ a) (a_partner a) /\
      f_non_cons f = [1; leisure mp (a_educ a) (a_type a) (a_age a) 1; leisure mp (a_educ a) (a_type a) (a_age a) 2] /\
      f_flow f = map (sim_flow sp mp (a_period a) (a_educ a) (a_lagged a) (a_type a) (a_age a) (a_partner a)
                        (a_stock a) (z * shock_sd mp)) [0; 1; 2]%Z /\
      f_cont f = map (fun c => interpolate (uniform_grid (List.length (exp_grid sp)))
                         (map (C (remaining sp (a_period a)) (a_period a) (a_educ a) (a_type a) (a_age a) (a_partner a) c)
                              (exp_grid sp)) (clip01 (a_stock a))) [0; 1; 2]%Z /\
      f_value f = map2 (fun u v => u + delta mp * v) (f_flow f) (f_cont f) /\
      first_best (fun c => nth (Z.to_nat c) (f_value f) 0) (o_choice r).
  Proof.
    intros (Hrg & Hspec & Hsol) (g & g' & Hsim).
    destruct (wage_and_shock_at rg mp sp sol ip pc pp false Hrg Hspec Hsol g g' data Hsim) as (column & Hinj & Hid & Hrow).
    exists column. split; [exact Hinj|]. split; [exact Hid|]. intros r Hr. destruct (Hrow r Hr) as (draw & Hd & Hwage & i & r0 & Hs & E).
    destruct (listed rg mp sp sol ip pc pp false Hrg Hspec Hsol g g' data Hsim r Hr) as [Hin _].
    apply element_map in Hd. destruct Hd as (z & Hz & ->). change (nmul z (shock_sd mp)) with (z * shock_sd mp) in *.
    unfold row_period in Hs. remember (o_state r) as a eqn:Ea. destruct a as [aid per e l pt ft x ty ag m].
    cbn [a_period a_educ a_lagged a_type a_age a_partner a_stock] in *.
    unfold agent_in_space in Hin. cbn [a_period a_educ a_lagged a_type a_age a_partner] in Hin.
    destruct (row_payoffs per e l ty ag m x (z * shock_sd mp) aid pt ft r0 i Hin Hs) as (f & F1 & F2 & F3 & F4 & F5 & F6 & F7).
    assert (Ef : o_full r = Some f) by (rewrite E, hide_full; exact F1).
    exists z, f. cbv zeta. split; [exact Hz|]. split.
    { unfold shock_of. rewrite <- Ea. cbn [a_period a_educ a_lagged a_type a_age a_partner a_stock]. split.
      - rewrite Hwage. destruct (o_choice r =? 0)%Z; [reflexivity|]. f_equal.
        unfold row_period. rewrite <- Ea. cbn [a_period]. unfold in_space in Hin. rewrite sim_wage_eq by (cbn [a_educ]; lia). reflexivity.
      - exists f. split; [exact Ef|exact F4]. }
    split; [exact Ef|]. split; [exact F2|]. split; [exact F3|]. split; [exact F4|]. split; [exact F5|]. split; [exact F6|].
    rewrite E, hide_choice. exact F7.
  Qed.
  Lemma rows_of_simulation ip data : sim_setting rg sp sol -> simulation rg mp sp sol ip pc pp data ->
    exists column : Z -> nat,
    (forall r r', In r data -> In r' data -> column (row_id r) = column (row_id r') -> row_id r = row_id r') /\
    forall r, In r data -> exists z f,
      let a := o_state r in
      element (fst (rng_normal rg (rng_seed rg (seed_sim sp)) (Z.to_nat (num_periods sp)) (Z.to_nat (num_agents_sim sp))))
        (Z.to_nat (row_period r)) (column (row_id r)) = Some z /\
      shock_of sp mp r (z * shock_sd mp) /\ o_full r = Some f /\
      f_male_wage f = partner_wage sp (a_period a) (a_educ a) (a_partner a) /\
      f_non_cons f = [1; leisure mp (a_educ a) (a_type a) (a_age a) 1; leisure mp (a_educ a) (a_type a) (a_age a) 2] /\
      f_flow f = map (sim_flow sp mp (a_period a) (a_educ a) (a_lagged a) (a_type a) (a_age a) (a_partner a)
                        (a_stock a) (z * shock_sd mp)) [0; 1; 2]%Z /\
      f_cont f = map (fun c => interpolate (uniform_grid (List.length (exp_grid sp)))
                         (map (C (remaining sp (a_period a)) (a_period a) (a_educ a) (a_type a) (a_age a) (a_partner a) c)
                              (exp_grid sp)) (clip01 (a_stock a))) [0; 1; 2]%Z /\
      f_value f = map2 (fun u v => u + delta mp * v) (f_flow f) (f_cont f) /\
      first_best (fun c => nth (Z.to_nat c) (f_value f) 0) (o_choice r).
  Proof. intros H1 H2. destruct (rows_of_simulation_at ip data H1 H2) as (column & C1 & _ & C2). exists column. exact (conj C1 C2). Qed.
End Rows.

Lemma male_wage_of_row rg (mp : model_params R) sp sol ip pc pp : rng_ok rg -> sim_spec_ok sp -> solution_for sp sol ->
  forall g g' data, pyth_simulate rg mp sp sol ip pc pp false false g = Ok (data, g') ->
  forall r, In r data -> option_map f_male_wage (o_full r)
    = Some (partner_wage sp (a_period (o_state r)) (a_educ (o_state r)) (a_partner (o_state r))).
Proof.
  intros A1 A2 A3 g g' data Hd r Hr.
  destruct (listed rg mp sp sol ip pc pp false A1 A2 A3 g g' data Hd r Hr) as (Hin & _).
  destruct (wage_and_shock rg mp sp sol ip pc pp false A1 A2 A3 g g' data Hd) as (col & _ & Hw).
  destruct (Hw r Hr) as (draw & _ & _ & i & r0 & Hs & E).
  pose proof (L_Sim.sizes sp A2) as Hsz.
  pose proof (sim_row_facts mp sp sol Hsz A3 false false (row_period r) (o_state r) draw r0 i Hin Hs) as RF.
  destruct (rf_full _ _ _ _ _ _ _ _ _ _ RF) as (er & cont & nc & c & res & _ & _ & _ & Hc & _ & _ & Hfull).
  rewrite E, hide_full, Hfull. cbn [option_map f_male_wage]. f_equal.
  destruct A3 as (ss & Hss & _ & E2 & E3 & _).
  pose proof (rf_ix _ _ _ _ _ _ _ _ _ _ RF) as Hix. rewrite E2 in Hix. unfold agent_in_space in Hin.
  destruct (ss_cov sp ss i _ _ _ _ _ _ Hsz Hss Hin Hix) as (c' & Hc' & _ & B & _). rewrite E3, Hc' in Hc. injection Hc as <-.
  rewrite B. rewrite E, hide_state, (rf_state _ _ _ _ _ _ _ _ _ _ RF), E, hide_state. reflexivity.
Qed.
