(** Property theorems C93: no undefined arithmetic. *)
From Coq Require Import Reals Lra Lia ZArith List String.
From Verif Require Import Base Num M_Params M_Experience M_Tax M_NonEmployment M_StateSpace M_Solve M_Exog M_Sim M_Spec M_Main S_Partial S_Rng S_Spec S_Main S_SimInputs S_StateSpace
  L_Num L_Rng L_Partial L_PartialSolve L_PartialSim L_PartialMain L_PartialRead L_Main L_Witness X_Example X_Dict T_Main.
Import ListNotations.
Local Open Scope string_scope.
Local Open Scope list_scope.
Open Scope R_scope.

(** The specification is [S_Partial.PNum]: numbers or "undefined", where a division by zero,
    the logarithm and the power of a number that is not positive, and everything computed
    from an undefined number are undefined.  The program is run with this arithmetic,
    whatever comparisons with an undefined number may yield ([Unspecified]). *)

(** a row of the data set without an undefined number (a wage that is not observed is none) *)
Definition clean (r : out_row (option R)) : Prop :=
  a_stock (o_state r) <> None /\ o_wage r <> Some None /\
  forall f, o_full r = Some f -> f_male_wage f <> None /\ ~ In None (f_non_cons f ++ f_flow f ++ f_cont f ++ f_value f).

(** Reading the inputs never produces an undefined number, without any condition: the
    divisions of the readers are by constants and by differences of tax thresholds. *)
Theorem C93_reading :
  forall (U : Unspecified) pa sa (h : heap R),
  read_model (defined_arg pa) (defined_spec_arg sa) (defined_heap h)
  = (defined_heap (fst (read_model pa sa h)), on_ok (fun r => (defined_params (fst r), defined_spec (snd r))) (snd (read_model pa sa h))).
Proof. intros U pa sa h. apply f_model. Qed.
Print Assumptions C93_reading.

(** The solution: the same numbers, all defined (or the same exception). *)
Theorem C93_solution :
  forall (U : Unspecified) sp mp ss pc pp zs ws biased, sound_spec sp -> mu mp <> 0 -> create_state_space_objects sp = Ok ss ->
  create_state_space_objects (defined_spec sp) = Ok (defined_space ss) /\
  solve (defined_spec sp) (ss_states ss) (ss_covariates (defined_space ss)) (ss_child_state_indexes ss) (defined2 pc) (defined_partner pp) (defined1 zs) (defined1 ws) biased (defined_params mp)
  = on_ok (fun r => (defined2 (fst r), defined3 (snd r))) (solve sp (ss_states ss) (ss_covariates ss) (ss_child_state_indexes ss) pc pp zs ws biased mp).
Proof.
  intros U sp mp ss pc pp zs ws biased Hsp Hmu Hss. split; [rewrite p_space, Hss; reflexivity|]. exact (solved_defined sp Hsp mp ss pc pp zs ws biased Hmu Hss).
Qed.
Print Assumptions C93_solution.

(** Solution and simulation. *)
Theorem C93_simulation :
  forall (U : Unspecified) rg roots s2 spi mp sp files biased sparse g, rng_ok rg -> spi <> 0 -> sound_spec sp -> sound_params mp ->
  simulate (defined_rng rg) (defined_nodes roots) (Some s2) (Some spi) (defined_params mp) (defined_spec sp) (defined_files files) biased sparse g
  = on_ok (fun r => (map defined_out (fst r), snd r)) (simulate rg roots s2 spi mp sp files biased sparse g).
Proof. intros U rg roots s2 spi mp sp files biased sparse g Hrg Hpi Hsp Hmp. exact (simulated_defined sp Hsp rg roots s2 spi mp files biased sparse g Hrg Hpi Hmp). Qed.
Print Assumptions C93_simulation.

(** The whole program. *)
Theorem C93_program :
  forall (U : Unspecified) rg roots s2 spi pa sa files biased sparse g h mp sp, rng_ok rg -> spi <> 0 -> arg_ok sa h ->
  snd (read_model pa sa h) = Ok (mp, sp) -> sound_spec sp -> sound_params mp ->
  snd (simulate_of (defined_rng rg) (defined_nodes roots) (Some s2) (Some spi) (defined_arg pa) (defined_spec_arg sa) (defined_files files) biased sparse g (defined_heap h))
  = on_ok (fun r => (map defined_out (fst r), snd r)) (snd (simulate_of rg roots s2 spi pa sa files biased sparse g h)).
Proof.
  intros U rg roots s2 spi pa sa files biased sparse g h mp sp Hrg Hpi Ha Hr Hsp Hmp.
  rewrite program_value by exact Ha. rewrite Hr.
  refine (eq_trans _ (simulated_defined sp Hsp rg roots s2 spi mp files biased sparse g Hrg Hpi Hmp)).
  unfold simulate_of, get_simulate_func_of, simulate, hbind, hlift. rewrite C93_reading.
  destruct (read_model_frame pa sa h) as (extra & E). pose proof (read_model_again pa sa h extra Ha) as E2.
  destruct (read_model pa sa h) as [h1 r1]. cbn [fst snd] in *. subst h1 r1. cbn [on_ok fst snd].
  destruct (get_simulate_func (defined_rng rg) _ _ _ _ _ _ _ _) as [(f & g1)|e]; [|reflexivity]. cbn [bind].
  rewrite C93_reading. destruct (read_model pa sa (h ++ extra)) as [h2 r2]. cbn [snd] in E2. subst r2. reflexivity.
Qed.
Print Assumptions C93_program.

(** In other words: no row of the data set contains an undefined number. *)
Theorem C93_no_undefined_number :
  forall (U : Unspecified) rg roots s2 spi pa sa files biased sparse g h mp sp rows g', rng_ok rg -> spi <> 0 -> arg_ok sa h ->
  snd (read_model pa sa h) = Ok (mp, sp) -> sound_spec sp -> sound_params mp ->
  snd (simulate_of (defined_rng rg) (defined_nodes roots) (Some s2) (Some spi) (defined_arg pa) (defined_spec_arg sa) (defined_files files) biased sparse g (defined_heap h)) = Ok (rows, g') ->
  forall r, In r rows -> clean r.
Proof.
  intros U rg roots s2 spi pa sa files biased sparse g h mp sp rows g' Hrg Hpi Ha Hr Hsp Hmp E r Hin.
  rewrite (C93_program U rg roots s2 spi pa sa files biased sparse g h mp sp Hrg Hpi Ha Hr Hsp Hmp) in E.
  destruct (snd (simulate_of rg _ _ _ _ _ _ _ _ _ _)) as [(data, g2)|e]; [|discriminate E]. cbn [on_ok fst snd] in E.
  assert (Er : map defined_out data = rows) by congruence. rewrite <- Er in Hin. apply in_map_iff in Hin. destruct Hin as (d & <- & _).
  split; [discriminate|]. split; [cbn [defined_out o_wage]; destruct (o_wage d); discriminate|].
  intros f Hf. cbn [defined_out o_full] in Hf. destruct (o_full d) as [k|]; [|discriminate Hf]. injection Hf as <-. split; [discriminate|].
  cbn [defined_full f_non_cons f_flow f_cont f_value]. unfold defined1. rewrite <- !map_app. intros H. apply in_map_iff in H. destruct H as (x & H & _). discriminate H.
Qed.
Print Assumptions C93_no_undefined_number.

(** *** The hypotheses are met *)
Example C93_sound : sound_spec ex_spec /\ sound_params ex_params.
Proof.
  split; constructor.
  - cbn. lia.
  - intros x Hx. cbn [ex_spec exp_grid] in Hx. unfold S_Interp.uniform_grid in Hx. apply in_map_iff in Hx. destruct Hx as (i & <- & _).
    apply Rmult_le_pos; [apply pos_INR|]. cbn. lra.
  - cbn. lia.
  - cbn. lra.
  - reflexivity.
  - cbn. lra.
  - cbn. lra.
  - cbn. lra.
  - cbn. lra.
  - discriminate.
  - cbn [ex_params gamma_p gamma_p_mom]. intros x Hx. in_list Hx; lra.
Qed.

(** the inputs of C52_run are read into values that meet the conditions ... *)
Lemma ex_read_sound : exists mp sp, snd (read_model (ParamsFrame (X_Dict.ex_types 2 ex_share ex_pref ex_pref)) (SpecDict 0) ex_heap) = Ok (mp, sp) /\ sound_spec sp /\ sound_params mp.
Proof.
  do 2 eexists. split; [reflexivity|]. split; constructor.
  - lazy. intuition discriminate.
  - intros x Hx. cbn in Hx. in_list Hx; lra.
  - lazy. discriminate.
  - cbn. lra.
  - reflexivity.
  - cbn. lra.
  - cbn. lra.
  - cbn. lra.
  - cbn. lra.
  - discriminate.
  - intros x Hx. cbn in Hx |- *. in_list Hx; lra.
Qed.
(** ... and the program, run with undefined numbers, returns rows *)
Example C93_run : forall (U : Unspecified) roots biased sparse g, exists rows g',
  snd (simulate_of (defined_rng ex_rng) (defined_nodes roots) (Some (sqrt 2)) (Some (sqrt PI)) (defined_arg (ParamsFrame (X_Dict.ex_types 2 ex_share ex_pref ex_pref))) (defined_spec_arg (SpecDict 0))
    (defined_files ex_files) biased sparse g (defined_heap ex_heap)) = Ok (rows, g') /\
  forall r, In r rows -> clean r.
Proof.
  intros U roots biased sparse g. destruct ex_read_sound as (mp & sp & E & Hsp & Hmp).
  assert (Hpi : sqrt PI <> 0) by (apply Rgt_not_eq, sqrt_lt_R0, PI_RGT_0).
  assert (Ha : arg_ok (SpecDict 0) ex_heap) by (split; [exact ex_closed|cbn; lia]).
  destruct (C52_run roots biased sparse g) as (data & g' & H). exists (map defined_out data), g'.
  assert (Hr : snd (simulate_of (defined_rng ex_rng) (defined_nodes roots) (Some (sqrt 2)) (Some (sqrt PI)) (defined_arg (ParamsFrame (X_Dict.ex_types 2 ex_share ex_pref ex_pref))) (defined_spec_arg (SpecDict 0))
    (defined_files ex_files) biased sparse g (defined_heap ex_heap)) = Ok (map defined_out data, g')).
  { rewrite (C93_program U ex_rng roots (sqrt 2) (sqrt PI) _ _ _ biased sparse g _ mp sp ex_rng_ok Hpi Ha E Hsp Hmp), H. reflexivity. }
  split; [exact Hr|]. exact (C93_no_undefined_number U ex_rng roots (sqrt 2) (sqrt PI) _ _ _ biased sparse g _ mp sp _ _ ex_rng_ok Hpi Ha E Hsp Hmp Hr).
Qed.

(** *** The conditions are needed *)

(** The stock of an entrant is not bounded below: with a credit for part-time work that is
    negative (for instance for mothers of small children, gamma_p + gamma_p_mom < 0) the
    years of experience on entry can be -1 or less, and then the wage is undefined. *)
Theorem C93_entry_wage :
  forall (U : Unspecified) mp sp biased id e age partner pt ft ty, (0 < init_exp_max sp)%Z ->
  let inc := get_pt_increment mp e age biased in
  let a := init_agent mp sp biased id 0 e age partner pt ft ty in
  calculate_log_wage (defined_params mp) e (Some (a_stock a)) (init_exp_max sp) (Some inc) 0 = None <-> IZR pt * inc + IZR ft <= -1.
Proof.
  intros U mp sp biased id e age partner pt ft ty Hm inc a.
  apply (IZR_lt 0) in Hm.
  assert (Hy : stock_to_exp_years (Some (a_stock a)) 0 (init_exp_max sp) (Some inc) = Some (IZR pt * inc + IZR ft)).
  { rewrite p_stock_years. f_equal. subst a. unfold init_agent, exp_years_to_stock, stock_to_exp_years, max_exp_years. fold inc. cbn [a_stock].
    assert (E : nmax (nofZ 0) (nmul (nofZ 0) inc) = 0). { unfold nmax. cbn. destruct (Rleb 0 (0 * inc)); [apply Rmult_0_l|reflexivity]. }
    rewrite E. cbn. destruct (Rltb 0 (IZR (init_exp_max sp) + 0)) eqn:C; [field; lra|]. apply Rltb_false in C. lra. }
  unfold calculate_log_wage. rewrite Hy. cbn [defined_params gamma_0 gamma_1]. rewrite !p_aget, !p_ofZ, p_add. cbn.
  destruct (Rlt_dec 0 (IZR pt * inc + IZR ft + 1)); split; intros H; try discriminate; try reflexivity; lra.
Qed.
Print Assumptions C93_entry_wage.
Example C93_credit_can_fail : exists inc : R, inc < 0 /\ IZR 4 * inc + IZR 0 <= -1.
Proof. exists (-1/2). lra. Qed.

(** With curvature zero every utility is undefined, and so is that of a household without
    resources (the solver, unlike the simulator, does not bound the resources of those who
    do not work from below). *)
Theorem C93_other_conditions :
  forall (U : Unspecified),
  (forall c e u : option R, flow_utility (Some 0) c e u = None) /\
  (forall d lw nc draw w cont ne sp mw cb eq bin baby, @get_max_aggregated_utilities (option R) PNum d lw nc draw w cont (Some 0) ne sp mw cb eq bin baby = None) /\
  (forall c e u m, c <= 0 -> 0 < e -> flow_utility (Some m) (Some c) (Some e) u = None).
Proof.
  intros U. assert (Hz : forall x : option R, ndiv x (Some 0) = None).
  { intros [x|]; [|reflexivity]. cbn. destruct (Req_EM_T 0 0); [reflexivity|contradiction]. }
  split; [|split].
  - intros c e u. unfold flow_utility. rewrite Hz. reflexivity.
  - intros d lw nc draw w cont ne sp mw cb eq bin baby. unfold get_max_aggregated_utilities, work_value. cbn [fold_left]. rewrite !Hz.
    cbn [nmul PNum both nadd]. unfold nmax. destruct (nleb None None); [destruct (nleb None None); reflexivity|]. destruct (nleb None None); reflexivity.
  - intros c e u m Hc He. unfold flow_utility. cbn. destruct (Req_EM_T e 0) as [H|H]; [lra|]. cbn.
    destruct (Rlt_dec 0 (c / e)) as [H2|H2]; [|reflexivity]. exfalso. apply (Rmult_lt_compat_r e) in H2; [|exact He]. unfold Rdiv in H2. rewrite Rmult_assoc, Rinv_l in H2 by exact H. lra.
Qed.
Print Assumptions C93_other_conditions.
