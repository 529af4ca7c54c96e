(** Solution and simulation as a whole in the arithmetic with an undefined value. *)
From Coq Require Import Reals Lra Lia ZArith List.
From Verif Require Import Base Num M_Params M_Experience M_Tax M_NonEmployment M_StateSpace M_Solve M_Exog M_Sim S_Partial S_StateSpace S_Benefits S_Rng
  L_Num L_StateSpace L_Solve L_Benefits L_SimInit L_Partial L_PartialSolve L_PartialSim.
Import ListNotations.
Open Scope R_scope.

Section Undefined_numbers.
Context {U : Unspecified}.

Lemma chunks_in {X} k n (l : list X) t x : In x (nth t (chunks k n l) []) -> In x l.
Proof.
  revert l t. induction k as [|k IH]; intros l t H; [destruct t; destruct H|]. cbn [chunks] in H. rewrite <- (firstn_skipn n l), in_app_iff. destruct t as [|t].
  - left. exact H.
  - right. exact (IH _ _ H).
Qed.
Lemma in_combine_map {X Y} (f : X -> Y) l a b : In (a, b) (combine l (map f l)) -> In a l /\ b = f a.
Proof.
  induction l as [|x l IH]; intros H; [destruct H|]. cbn [map combine] in H. destruct H as [H|H].
  - injection H as <- <-. split; [left|]; reflexivity.
  - destruct (IH H). split; [right|]; assumption.
Qed.

Section Main.
  Variable sp : model_spec R.
  Hypothesis Hsp : sound_spec sp.

  Lemma sizes : sizes_ok sp.
  Proof. destruct (sn_sizes sp Hsp) as (H1 & H2 & H3 & H4). repeat split; assumption. Qed.

  Lemma state_fine st : In st (states_list sp) -> fine sp st (cov_of sp st) /\ (0 <= col PERIOD st)%Z.
  Proof.
    intros H. apply In_nth_error in H. destruct H as (n & Hn).
    assert (Hz : zat (states_list sp) (Z.of_nat n) = Some st).
    { unfold zat. replace (Z.of_nat n <? 0)%Z with false by (symmetry; apply Z.ltb_ge; lia). rewrite Nat2Z.id. exact Hn. }
    destruct (states_at_inv sp sizes _ _ Hz) as (p & e & l & t & a & m & Hin & -> & _).
    pose proof (cov_of_R sp p e l t a m Hin) as Hc. unfold cov_of. rewrite Hc. split; [|cbn; destruct Hin; lia].
    split; cbn [cov_equiv cov_male_wage cov_child_ben].
    - unfold equivalence. destruct (_ =? _)%Z, (_ =? _)%Z; lra.
    - intros lw b. destruct (ssc_deductions sp) as (rate, cap) eqn:Es. pose proof (sn_ssc sp Hsp) as [Hr Hcap]. rewrite Es in Hr, Hcap. cbn [fst snd] in Hr, Hcap.
      apply (resources_pos sp rate cap); try assumption.
      + exact (sn_tax sp Hsp).
      + intros a'. destruct (sn_support sp Hsp) as [S1 S2]. unfold basic_support. cbn [Z.eqb]. destruct (a' =? -1)%Z; lra.
      + exact (sn_allowance sp Hsp).
      + destruct Hin as (_ & _ & _ & _ & _ & Hm). unfold partner_wage. assert (m = 0 \/ m = 1)%Z as [-> | ->] by lia; [left|right]; split; try reflexivity; cbn [Z.eqb Pos.eqb].
        apply Rmult_lt_0_compat; [lra|apply exp_pos].
  Qed.

  Section Tables.
    Variable ss : state_space R.
    Hypothesis Hss : create_state_space_objects sp = Ok ss.
    Lemma equiv_pos c : In c (ss_covariates ss) -> 0 < cov_equiv c.
    Proof.
      destruct (ss_inv sp sizes ss Hss) as (_ & _ & E & _). rewrite E. intros H. apply in_map_iff in H. destruct H as (st & <- & H).
      apply (state_fine st H).
    Qed.
    Lemma periods_fine pc pp d : In d (make_period_data sp (ss_states ss) (ss_covariates ss) (ss_child_state_indexes ss) pc pp) -> fine_period sp d.
    Proof.
      destruct (ss_inv sp sizes ss Hss) as (Es & _ & Ec & _). rewrite Es, Ec. unfold make_period_data. cbv zeta. intros H. apply in_map_iff in H.
      destruct H as (t & <- & _). rewrite chunks_map_nth. split; cbn [pd_states pd_covariates].
      - set (l := nth t _ _). assert (Hl : forall x, In x l -> In x (states_list sp)) by (intros x Hx; exact (chunks_in _ _ _ _ _ Hx)).
        destruct l as [|x l]; [cbn; lia|]. cbn [nth]. apply state_fine, Hl. left. reflexivity.
      - intros st c H. apply in_combine_map in H. destruct H as [H ->]. apply state_fine. exact (chunks_in _ _ _ _ _ H).
    Qed.
  End Tables.

  Lemma solved_defined mp ss pc pp zs ws biased : mu mp <> 0 -> create_state_space_objects sp = Ok ss ->
    solve (defined_spec sp) (ss_states ss) (map defined_cov (ss_covariates ss)) (ss_child_state_indexes ss) (defined2 pc) (defined_partner pp) (defined1 zs) (defined1 ws) biased (defined_params mp)
    = on_ok defined_solution (solve sp (ss_states ss) (ss_covariates ss) (ss_child_state_indexes ss) pc pp zs ws biased mp).
  Proof.
    intros Hmu Hss. apply p_solve.
    - exact Hmu.
    - exact (sn_scale sp Hsp).
    - exact (sn_grid sp Hsp).
    - exact (sn_init sp Hsp).
    - exact (periods_fine ss Hss pc pp).
  Qed.

  Lemma closure_defined rg roots s2 spi files biased sparse g : rng_ok rg -> spi <> 0 ->
    match get_simulate_func rg roots s2 spi sp files biased sparse g with
    | Ok (f, g') => exists f', get_simulate_func (defined_rng rg) (defined_nodes roots) (Some s2) (Some spi) (defined_spec sp) (defined_files files) biased sparse g = Ok (f', g') /\
        forall mp sp2 g2, sound_params mp -> (0 <= init_exp_max sp2)%Z -> (0 <= num_educ_levels sp2)%Z ->
        f' (defined_params mp) (defined_spec sp2) g2 = on_ok (defined_output rg) (f mp sp2 g2)
    | Err e => get_simulate_func (defined_rng rg) (defined_nodes roots) (Some s2) (Some spi) (defined_spec sp) (defined_files files) biased sparse g = Err e
    end.
  Proof.
    intros Hrg Hpi. unfold get_simulate_func. cbv zeta.
    cbn [defined_files xf_educ xf_child_age xf_partner_present xf_exp_pt xf_exp_ft xf_child xf_arrival xf_separation].
    unfold gen_prob_child_init_age_vector, gen_prob_init_exp_component_vector. rewrite !p_shares, p_children, p_partners, p_present, p_space.
    change (num_educ_levels (defined_spec sp)) with (num_educ_levels sp).
    destruct (shares_by_educ _ (xf_child_age files)) as [pa|]; [|reflexivity]. cbn [bind on_ok].
    destruct (shares_by_educ _ (xf_exp_pt files)) as [ppt|]; [|reflexivity]. cbn [bind on_ok].
    destruct (shares_by_educ _ (xf_exp_ft files)) as [pft|]; [|reflexivity]. cbn [bind on_ok].
    destruct (gen_prob_child_vector _ _) as [pc|]; [|reflexivity]. cbn [bind on_ok].
    destruct (gen_prob_partner _ _ _) as [pp|]; [|reflexivity]. cbn [bind on_ok].
    destruct (create_state_space_objects sp) as [ss|] eqn:Hss; [|reflexivity]. cbn [bind on_ok].
    rewrite p_nodes by exact Hpi. destruct (get_integration_draws_and_weights _ _ _ _ _ _) as [((zs, ws), g1)|]; [|reflexivity]. cbn [bind on_ok fst snd].
    eexists. split; [reflexivity|]. intros mp sp2 g2 Hmp Hi He. cbn [defined_space ss_states ss_indexer ss_covariates ss_child_age_update_rule ss_child_state_indexes].
    rewrite solved_defined by (try assumption; exact (so_mu mp Hmp)). apply on_ok_bind. intros (ncu, emaxs) _. unfold defined_solution. cbn [fst snd].
    set (ip := mkInitProbs (gen_prob_educ_level_vector (xf_educ files)) pa (gen_prob_partner_present_vector (xf_partner_present files)) ppt pft).
    apply (p_simulate rg sp2 mp (so_mu mp Hmp) Hi (mkSolution (ss_states ss) (ss_indexer ss) (ss_covariates ss) (ss_child_age_update_rule ss) ncu emaxs)
      (equiv_pos ss Hss) Hrg He (so_levels mp Hmp) (so_credit mp Hmp) ip pc pp sparse g2).
  Qed.

  Lemma simulated_defined rg roots s2 spi mp files biased sparse g : rng_ok rg -> spi <> 0 -> sound_params mp ->
    simulate (defined_rng rg) (defined_nodes roots) (Some s2) (Some spi) (defined_params mp) (defined_spec sp) (defined_files files) biased sparse g
    = on_ok (defined_output rg) (simulate rg roots s2 spi mp sp files biased sparse g).
  Proof.
    intros Hrg Hpi Hmp. unfold simulate. pose proof (closure_defined rg roots s2 spi files biased sparse g Hrg Hpi) as H.
    destruct (get_simulate_func rg _ _ _ _ _ _ _ _) as [(f, g')|e].
    - destruct H as (f' & -> & H). cbn [bind]. apply H; [exact Hmp|exact (sn_init sp Hsp)|exact (proj1 (proj2 (sn_sizes sp Hsp)))].
    - rewrite H. reflexivity.
  Qed.
End Main.
End Undefined_numbers.
