(** Concrete simulations that meet the hypotheses of T_Sim.v. *)
From Coq Require Import Reals Lra Lia ZArith List Arith String.
From Verif Require Import Base Num M_Params M_Experience M_StateSpace M_Solve M_Exog M_Sim L_Num S_Interp L_Interp
  S_StateSpace L_StateSpace S_Bellman S_Solver L_Solver S_Rng L_Rng S_Sim S_SimInputs L_Trace L_SimInit L_Sim L_SimProps
  L_SimTotal L_SimFlow X_Example L_Witness.
Import ListNotations.
Open Scope R_scope.

Lemma solved_exists sp mp biased zs ws pc pp : inputs_ok sp mp pc pp -> exists sol, solved sp mp biased zs ws pc pp sol.
Proof.
  intros Hok. destruct (solver_run sp mp biased zs ws pc pp Hok) as (ss & ncu & emaxs & E1 & E2 & _).
  exists (mkSolution (ss_states ss) (ss_indexer ss) (ss_covariates ss) (ss_child_age_update_rule ss) ncu emaxs).
  exists ss. exact (conj E1 (conj eq_refl (conj eq_refl (conj eq_refl (conj eq_refl E2))))).
Qed.

(** education shares 1/2, 1/4, 1/4; no initial experience above two years *)
Definition ex_ip : init_probs R := {|
  ip_educ := [1/2; 1/4; 1/4];
  ip_child_age := repeat [1/2; 1/4; 1/4; 0; 0; 0] 3;
  ip_partner_present := [1/2; 0; 1];
  ip_exp_pt := repeat [1/2; 1/4; 1/4; 0; 0] 3;
  ip_exp_ft := repeat [1/2; 1/4; 1/4; 0; 0] 3
|}.

Ltac shares := split; [reflexivity|split; [intros x Hx; in_list Hx; lra|cbn [fold_right]; lra]].

Lemma ex_init_ok : init_ok ex_spec ex_ip.
Proof.
  constructor; cbn [ex_spec ex_ip ip_educ ip_child_age ip_partner_present ip_exp_pt ip_exp_ft num_educ_levels child_age_init_max init_exp_max].
  - shares.
  - reflexivity.
  - intros p H. in_list H; shares.
  - reflexivity.
  - intros x H. in_list H; lra.
  - reflexivity.
  - intros p H. in_list H; shares.
  - reflexivity.
  - intros p H. in_list H; shares.
Qed.

Lemma ex_sim_spec : sim_spec_ok ex_spec.
Proof.
  unfold sim_spec_ok. cbn [ex_spec num_periods num_types child_age_max child_age_init_max num_educ_levels educ_years num_agents_sim].
  repeat (split; [try lia; reflexivity|]). split; [intros y H; cbn [In] in H; lia|]. split; [lia|].
  unfold valid_seed. cbn [ex_spec seed_sim]. lia.
Qed.
Lemma ex_types : proper (num_types ex_spec) (type_shares ex_params).
Proof. cbn [ex_spec ex_params num_types type_shares]. shares. Qed.
Lemma ex_partner_probs : partner_probs_ok ex_spec ex_prob_partner.
Proof.
  split; [exact (proj2 (proj2 (proj2 ex_inputs)))|]. intros r H. in_list H; intros q Hq; in_list Hq; intros pr Hp; in_list Hp; cbn [fst snd]; lra.
Qed.
Lemma ex_child_probs : child_probs_ok ex_spec ex_prob_child.
Proof. split; [exact (proj1 (proj2 (proj2 ex_inputs)))|]. intros r H. in_list H; intros x Hx; in_list Hx; lra. Qed.

(** no births before period 3, in which everybody gets a child *)
Definition late_child : list (list R) := repeat (repeat 0 3) 3 ++ [[1; 1; 1]].
Lemma late_inputs : inputs_ok ex_spec ex_params late_child ex_prob_partner.
Proof.
  pose proof ex_inputs as (H1 & H2 & _ & H4). refine (conj H1 (conj H2 (conj _ H4))).
  split; [reflexivity|]. intros r H. in_list H; reflexivity.
Qed.
Lemma late_child_probs : child_probs_ok ex_spec late_child.
Proof. split; [exact (proj1 (proj2 (proj2 late_inputs)))|]. intros r H. in_list H; intros x Hx; in_list Hx; lra. Qed.

Section Run.
  Variable pc : list (list R).
  Hypothesis Hin : inputs_ok ex_spec ex_params pc ex_prob_partner.
  Hypothesis Hpc : child_probs_ok ex_spec pc.

  Lemma run_inputs : exists sol, solved ex_spec ex_params false ex_draws ex_weights pc ex_prob_partner sol /\
    sim_inputs_ok ex_rng ex_params ex_spec sol ex_ip pc ex_prob_partner.
  Proof.
    destruct (solved_exists ex_spec ex_params false ex_draws ex_weights pc ex_prob_partner Hin) as [sol Hs].
    exists sol. split; [exact Hs|]. constructor.
    - split; [exact ex_rng_ok|]. split; [exact ex_sim_spec|]. eapply solved_solution. exact Hs.
    - exact ex_rng_total.
    - left. reflexivity.
    - eapply solved_tables_ok; [exact Hin|exact Hs].
    - exact ex_init_ok.
    - exact ex_types.
    - exact Hpc.
    - exact ex_partner_probs.
  Qed.

  Lemma example_run : exists sol data,
    solved ex_spec ex_params false ex_draws ex_weights pc ex_prob_partner sol /\
    sim_inputs_ok ex_rng ex_params ex_spec sol ex_ip pc ex_prob_partner /\
    simulation ex_rng ex_params ex_spec sol ex_ip pc ex_prob_partner data /\
    exists r r', follows data r r' /\ row_period r = 2%Z.
  Proof.
    destruct run_inputs as (sol & Hs & Hok). destruct Hok as [(S1 & S2 & S3) I2 I3 I4 I5 I6 I7 I8] eqn:E. clear E.
    destruct (simulate_total ex_rng S1 I2 ex_params ex_spec sol ex_ip pc ex_prob_partner S2 I3 S3 I4 I5 I6 I7 I8 false false 0%Z)
      as (data & g' & Hd).
    exists sol, data. split; [exact Hs|]. split; [exact Hok|]. split; [do 2 eexists; exact Hd|].
    destruct (panel ex_rng ex_params ex_spec sol ex_ip pc ex_prob_partner false S1 S2 S3 _ _ data Hd) as (educs & Le & _ & Hp & _).
    cbn [ex_spec num_agents_sim] in Le. destruct educs as [|e educs]; [discriminate Le|].
    destruct (Hp 0%nat e eq_refl) as (y & He & Hy & Hrows).
    assert (Hyr : (y <= 2)%Z).
    { apply nth_error_In in Hy. cbn [ex_spec educ_years In] in Hy. lia. }
    destruct (proj2 (Hrows 2%Z)) as (r & Hr & Kr); [cbn [ex_spec num_periods]; lia|].
    destruct (proj2 (Hrows 3%Z)) as (r' & Hr' & Kr'); [cbn [ex_spec num_periods]; lia|].
    exists r, r'. unfold row_key in Kr, Kr'. injection Kr as K1 K2. injection Kr' as K3 K4.
    repeat split; try assumption; lia.
  Qed.
End Run.
