(** Property theorems C100: reported values are what people can expect.  [life_after] in
    S_Expect is the discounted utility of the choices the simulation makes, averaged over
    wage shocks, births and partners. *)
From Coq Require Import Reals Lra Lia ZArith List String.
From Verif Require Import Base Num M_Params M_Tax M_Exog M_Sim S_Interp S_Tax S_Benefits S_StateSpace S_Bellman S_Solver
  S_Rng S_Sim S_SimInputs S_SimEntry S_Stability S_Grid S_GridSim S_Expect L_Num L_Bellman L_Solver L_Rng L_Sim L_SimProps L_Stability
  L_Interp L_Grid L_GridSim L_Expect X_Example L_Witness L_SimExample L_SameWitness L_CurrencyWitness L_GridWitness T_Grid.
Import ListNotations.
Open Scope R_scope.

(** C100, career by career and exactly, with risk or without: discounted utility from a row
    on is the value reported in the row plus the discounted surprises on the way *)
Theorem C100_surprises :
  forall sp mp biased zs ws pc pp sol rg ip data,
  inputs_ok sp mp pc pp -> solved sp mp biased zs ws pc pp sol ->
  sim_setting rg sp sol -> simulation rg mp sp sol ip pc pp data ->
  forall r rs us v ss, career (num_periods sp - 1) data (r :: rs) ->
  Forall2 chosen_flow (r :: rs) us -> chosen_value r v -> surprises (r :: rs) ss ->
  discounted (delta mp) us = v + delta mp * discounted (delta mp) ss.
Proof.
  intros sp mp biased zs ws pc pp sol rg ip data Hok Hs Hset Hsim r rs us v ss Hca Hus Hv Hss.
  exact (surprise_sum sp mp biased zs ws pc pp sol rg ip data Hok Hs Hset Hsim (r :: rs) Hca r rs eq_refl us v ss Hus Hv Hss).
Qed.
Print Assumptions C100_surprises.

(** every career has its surprises *)
Theorem C100_surprises_exist :
  forall sp mp biased zs ws pc pp sol rg ip data,
  inputs_ok sp mp pc pp -> solved sp mp biased zs ws pc pp sol ->
  sim_setting rg sp sol -> simulation rg mp sp sol ip pc pp data ->
  forall rs, career (num_periods sp - 1) data rs -> exists ss, surprises rs ss.
Proof.
  intros sp mp biased zs ws pc pp sol rg ip data Hok Hs Hset Hsim rs. induction 1 as [r Hr Hlast | r r' rs Hfo Hca (ss & IH)].
  - exists []. constructor.
  - destruct (row_columns sp mp biased zs ws pc pp sol rg ip data Hok Hs Hset Hsim r (proj1 Hfo)) as (f & Hf & _).
    destruct (row_columns sp mp biased zs ws pc pp sol rg ip data Hok Hs Hset Hsim r' (proj1 (proj2 Hfo))) as (f' & Hf' & _).
    eexists. constructor; [|exact IH]. exists f, (at_ (f_value f') (o_choice r')). split; [exact Hf|]. split; [|reflexivity].
    exists f'. split; [exact Hf'|reflexivity].
Qed.
Print Assumptions C100_surprises_exist.

(** surprises average out: for every state, stock and alternative, the average of the next
    row's value is the continuation value, up to the error of the grid ... *)
Theorem C100_average_surprise :
  forall sp mp zs ws pc pp sol L k,
  inputs_ok sp mp pc pp -> solved sp mp false zs ws pc pp sol ->
  nonneg_weights zs ws -> average (fun _ => 1) (combine zs ws) = 1 -> probabilities sp pc pp ->
  (2 <= k)%nat -> exp_grid sp = uniform_grid k -> 0 <= delta mp -> 0 <= L ->
  flows_lipschitz L sp mp false (combine zs ws) ->
  unscaled sp -> no_costs_for_older sp -> benefits_paid sp -> floors_clear sp mp (combine zs ws) ->
  exists K, acted_upon sp mp zs ws pc pp sol K /\
  forall t e l ty a m c x n, in_space sp t e l ty a m -> remaining sp t = S n -> (0 <= c < 3)%Z -> 0 <= x <= 1 ->
  near (L * (1 / INR (k - 1)) * (report_error (delta mp) (S n) + delta mp * report_error (delta mp) n))
    (exact_next sp mp false (child_fun pc) (partner_fun pp) (mean_worth sp mp K (combine zs ws)) t e ty a m c x)
    (K t e ty a m c x).
Proof.
  intros sp mp zs ws pc pp sol L k Hok Hs Hw Hw1 Hp Hk Hg Hd HL Hf U1 U2 U3 Hfl.
  exists (read sp mp zs ws pc pp). split; [exact (read_acted sp mp zs ws pc pp k Hok Hk Hg sol Hs)|].
  intros. eapply surprises_near; eassumption.
Qed.
Print Assumptions C100_average_surprise.

(** ... so that continuation values are expected discounted utility.  In every row of every
    run: what is reported for an alternative is, up to the error of the grid, the discounted
    utility to be expected from the next period on if it is taken and people go on to decide
    as the simulation does *)
Theorem C100_expected_utility :
  forall sp mp zs ws pc pp sol L k,
  inputs_ok sp mp pc pp -> solved sp mp false zs ws pc pp sol ->
  nonneg_weights zs ws -> average (fun _ => 1) (combine zs ws) = 1 -> probabilities sp pc pp ->
  (2 <= k)%nat -> exp_grid sp = uniform_grid k -> 0 <= delta mp -> 0 <= L ->
  flows_lipschitz L sp mp false (combine zs ws) ->
  unscaled sp -> no_costs_for_older sp -> benefits_paid sp -> floors_clear sp mp (combine zs ws) ->
  exists K, acted_upon sp mp zs ws pc pp sol K /\
  forall rg ip data, sim_setting rg sp sol -> simulation rg mp sp sol ip pc pp data ->
  forall r, In r data -> 0 <= a_stock (o_state r) <= 1 -> exists f, let a := o_state r in
    o_full r = Some f /\
    forall c, (0 <= c < 3)%Z ->
      let expected := life_after sp mp K (combine zs ws) (child_fun pc) (partner_fun pp) (remaining sp (a_period a))
                        (a_period a) (a_educ a) (a_type a) (a_age a) (a_partner a) c (a_stock a) in
      let err := L * (1 / INR (k - 1)) * life_error (delta mp) (remaining sp (a_period a)) in
      near err expected (at_ (f_cont f) c) /\
      near (delta mp * err) (at_ (f_flow f) c + delta mp * expected) (at_ (f_value f) c).
Proof.
  intros sp mp zs ws pc pp sol L k Hok Hs Hw Hw1 Hp Hk Hg Hd HL Hf U1 U2 U3 Hfl.
  pose proof (read_acted sp mp zs ws pc pp k Hok Hk Hg sol Hs) as HK.
  exists (read sp mp zs ws pc pp). split; [exact HK|]. intros rg ip data Hset Hsim r Hr Hx.
  destruct (proj2 HK rg ip data Hset Hsim r Hr) as (f & z & Hfull & _ & Hc & _).
  destruct (row_columns sp mp false zs ws pc pp sol rg ip data Hok Hs Hset Hsim r Hr) as (f' & Hfull' & _ & Hval & _).
  assert (f' = f) by congruence. subst f'. exists f. cbv zeta in *. split; [exact Hfull|]. intros c Hcc.
  assert (Hin : agent_in_space sp (o_state r)).
  { destruct Hset as (S1 & S2 & S3). destruct Hsim as (g & g' & Hd'). exact (proj1 (listed _ _ _ _ _ _ _ _ S1 S2 S3 g g' data Hd' r Hr)). }
  pose proof (life_near sp mp zs ws pc pp L k Hok Hw Hw1 Hp Hk Hg Hd HL Hf U1 U2 U3 Hfl _ _ _ _ _ _ _ Hin eq_refl c _ Hcc Hx) as N.
  rewrite (Hval c Hcc), (Hc c Hcc). split; [exact N|]. apply near_scaled; assumption.
Qed.
Print Assumptions C100_expected_utility.

(** exactly so if experience has no return *)
Theorem C100_no_returns :
  forall sp mp zs ws pc pp sol k,
  inputs_ok sp mp pc pp -> solved sp mp false zs ws pc pp sol ->
  nonneg_weights zs ws -> average (fun _ => 1) (combine zs ws) = 1 -> probabilities sp pc pp ->
  (2 <= k)%nat -> exp_grid sp = uniform_grid k -> 0 <= delta mp ->
  (forall e, (0 <= e < num_educ_levels sp)%Z -> at_ (gamma_1 mp) e = 0) ->
  unscaled sp -> no_costs_for_older sp -> benefits_paid sp -> floors_clear sp mp (combine zs ws) ->
  exists K, acted_upon sp mp zs ws pc pp sol K /\
  forall rg ip data, sim_setting rg sp sol -> simulation rg mp sp sol ip pc pp data ->
  forall r, In r data -> 0 <= a_stock (o_state r) <= 1 -> exists f, let a := o_state r in
    o_full r = Some f /\
    forall c, (0 <= c < 3)%Z ->
      at_ (f_cont f) c = life_after sp mp K (combine zs ws) (child_fun pc) (partner_fun pp) (remaining sp (a_period a))
                           (a_period a) (a_educ a) (a_type a) (a_age a) (a_partner a) c (a_stock a).
Proof.
  intros sp mp zs ws pc pp sol k Hok Hs Hw Hw1 Hp Hk Hg Hd H0 U1 U2 U3 Hfl.
  destruct (C100_expected_utility sp mp zs ws pc pp sol 0 k Hok Hs Hw Hw1 Hp Hk Hg Hd (Rle_refl 0) (flat_lipschitz sp mp false _ H0) U1 U2 U3 Hfl)
    as (K & HK & H). exists K. split; [exact HK|]. intros rg ip data Hset Hsim r Hr Hx. destruct (H rg ip data Hset Hsim r Hr Hx) as (f & Hf & N).
  exists f. cbv zeta in *. split; [exact Hf|]. intros c Hc. destruct (N c Hc) as [A _]. unfold near in A. rewrite !Rmult_0_l in A.
  apply Rabs_le_inv in A. lra.
Qed.
Print Assumptions C100_no_returns.

(** births are averaged with the probabilities the solver uses.  They may be replaced by those
    of the simulation wherever both agree (they need not: C38) *)
Theorem C100_simulated_births :
  forall sp mp pc pp draws K, inputs_ok sp mp pc pp ->
  (forall t e, (0 <= t < num_periods sp - 1)%Z -> (0 <= e < num_educ_levels sp)%Z -> child_fun pc t e = drawn_births sp pc t e) ->
  forall t e l ty a m c x, in_space sp t e l ty a m -> (0 <= c < 3)%Z ->
  life_after sp mp K draws (child_fun pc) (partner_fun pp) (remaining sp t) t e ty a m c x
  = life_after sp mp K draws (drawn_births sp pc) (partner_fun pp) (remaining sp t) t e ty a m c x.
Proof.
  intros sp mp pc pp draws K Hok E t e l ty a m c x Hin Hc. pose proof Hok as ((_ & _ & _ & Hca & _) & _).
  apply (life_births sp mp K draws _ _ _ Hca E _ t e l ty a m c x Hin (remaining_eq _ _ _ _ _ _ _ Hin) Hc).
Qed.
Print Assumptions C100_simulated_births.

(** the four-period example with risk of every kind, and solver and simulation agreeing on it *)
Example C100_case : exists sol data L,
  inputs_ok ex_spec ex_params ex_prob_child ex_prob_partner /\ solved ex_spec ex_params false ex_draws ex_weights ex_prob_child ex_prob_partner sol /\
  sim_setting ex_rng ex_spec sol /\ simulation ex_rng ex_params ex_spec sol ex_ip ex_prob_child ex_prob_partner data /\
  nonneg_weights ex_draws ex_weights /\ average (fun _ => 1) (combine ex_draws ex_weights) = 1 /\
  probabilities ex_spec ex_prob_child ex_prob_partner /\ exp_grid ex_spec = uniform_grid 5 /\ 0 <= delta ex_params /\ 0 <= L /\
  flows_lipschitz L ex_spec ex_params false (combine ex_draws ex_weights) /\
  unscaled ex_spec /\ no_costs_for_older ex_spec /\ benefits_paid ex_spec /\ floors_clear ex_spec ex_params (combine ex_draws ex_weights) /\
  (forall t e, (0 <= t < num_periods ex_spec - 1)%Z -> (0 <= e < num_educ_levels ex_spec)%Z ->
     child_fun ex_prob_child t e = 1/10 /\ child_fun ex_prob_child t e = drawn_births ex_spec ex_prob_child t e) /\
  exists r r', follows data r r' /\ row_period r = 2%Z.
Proof.
  destruct (any_run ex_spec ex_params _ _ ex_ip ex_inputs ex_child_probs ex_partner_probs ex_init_ok ex_types ex_sim_spec) as (sol & data & Hs & Hset & Hsim).
  destruct (ex_lipschitz ex_params false (combine ex_draws ex_weights)) as (L & HL & Hf).
  exists sol, data, L.
  refine (conj ex_inputs (conj Hs (conj Hset (conj Hsim (conj ex_weights_ok (conj ex_weights_sum (conj ex_probs (conj eq_refl (conj _ (conj HL (conj Hf
    (conj eq_refl (conj _ (conj (or_introl eq_refl) (conj _ (conj _ (someone sol _ _ _ _ data Hset Hsim))))))))))))))))).
  - cbn [ex_params delta]. lra.
  - intros c Hc. assert (c = 1 \/ c = 2)%Z as [-> | ->] by lia; reflexivity.
  - intros t e l ty a m x z w c Hin Hx Hz Hc.
    assert (-1 <= z) by (cbn [combine ex_draws ex_weights In] in Hz; destruct Hz as [E | [E | []]]; injection E as <- _; lra).
    pose proof (ex_resources t e l ty a m x z c Hin (proj1 Hx) H Hc). unfold above_floor. lra.
  - intros t e Ht He. cbn [ex_spec num_periods num_educ_levels] in Ht, He.
    assert (t = 0 \/ t = 1 \/ t = 2)%Z as [-> | [-> | ->]] by lia; assert (e = 0 \/ e = 1 \/ e = 2)%Z as [-> | [-> | ->]] by lia; split; reflexivity.
Qed.
(** two periods to come, discount factor 1/2 *)
Example C100_error_value : life_error (1/2) 2 = 11/2.
Proof. cbn [life_error report_error grid_error geometric]. lra. Qed.
