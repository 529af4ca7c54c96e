(** Property theorems C78, C79: the unit of account. *)
From Coq Require Import Reals Lra Lia ZArith List String.
From Verif Require Import Base Num M_Params M_Exog M_Sim S_Interp S_Tax S_Benefits S_StateSpace S_Bellman S_Solver S_Rng L_Rng S_Sim S_SimInputs S_Currency
  L_Currency X_Example L_Witness L_SimExample L_SameWitness L_CurrencyWitness.
Import ListNotations.
Open Scope R_scope.

(** C78: measuring all money in another unit (f new units for an old one) multiplies every
    number of the solution by f to the power mu, as long as no working household is at the
    consumption floor. *)
Theorem C78_unit_of_account :
  forall f sp sp' mp mp' biased zs ws pc pp,
  0 < f -> in_currency f sp sp' mp mp' -> inputs_ok sp mp pc pp -> inputs_ok sp' mp' pc pp ->
  solution_clear f sp mp biased (combine zs ws) ->
  forall t e l ty a m g c v v', in_space sp t e l ty a m -> (g < List.length (exp_grid sp))%nat -> (0 <= c < 4)%Z ->
  solver_cell sp mp biased zs ws pc pp t e l ty a m g c = Ok v ->
  solver_cell sp' mp' biased zs ws pc pp t e l ty a m g c = Ok v' -> v' = Rpower f (mu mp) * v.
Proof. exact solver_currency. Qed.
Print Assumptions C78_unit_of_account.

(** C79: nobody in the simulated data decides differently: same agents, states and choices,
    wages times f, utilities and values times f to the power mu. *)
Theorem C79_same_decisions :
  forall f sp sp' mp mp' biased zs ws pc pp sol sol',
  0 < f -> in_currency f sp sp' mp mp' -> inputs_ok sp mp pc pp -> inputs_ok sp' mp' pc pp ->
  solution_clear f sp mp biased (combine zs ws) ->
  solved sp mp biased zs ws pc pp sol -> solved sp' mp' biased zs ws pc pp sol' ->
  forall rg ip data data', sim_setting rg sp sol -> sim_setting rg sp' sol' ->
  simulation rg mp sp sol ip pc pp data -> simulation rg mp' sp' sol' ip pc pp data' ->
  data_clear f rg sp mp data ->
  Forall2 (row_in_currency f (Rpower f (mu mp))) data data'.
Proof.
  intros f sp sp' mp mp' biased zs ws pc pp sol sol' Hf Hcu Hok Hok' Hcl Hs Hs'.
  exact (data_currency f Hf sp sp' mp mp' Hcu biased zs ws pc pp sol sol' Hok Hok' Hcl Hs Hs').
Qed.
Print Assumptions C79_same_decisions.

(** the example economy in Deutsche Mark *)
Definition mark : R := 195583/100000.
Example C78_case :
  0 < mark /\ in_currency mark ex_spec (spec_in mark ex_spec) ex_params (params_in mark ex_params) /\
  inputs_ok ex_spec ex_params ex_prob_child ex_prob_partner /\
  inputs_ok (spec_in mark ex_spec) (params_in mark ex_params) ex_prob_child ex_prob_partner /\
  solution_clear mark ex_spec ex_params false (combine ex_draws ex_weights) /\
  child_benefits (spec_in mark ex_spec) <> child_benefits ex_spec /\ Rpower mark (mu ex_params) <> 1.
Proof.
  assert (Hf : 0 < mark) by (unfold mark; lra).
  refine (conj Hf (conj (in_units _ _ _ (proj1 (proj2 ex_inputs))) (conj ex_inputs (conj (units_inputs _ _ _ _ _ Hf ex_inputs)
    (conj (ex_solution_clear _ _) (conj _ _)))))).
  - unfold mark. lra.
  - unfold mark. cbn [spec_in ex_spec child_benefits]. lra.
  - intros H. unfold Rpower in H. rewrite <- exp_0 in H. apply exp_inv in H. cbn [ex_params mu] in H.
    assert (0 < ln mark) by (rewrite <- ln_1; apply ln_increasing; unfold mark; lra). lra.
Qed.
Example C79_case : exists sol sol' data data',
  solved ex_spec ex_params false ex_draws ex_weights ex_prob_child ex_prob_partner sol /\
  solved (spec_in mark ex_spec) (params_in mark ex_params) false ex_draws ex_weights ex_prob_child ex_prob_partner sol' /\
  sim_setting ex_rng ex_spec sol /\ sim_setting ex_rng (spec_in mark ex_spec) sol' /\
  simulation ex_rng ex_params ex_spec sol ex_ip ex_prob_child ex_prob_partner data /\
  simulation ex_rng (params_in mark ex_params) (spec_in mark ex_spec) sol' ex_ip ex_prob_child ex_prob_partner data' /\
  data_clear mark ex_rng ex_spec ex_params data.
Proof.
  assert (Hf : 0 < mark) by (unfold mark; lra).
  destruct (any_run ex_spec ex_params ex_prob_child ex_prob_partner ex_ip ex_inputs ex_child_probs ex_partner_probs
    ex_init_ok ex_types ex_sim_spec) as (sol & data & S1 & S2 & S3).
  destruct (any_run (spec_in mark ex_spec) (params_in mark ex_params) ex_prob_child ex_prob_partner ex_ip
    (units_inputs _ _ _ _ _ Hf ex_inputs) ex_child_probs ex_partner_probs
    (units_init _ _ _ ex_init_ok) ex_types ex_sim_spec) as (sol' & data' & S1' & S2' & S3').
  exists sol, sol', data, data'. refine (conj S1 (conj S1' (conj S2 (conj S2' (conj S3 (conj S3' _)))))).
  apply (ex_data_clear mark sol data); [unfold mark; lra|exact S2|exact S3].
Qed.

(** At the floor the claim of C78 fails: the floor is a fixed number, whatever the unit. *)
Example C78_floor_can_fail :
  ~ (forall f sp sp' mp mp' biased zs ws pc pp,
     0 < f -> in_currency f sp sp' mp mp' -> inputs_ok sp mp pc pp -> inputs_ok sp' mp' pc pp ->
     forall t e l ty a m g c v v', in_space sp t e l ty a m -> (g < List.length (exp_grid sp))%nat -> (0 <= c < 4)%Z ->
     solver_cell sp mp biased zs ws pc pp t e l ty a m g c = Ok v ->
     solver_cell sp' mp' biased zs ws pc pp t e l ty a m g c = Ok v' -> v' = Rpower f (mu mp) * v).
Proof. exact floor_not_scaled. Qed.
