(** Property theorems C69 - C71: data that part of the inputs cannot change. *)
From Coq Require Import Reals Lra Lia ZArith List Arith.
From Verif Require Import Base Num M_Params M_Experience M_Tax M_StateSpace M_Solve M_Exog M_Sim L_Num S_Experience S_Interp S_Tax S_Benefits
  S_StateSpace S_Bellman S_Solver S_Rng L_Rng S_Sim S_SimInputs S_SimSame S_Invariance S_Reform L_SimInvariance
  X_Example L_Witness L_SimExample L_SameWitness.
Import ListNotations.
Open Scope R_scope.

(** C69: if nobody has a child at entry and birth probabilities are 0, the simulated data
    (every column of every row) do not depend on child-related inputs. *)
Theorem C69_childless_population :
  forall sp sp' mp mp' biased zs ws pc pp sol sol',
  inputs_ok sp mp pc pp -> inputs_ok sp' mp' pc pp ->
  solved sp mp biased zs ws pc pp sol -> solved sp' mp' biased zs ws pc pp sol' ->
  same_without_children sp sp' mp mp' -> same_world sp sp' -> type_shares mp' = type_shares mp ->
  forall rg ip data data', sim_setting rg sp sol -> sim_setting rg sp' sol' ->
  enter_childless sp ip -> no_births pc ->
  simulation rg mp sp sol ip pc pp data -> simulation rg mp' sp' sol' ip pc pp data' ->
  data' = data.
Proof. exact childless_data. Qed.
Print Assumptions C69_childless_population.

(** such a population stays childless *)
Theorem C69_nobody_has_children :
  forall rg mp sp sol ip pc pp data, sim_setting rg sp sol -> simulation rg mp sp sol ip pc pp data ->
  enter_childless sp ip -> no_births pc -> forall r, In r data -> a_age (o_state r) = (-1)%Z.
Proof. exact all_childless. Qed.
Print Assumptions C69_nobody_has_children.

(** care costs, benefits, regime and disutility of mothers differ; both runs finish *)
Example C69_case : exists sol sol' data data',
  inputs_ok ex_spec ex_params no_children ex_prob_partner /\ inputs_ok kids_spec kids_params no_children ex_prob_partner /\
  solved ex_spec ex_params false ex_draws ex_weights no_children ex_prob_partner sol /\
  solved kids_spec kids_params false ex_draws ex_weights no_children ex_prob_partner sol' /\
  same_without_children ex_spec kids_spec ex_params kids_params /\ same_world ex_spec kids_spec /\
  type_shares kids_params = type_shares ex_params /\
  sim_setting ex_rng ex_spec sol /\ sim_setting ex_rng kids_spec sol' /\
  enter_childless ex_spec childless_ip /\ no_births no_children /\
  simulation ex_rng ex_params ex_spec sol childless_ip no_children ex_prob_partner data /\
  simulation ex_rng kids_params kids_spec sol' childless_ip no_children ex_prob_partner data' /\
  child_benefits ex_spec <> child_benefits kids_spec.
Proof.
  destruct (childless_ok ex_spec ex_params ex_inputs eq_refl eq_refl) as [A1 A2].
  destruct (childless_ok kids_spec kids_params kids_inputs eq_refl eq_refl) as [B1 B2].
  destruct (any_run ex_spec ex_params no_children ex_prob_partner childless_ip A1 A2 ex_partner_probs
    (childless_init ex_spec eq_refl eq_refl eq_refl) ex_types ex_sim_spec) as (sol & data & S1 & S2 & S3).
  destruct (any_run kids_spec kids_params no_children ex_prob_partner childless_ip B1 B2 ex_partner_probs
    (childless_init kids_spec eq_refl eq_refl eq_refl) ex_types kids_sim_spec) as (sol' & data' & S1' & S2' & S3').
  exists sol, sol', data, data'.
  refine (conj A1 (conj B1 (conj S1 (conj S1' (conj kids_same (conj _ (conj eq_refl (conj S2 (conj S2'
    (conj childless_enter (conj childless_no_births (conj S3 (conj S3' _))))))))))))).
  - repeat split.
  - cbn [ex_spec kids_spec child_benefits]. lra.
Qed.

(** C70: if nobody has a partner at entry and partners never arrive, the simulated data do
    not depend on whether spouses are taxed jointly. *)
Theorem C70_single_population :
  forall sp mp flag biased zs ws pc pp sol sol',
  inputs_ok sp mp pc pp ->
  solved sp mp biased zs ws pc pp sol -> solved (with_splitting sp flag) mp biased zs ws pc pp sol' ->
  forall rg ip data data', sim_setting rg sp sol -> sim_setting rg (with_splitting sp flag) sol' ->
  enter_single ip -> no_arrivals pp ->
  simulation rg mp sp sol ip pc pp data -> simulation rg mp (with_splitting sp flag) sol' ip pc pp data' ->
  data' = data.
Proof. exact single_data. Qed.
Print Assumptions C70_single_population.
Theorem C70_nobody_has_a_partner :
  forall rg mp sp sol ip pc pp data, sim_setting rg sp sol -> simulation rg mp sp sol ip pc pp data ->
  partner_table_ok sp pp -> enter_single ip -> no_arrivals pp -> forall r, In r data -> a_partner (o_state r) = 0%Z.
Proof. exact all_single. Qed.
Print Assumptions C70_nobody_has_a_partner.

Example C70_case : exists sol sol' data data',
  inputs_ok ex_spec ex_params ex_prob_child no_partners /\
  solved ex_spec ex_params false ex_draws ex_weights ex_prob_child no_partners sol /\
  solved (with_splitting ex_spec false) ex_params false ex_draws ex_weights ex_prob_child no_partners sol' /\
  sim_setting ex_rng ex_spec sol /\ sim_setting ex_rng (with_splitting ex_spec false) sol' /\
  enter_single single_ip /\ no_arrivals no_partners /\
  simulation ex_rng ex_params ex_spec sol single_ip ex_prob_child no_partners data /\
  simulation ex_rng ex_params (with_splitting ex_spec false) sol' single_ip ex_prob_child no_partners data' /\
  tax_splitting ex_spec = true.
Proof.
  destruct single_inputs as [A1 A2].
  destruct (any_run ex_spec ex_params ex_prob_child no_partners single_ip A1 ex_child_probs A2
    single_init ex_types ex_sim_spec) as (sol & data & S1 & S2 & S3).
  destruct (any_run (with_splitting ex_spec false) ex_params ex_prob_child no_partners single_ip A1 ex_child_probs A2) as (sol' & data' & S1' & S2' & S3').
  - destruct single_init as [i1 i2 i3 i4 i5 i6 i7 i8 i9]. constructor; assumption.
  - exact ex_types.
  - exact ex_sim_spec.
  - exists sol, sol', data, data'.
    exact (conj A1 (conj S1 (conj S1' (conj S2 (conj S2' (conj single_enter (conj single_no_arrivals (conj S3 (conj S3' eq_refl))))))))).
Qed.

(** C71: the rows of women of one education level and type do not depend on the parameters
    of other levels and types. *)
Theorem C71_own_rows :
  forall sp mp mp' biased zs ws pc pp sol sol' e ty,
  inputs_ok sp mp pc pp -> inputs_ok sp mp' pc pp ->
  solved sp mp biased zs ws pc pp sol -> solved sp mp' biased zs ws pc pp sol' ->
  same_for e ty sp mp mp' (child_fun pc) (child_fun pc) (partner_fun pp) (partner_fun pp) ->
  type_shares mp' = type_shares mp ->
  forall rg ip data data', sim_setting rg sp sol -> sim_setting rg sp sol' ->
  simulation rg mp sp sol ip pc pp data -> simulation rg mp' sp sol' ip pc pp data' ->
  rows_of e ty data' = rows_of e ty data.
Proof. exact own_data. Qed.
Print Assumptions C71_own_rows.

(** wages at level 2 differ: the rows of level 1 are the same *)
Example C71_case : exists sol sol' data data',
  inputs_ok ex_spec ex_params ex_prob_child ex_prob_partner /\ inputs_ok ex_spec high_params ex_prob_child ex_prob_partner /\
  solved ex_spec ex_params false ex_draws ex_weights ex_prob_child ex_prob_partner sol /\
  solved ex_spec high_params false ex_draws ex_weights ex_prob_child ex_prob_partner sol' /\
  same_for 1 0 ex_spec ex_params high_params (child_fun ex_prob_child) (child_fun ex_prob_child)
    (partner_fun ex_prob_partner) (partner_fun ex_prob_partner) /\
  type_shares high_params = type_shares ex_params /\
  sim_setting ex_rng ex_spec sol /\ sim_setting ex_rng ex_spec sol' /\
  simulation ex_rng ex_params ex_spec sol ex_ip ex_prob_child ex_prob_partner data /\
  simulation ex_rng high_params ex_spec sol' ex_ip ex_prob_child ex_prob_partner data' /\
  at_ (gamma_0 high_params) 2 <> at_ (gamma_0 ex_params) 2.
Proof.
  destruct (any_run ex_spec ex_params ex_prob_child ex_prob_partner ex_ip ex_inputs ex_child_probs ex_partner_probs
    ex_init_ok ex_types ex_sim_spec) as (sol & data & S1 & S2 & S3).
  destruct (any_run ex_spec high_params ex_prob_child ex_prob_partner ex_ip high_inputs ex_child_probs ex_partner_probs
    ex_init_ok ex_types ex_sim_spec) as (sol' & data' & S1' & S2' & S3').
  exists sol, sol', data, data'.
  refine (conj ex_inputs (conj high_inputs (conj S1 (conj S1' (conj high_same (conj eq_refl (conj S2 (conj S2' (conj S3 (conj S3' _)))))))))).
  change (4 <> 23/10). lra.
Qed.
