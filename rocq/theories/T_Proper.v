(** Property theorems C95: numbers are drawn from proper distributions only. *)
From Coq Require Import Reals Lra Lia ZArith List Arith String.
From Verif Require Import Base Num M_Params M_StateSpace M_Solve M_Exog M_Sim M_Spec M_Main M_Numpy S_Rng S_Numpy S_Proper S_Sim S_SimInputs S_SimEntry
  S_Exog S_Main S_Solver L_Num L_Numpy L_NumpySim L_SimEntry L_SimProps L_SimFlow L_Witness L_SimExample L_SameWitness L_Proper T_Main T_Numpy T_Sim T_SimEntry X_Example.
Import ListNotations.
Local Open Scope string_scope.
Local Open Scope list_scope.
Open Scope R_scope.

(** C95: sampling succeeds exactly for distributions; otherwise the first objection is raised,
    and there is one. *)
Theorem C95_choice :
  forall src vals n p, unit_source src ->
  (forall g, (exists r, rng_choice (numpy_rng src sqrt) g vals n p = Ok r) <-> distribution (zlen vals) p) /\
  (forall g e, rng_choice (numpy_rng src sqrt) g vals n p = Err e <-> objection (zlen vals) n p e) /\
  (distribution (zlen vals) p <-> forall e, ~ objection (zlen vals) n p e).
Proof.
  intros src vals n p U. split; [|split].
  - intros g. split; [intros (r & H); exact (choice_drawn src g vals n p r H)|exact (choice_returns src U g vals n p)].
  - intros g e. split; [|exact (choice_refused src g vals n p e)]. intros H.
    destruct (choice_checks src (fst g) vals n p) as [e' O E|D _].
    + cbn [numpy_rng rng_choice] in H. rewrite E in H. cbn [bind] in H. injection H as <-. exact O.
    + destruct (choice_returns src U g vals n p D) as (r & Hr). rewrite Hr in H. discriminate.
  - apply no_objection.
Qed.
Print Assumptions C95_choice.

(** Successes are drawn exactly with probabilities between 0 and 1. *)
Theorem C95_binomial :
  forall src g ps, unit_source src ->
  ((exists r, rng_binomial (numpy_rng src sqrt) g ps = Ok r) <-> forall p, In p ps -> 0 <= p <= 1) /\
  ((exists p, In p ps /\ ~ 0 <= p <= 1) -> rng_binomial (numpy_rng src sqrt) g ps = Err (ValueError "p < 0, p > 1 or p contains NaNs")).
Proof.
  intros src g ps U. split; [|exact (binomial_refused src g ps)].
  split; [intros (r & H); exact (binomial_drawn src g ps r H)|]. exact (binomial_ok _ (proj2 (C72_numpy_contract src U)) g ps).
Qed.
Print Assumptions C95_binomial.

(** If a simulation returns, the shares of education levels and types are distributions, and so
    are the ones of ages of children and of years of experience at entry, for every education
    level - also for levels nobody has.  Shares of women with partner lie between 0 and 1. *)
Theorem C95_entry_distributions :
  forall src mp sp sol ip pc pp biased sparse g r,
  pyth_simulate (numpy_rng src sqrt) mp sp sol ip pc pp biased sparse g = Ok r ->
  distribution (num_educ_levels sp) (ip_educ ip) /\ distribution (num_types sp) (type_shares mp) /\
  forall e, (0 <= e < num_educ_levels sp)%Z -> exists pa pm pe pf,
    given_for (ip_child_age ip) e pa /\ distribution (child_age_init_max sp + 2) pa /\
    given_for (ip_partner_present ip) e pm /\ 0 <= pm <= 1 /\
    given_for (ip_exp_pt ip) e pe /\ distribution (init_exp_max sp + 1) pe /\
    given_for (ip_exp_ft ip) e pf /\ distribution (init_exp_max sp + 1) pf.
Proof. exact simulation_distributions. Qed.
Print Assumptions C95_entry_distributions.

(** All probabilities that were used for births, arrivals and separations of partners lie
    between 0 and 1. *)
Theorem C95_probabilities :
  forall src mp sp sol ip pc pp data, sim_setting (numpy_rng src sqrt) sp sol -> simulation (numpy_rng src sqrt) mp sp sol ip pc pp data ->
  forall r r', follows data r r' ->
     let a := o_state r in let t := row_period r in
     ((t <= last_child_bearing_period sp)%Z -> exists row p, np_get pc (t + 1) = Ok row /\ np_get row (a_educ a) = Ok p /\ 0 <= p <= 1) /\
     (a_partner a = 0%Z -> exists pr, partner_prob pp t (a_educ a) 0 = Ok pr /\ 0 <= snd pr <= 1) /\
     (a_partner a = 1%Z -> exists pr, partner_prob pp t (a_educ a) 1 = Ok pr /\ 0 <= fst pr <= 1).
Proof.
  intros src mp sp sol ip pc pp data Hset Hsim r r' Hf a t. destruct (C36_demography _ _ _ _ _ _ _ _ Hset Hsim r r' Hf) as (B & _ & A & S & _). split; [|split].
    + intros Ht. destruct (B Ht) as (row & p & d & H1 & H2 & H3 & _). exists row, p. split; [exact H1|]. split; [exact H2|exact (drawn_probability src p d H3)].
    + intros Ha. destruct (A Ha) as (pr & H1 & H2). exists pr. split; [exact H1|exact (drawn_probability src _ _ H2)].
    + intros Ha. destruct (S Ha) as (pr & s & H1 & H2 & _). exists pr. split; [exact H1|exact (drawn_probability src _ _ H2)].
Qed.
Print Assumptions C95_probabilities.

(** Shares of education levels that are no distribution stop the simulation, with the
    objection as error. *)
Theorem C95_education_shares :
  forall src mp sp sol ip pc pp biased sparse g e, valid_seed (seed_sim sp) -> (0 <= num_educ_levels sp)%Z ->
  objection (num_educ_levels sp) (Z.to_nat (num_agents_sim sp)) (ip_educ ip) e ->
  pyth_simulate (numpy_rng src sqrt) mp sp sol ip pc pp biased sparse g = Err e.
Proof. exact education_refused. Qed.
Print Assumptions C95_education_shares.

(** The same for the program: what it returns comes from distributions in the files and from
    shares of types that add up to 1. *)
Theorem C95_program :
  forall src roots s2 spi pa sa files biased sparse g h data g', arg_ok sa h ->
  snd (simulate_of (numpy_rng src sqrt) roots s2 spi pa sa files biased sparse g h) = Ok (data, g') ->
  exists df mp sp ip pc pp,
    read_model_params_init pa = Ok (df, mp) /\ snd (read_model_spec_init sa df h) = Ok sp /\ tables_of sp files ip pc pp /\
    distribution (num_educ_levels sp) (ip_educ ip) /\ distribution (num_types sp) (type_shares mp) /\
    forall e, (0 <= e < num_educ_levels sp)%Z -> exists pa pm pe pf,
      given_for (ip_child_age ip) e pa /\ distribution (child_age_init_max sp + 2) pa /\
      given_for (ip_partner_present ip) e pm /\ 0 <= pm <= 1 /\
      given_for (ip_exp_pt ip) e pe /\ distribution (init_exp_max sp + 1) pe /\
      given_for (ip_exp_ft ip) e pf /\ distribution (init_exp_max sp + 1) pf.
Proof.
  intros src roots s2 spi pa sa files biased sparse g h data g' Ha H.
  destruct (C54_simulation_of_the_solution _ _ _ _ _ _ _ _ _ _ _ _ _ Ha H) as (df & mp & sp & ip & pc & pp & zs & ws & g1 & sol & A & B & C & _ & _ & E).
  exists df, mp, sp, ip, pc, pp. split; [exact A|]. split; [exact B|]. split; [exact C|]. exact (simulation_distributions src _ _ _ _ _ _ _ _ _ _ E).
Qed.
Print Assumptions C95_program.

(** a simulation with numpy's generator that returns *)
Example C95_case : exists sol data g g',
  sim_setting (numpy_rng ex_source sqrt) flat_spec sol /\
  pyth_simulate (numpy_rng ex_source sqrt) kids_params flat_spec sol childless_ip ex_prob_child ex_prob_partner false false g = Ok (data, g') /\
  distribution (num_educ_levels flat_spec) (ip_educ childless_ip) /\ exists r, In r data.
Proof.
  destruct C73_case as (sol & data & _ & _ & _ & S & _ & (g & g' & E) & _ & _ & _ & _ & r & _ & Hr & _).
  exists sol, data, g, g'. split; [exact S|]. split; [exact E|]. split; [exact (proj1 (C95_entry_distributions _ _ _ _ _ _ _ _ _ _ _ E))|exists r; exact Hr].
Qed.

(** each objection occurs *)
Example C95_objections :
  objection 0 1 [] (ValueError "'a' cannot be empty unless no samples are taken") /\
  objection 3 10 [1/2; 1/2] (ValueError "'a' and 'p' must have same size") /\
  objection 3 10 [1; -1/2; 1/2] (ValueError "probabilities are not non-negative") /\
  objection 3 10 [1/3; 1/3; 1/3 + 1/1000] (ValueError "probabilities do not sum to 1") /\
  distribution 3 [1/3; 1/3; 1/3 + 1/1000000000].
Proof.
  split; [apply obj_empty; [reflexivity|discriminate]|]. split; [apply obj_size; [left; discriminate|discriminate]|].
  split; [apply (obj_negative _ _ _ (-1/2)); [left; discriminate|reflexivity|right; left; reflexivity|lra]|].
  split.
  - apply obj_sum; [left; discriminate|reflexivity|intros x Hx; in_list Hx; lra|].
    rewrite tolerance_value. unfold sum_of. cbn [fold_right]. unfold Rabs. destruct (Rcase_abs _); lra.
  - split; [lia|]. split; [reflexivity|]. split; [intros x Hx; in_list Hx; lra|].
    rewrite tolerance_value. unfold sum_of. cbn [fold_right]. unfold Rabs. destruct (Rcase_abs _); lra.
Qed.
