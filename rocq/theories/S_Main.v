(** Vocabulary for statements about the whole program. *)
From Coq Require Import Reals ZArith List String.
From Verif Require Import Base Num M_Params M_StateSpace M_Exog M_Sim M_Spec M_Main S_Rng S_Sim S_SimInputs S_StateSpace S_Bellman S_Solver S_Exog S_Spec S_Interp.
Import ListNotations.
Open Scope R_scope.

(** the caller's specification argument refers to existing objects *)
Definition arg_ok (sa : spec_arg R) (h : heap R) : Prop :=
  closed (fst (source sa h)) /\ (snd (source sa h) < List.length (fst (source sa h)))%nat.

(** shares of n values for every education level; the first share is not used (the program
    replaces it by the remainder) *)
Definition share_file (levels n : Z) (file : list (Z * R)) : Prop :=
  forall e, (0 <= e < levels)%Z -> zlen (of_level e file) = n /\
    (forall x, In x (tl (of_level e file)) -> 0 <= x) /\ total (tl (of_level e file)) <= 1.

(** files with probabilities of the right dimensions *)
Record files_ok (sp : model_spec R) (files : exog_files R) : Prop := {
  fo_educ : proper (num_educ_levels sp) (xf_educ files);
  fo_age : share_file (num_educ_levels sp) (child_age_init_max sp + 2) (xf_child_age files);
  fo_pt : share_file (num_educ_levels sp) (init_exp_max sp + 1) (xf_exp_pt files);
  fo_ft : share_file (num_educ_levels sp) (init_exp_max sp + 1) (xf_exp_ft files);
  fo_partner : zlen (List.concat (xf_partner_present files)) = num_educ_levels sp /\
    forall x, In x (List.concat (xf_partner_present files)) -> 0 <= x <= 1;
  fo_levels : (1 <= num_educ_levels sp <= 3)%Z;
  fo_last_child : (-1 <= last_child_bearing_period sp)%Z;
  fo_births : exists p n, (num_periods sp <= n)%Z /\ lists_periods p 3 n (xf_child files) /\ forall t e, 0 <= p t e <= 1;
  fo_arrival : exists p n, (num_periods sp <= n)%Z /\ lists_values p (num_educ_levels sp) n (xf_arrival files) /\
    forall t e, 0 <= p t e <= 1;
  fo_separation : exists p n, (num_periods sp <= n)%Z /\ lists_values p (num_educ_levels sp) n (xf_separation files) /\
    forall t e, 0 <= p t e <= 1
}.

Definition method_known (sp : model_spec R) : Prop :=
  integration_method sp = "quadrature"%string \/ integration_method sp = "monte_carlo"%string.

(** the draws for the integration over shocks exist *)
Definition integration_ok (sp : model_spec R) : Prop :=
  (integration_method sp = "quadrature"%string /\ (1 <= num_draws_emax sp)%Z) \/
  (integration_method sp = "monte_carlo"%string /\ (0 <= num_draws_emax sp)%Z /\ valid_seed (seed_emax sp)).

(** parameters and specification with which solution and simulation can be carried out *)
Record runnable (mp : model_params R) (sp : model_spec R) : Prop := {
  ru_spec : spec_ok sp;
  ru_sim : sim_spec_ok sp;
  ru_params : params_ok sp mp;
  ru_types : proper (num_types sp) (type_shares mp);
  ru_method : integration_ok sp
}.

(** the state space and the grid have at least one element *)
Definition some_state (sp : model_spec R) : Prop :=
  (1 <= num_periods sp)%Z /\ (1 <= num_educ_levels sp)%Z /\ (1 <= num_types sp)%Z /\ (-1 <= child_age_max sp)%Z /\ exp_grid sp <> [].

(** the tables computed from the files *)
Definition tables_of (sp : model_spec R) (files : exog_files R) (ip : init_probs R) (pc : list (list R))
    (pp : list (list (list (R * R)))) : Prop :=
  gen_prob_child_init_age_vector sp (xf_child_age files) = Ok (ip_child_age ip) /\
  gen_prob_init_exp_component_vector sp (xf_exp_pt files) = Ok (ip_exp_pt ip) /\
  gen_prob_init_exp_component_vector sp (xf_exp_ft files) = Ok (ip_exp_ft ip) /\
  gen_prob_educ_level_vector (xf_educ files) = ip_educ ip /\
  gen_prob_partner_present_vector (xf_partner_present files) = ip_partner_present ip /\
  gen_prob_child_vector sp (xf_child files) = Ok pc /\
  gen_prob_partner sp (xf_arrival files) (xf_separation files) = Ok pp.

(** the numbers a caller has chosen are admissible *)
Record usable (sp : model_spec R) : Prop := {
  us_periods : (1 <= num_periods sp)%Z;
  us_ages : (0 <= child_age_max sp)%Z /\ (-1 <= child_age_init_max sp <= child_age_max sp)%Z;
  us_exp : (0 <= init_exp_max sp)%Z;
  us_grid : S_Interp.increasing (exp_grid sp) /\ exp_grid sp <> [];
  us_educ : num_educ_levels sp = zlen (educ_years sp) /\ forall y, In y (educ_years sp) -> (0 <= y)%Z;
  us_agents : (0 <= num_agents_sim sp)%Z /\ valid_seed (seed_sim sp);
  us_regime : regime_known sp;
  us_method : integration_ok sp
}.

(** shares of the types besides the baseline *)
Definition shares_ok (n : nat) (share : nat -> R) : Prop :=
  (forall i, (1 <= i <= n)%nat -> 0 <= share i) /\ total (map share (seq 1 n)) <= 1.
