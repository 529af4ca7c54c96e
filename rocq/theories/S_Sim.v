(** Vocabulary for statements about simulated data sets. *)
From Coq Require Import Reals.
From Verif Require Import Base Num M_Params M_StateSpace M_Exog M_Sim S_StateSpace S_Rng.
Open Scope Z_scope.

Section Vocabulary.
  Context {T : Type} {NT : Num T}.

  (** what the simulation requires of a specification *)
  Definition sim_spec_ok (sp : model_spec T) : Prop :=
    1 <= num_periods sp /\ 0 <= num_types sp /\ 0 <= child_age_max sp /\
    -1 <= child_age_init_max sp <= child_age_max sp /\
    num_educ_levels sp = zlen (educ_years sp) /\ (forall y, In y (educ_years sp) -> 0 <= y) /\
    0 <= num_agents_sim sp /\ valid_seed (seed_sim sp).

  (** the solution objects are those of this specification's state space; the value
      tables are arbitrary *)
  Definition solution_for (sp : model_spec T) (sol : solution T) : Prop :=
    exists ss, create_state_space_objects sp = Ok ss /\
      sol_states sol = ss_states ss /\ sol_indexer sol = ss_indexer ss /\
      sol_covariates sol = ss_covariates ss /\ sol_rule sol = ss_child_age_update_rule ss.

  (** a generator that keeps its contract, a specification the simulation accepts, and
      solution objects that belong to it *)
  Definition sim_setting (rg : rng T) (sp : model_spec T) (sol : solution T) : Prop :=
    rng_ok rg /\ sim_spec_ok sp /\ solution_for sp sol.

  (** [data] is the full data set of a simulation, whatever random numbers were drawn
      before *)
  Definition simulation (rg : rng T) (mp : model_params T) (sp : model_spec T) (sol : solution T)
      (ip : init_probs T) (pc : list (list T)) (pp : list (list (list (T * T))))
      (data : list (out_row T)) : Prop :=
    exists g g', pyth_simulate rg mp sp sol ip pc pp false false g = Ok (data, g').

  Definition row_id (r : out_row T) : Z := a_id (o_state r).
  Definition row_period (r : out_row T) : Z := a_period (o_state r).
  Definition row_key (r : out_row T) : Z * Z := (row_id r, row_period r).

  (** [r'] is the row of the same agent one period after [r] *)
  Definition follows (data : list (out_row T)) (r r' : out_row T) : Prop :=
    In r data /\ In r' data /\ row_id r' = row_id r /\ row_period r' = row_period r + 1.

  Definition agent_in_space (sp : model_spec T) (a : agent T) : Prop :=
    in_space sp (a_period a) (a_educ a) (a_lagged a) (a_type a) (a_age a) (a_partner a).

  Definition discrete_state (a : agent T) : row :=
    [a_period a; a_educ a; a_lagged a; a_type a; a_age a; a_partner a].

  (** element (t, k) of a matrix *)
  Definition element (m : list (list T)) (t k : nat) : option T :=
    match nth_error m t with Some r => nth_error r k | None => None end.

  (** the outcomes an agent does not choose *)
  Definition exogenous (a : agent T) : Z * Z * Z * Z * Z * Z :=
    (a_id a, a_period a, a_educ a, a_type a, a_age a, a_partner a).

  (** two specifications that describe the same exogenous world *)
  Definition same_world (sp1 sp2 : model_spec T) : Prop :=
    num_periods sp1 = num_periods sp2 /\ num_educ_levels sp1 = num_educ_levels sp2 /\
    num_types sp1 = num_types sp2 /\ educ_years sp1 = educ_years sp2 /\
    child_age_max sp1 = child_age_max sp2 /\ child_age_init_max sp1 = child_age_init_max sp2 /\
    init_exp_max sp1 = init_exp_max sp2 /\
    last_child_bearing_period sp1 = last_child_bearing_period sp2 /\
    seed_sim sp1 = seed_sim sp2 /\ num_agents_sim sp1 = num_agents_sim sp2.

  (** [z'] is [z] stored in a signed byte *)
  Definition as_int8 (z z' : Z) : Prop := -128 <= z' < 128 /\ exists k, z' = z + 256 * k.

  (** [r'] shows the shared columns of [r], the small integer columns stored in bytes *)
  Definition sparse_of (r r' : out_row T) : Prop :=
    let a := o_state r in let a' := o_state r' in
    o_full r' = None /\ o_wage r' = o_wage r /\ as_int8 (o_choice r) (o_choice r') /\
    a_id a' = a_id a /\ a_stock a' = a_stock a /\ a_type a' = a_type a /\ a_partner a' = a_partner a /\
    as_int8 (a_period a) (a_period a') /\ as_int8 (a_educ a) (a_educ a') /\
    as_int8 (a_lagged a) (a_lagged a') /\ as_int8 (a_exp_pt a) (a_exp_pt a') /\
    as_int8 (a_exp_ft a) (a_exp_ft a') /\ as_int8 (a_age a) (a_age a').
End Vocabulary.
