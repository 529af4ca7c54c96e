(** Simulations in arithmetic of finite precision (C86): vocabulary. *)
From Coq Require Import Reals ZArith List.
From Verif Require Import Base Num M_Params M_StateSpace M_Solve M_Exog M_Sim S_Bellman S_Rng S_Sim S_SimEntry S_Precise.
Import ListNotations.
Open Scope R_scope.

(** Zero is represented exactly and products of non-negative numbers are not negative.
    Without this the lookup of the simulation could be asked for element -1 of a table. *)
Record keeps_sign (N : Num R) : Prop := {
  ks_zero : @nofZ R N 0 = 0;
  ks_mul : forall x y, 0 <= x -> 0 <= y -> 0 <= @nmul R N x y }.

(** [data] is what solving the model and simulating it with generator [rg] reports *)
Definition computed {NT : Num R} (rg : rng R) (sp : model_spec R) (mp : model_params R) (biased : bool) (zs ws : list R)
    (ip : init_probs R) (pc : list (list R)) (pp : list (list (list (R * R)))) (data : list (out_row R)) : Prop :=
  exists ss leisure_table value_table,
    create_state_space_objects sp = Ok ss /\
    solve sp (ss_states ss) (ss_covariates ss) (ss_child_state_indexes ss) pc pp zs ws biased mp = Ok (leisure_table, value_table) /\
    simulation rg mp sp (mkSolution (ss_states ss) (ss_indexer ss) (ss_covariates ss) (ss_child_age_update_rule ss)
                           leisure_table value_table) ip pc pp data.

(** the standard normal draws behind the wage shocks, [period][position] *)
Definition normals (rg : rng R) (sp : model_spec R) : list (list R) :=
  fst (rng_normal rg (rng_seed rg (seed_sim sp)) (Z.to_nat (num_periods sp)) (Z.to_nat (num_agents_sim sp))).

(** in every row one alternative is strictly better than the others *)
Definition decisive (data : list (out_row R)) : Prop :=
  forall r, In r data -> exists f, o_full r = Some f /\
    forall c, (0 <= c < 3)%Z -> c <> o_choice r -> at_ (f_value f) c < at_ (f_value f) (o_choice r).

(** the integer columns an agent starts with beside the exogenous ones *)
Definition start (a : agent R) : Z * Z * Z := (a_lagged a, a_exp_pt a, a_exp_ft a).

(** the same agents live the same exogenous lives, and start alike *)
Definition same_lives (data data' : list (out_row R)) : Prop :=
  Forall2 (fun r r' => exogenous (o_state r') = exogenous (o_state r) /\
                       (entry_row data r -> start (o_state r') = start (o_state r))) data data'.

(** rows that agree in all integer columns and nearly in all others *)
Definition full_near (eps : R) (f f' : full_cols R) : Prop :=
  close eps (f_male_wage f) (f_male_wage f') /\ close1 eps (f_non_cons f) (f_non_cons f') /\
  close1 eps (f_flow f) (f_flow f') /\ close1 eps (f_cont f) (f_cont f') /\ close1 eps (f_value f) (f_value f').
Definition option_near {X} (P : X -> X -> Prop) (o o' : option X) : Prop :=
  match o, o' with
  | Some x, Some x' => P x x'
  | None, None => True
  | _, _ => False
  end.
Definition row_near (eps : R) (r r' : out_row R) : Prop :=
  exogenous (o_state r') = exogenous (o_state r) /\ start (o_state r') = start (o_state r) /\
  o_choice r' = o_choice r /\ close eps (a_stock (o_state r)) (a_stock (o_state r')) /\
  option_near (close eps) (o_wage r) (o_wage r') /\ option_near (full_near eps) (o_full r) (o_full r').
