(** Model of soepy/simulate/simulate_python.py and of pyth_solve: the program from the
    caller's arguments to the data frame.  The caller's dictionaries live in the heap, the
    numpy generator is passed along. *)
From Verif Require Import Base Num M_Params M_Experience M_Tax M_NonEmployment M_StateSpace M_Solve M_Exog M_Sim M_Spec.
Local Open Scope string_scope.
Local Open Scope list_scope.
Open Scope Z_scope.

Section Main.
  Context {T : Type} {NT : Num T}.
  Context (rg : rng T) (roots_hermite : Z -> list T * list T) (sqrt2 sqrtpi : T).
  Local Notation "'let!' x := e 'in' f" := (hbind e (fun x => f))
    (at level 200, x pattern, e at level 100, f at level 200, right associativity).

  (** solve_python.py:26-45 *)
  Definition pyth_solve (states : list row) (covariates : list (cov T))
      (child_state_indexes : list (list (list (list Z)))) (mp : model_params T) (sp : model_spec T)
      (prob_child : list (list T)) (prob_partner : list (list (list (T * T)))) (biased_exp : bool)
      (g : rng_state rg) : result ((list (list T) * list (list (list T))) * rng_state rg) :=
    do (dw, g) <- get_integration_draws_and_weights rg roots_hermite sqrt2 sqrtpi sp g;
    do r <- solve sp states covariates child_state_indexes prob_child prob_partner
              (fst dw) (snd dw) biased_exp mp;
    Ok (r, g).

  (** simulate_python.py:42-43, 82-88 and 136-138 *)
  Definition read_model (pa : params_arg T) (sa : spec_arg T) : hm (T := T) (model_params T * model_spec T) :=
    let! (df, mp) := hlift (read_model_params_init pa) in
    let! sp := read_model_spec_init sa df in
    hlift (Ok (mp, sp)).

  (** what [get_simulate_func] returns: a function of the two arguments (it also reads the
      heap and advances the generator) *)
  Definition closure := params_arg T -> spec_arg T -> rng_state rg -> hm (T := T) (list (out_row T) * rng_state rg).

  (** simulate_python.py:34-114.  The files named in the specification are given by their
      contents. *)
  Definition get_simulate_func_of (pa : params_arg T) (sa : spec_arg T) (files : exog_files T)
      (biased_exp data_sparse : bool) (g : rng_state rg) : hm (T := T) (closure * rng_state rg) :=
    let! (_, sp) := read_model pa sa in
    let! (f, g) := hlift (get_simulate_func rg roots_hermite sqrt2 sqrtpi sp files biased_exp data_sparse g) in
    hlift (Ok (fun pa_inner sa_inner g =>
                 let! (mp_inner, sp_inner) := read_model pa_inner sa_inner in
                 hlift (f mp_inner sp_inner g), g)).

  (** simulate_python.py:16-31 *)
  Definition simulate_of (pa : params_arg T) (sa : spec_arg T) (files : exog_files T)
      (biased_exp data_sparse : bool) (g : rng_state rg) : hm (T := T) (list (out_row T) * rng_state rg) :=
    let! (f, g) := get_simulate_func_of pa sa files biased_exp data_sparse g in
    f pa sa g.

  (** simulate_python.py:117-165.  The argument prob_exp_years is not used. *)
  Definition partiable_simulate (solve_func : model_params T -> result (list (list T) * list (list (list T))))
      (ss : state_space T) (ip : init_probs T) (prob_child : list (list T))
      (prob_partner : list (list (list (T * T)))) (data_sparse : bool)
      (pa : params_arg T) (sa : spec_arg T) (g : rng_state rg) : hm (T := T) (list (out_row T) * rng_state rg) :=
    let! (mp, sp) := read_model pa sa in
    let! (non_cons, emaxs) := hlift (solve_func mp) in
    hlift (pyth_simulate rg mp sp
             (mkSolution (ss_states ss) (ss_indexer ss) (ss_covariates ss)
                (ss_child_age_update_rule ss) non_cons emaxs)
             ip prob_child prob_partner false data_sparse g).
End Main.
