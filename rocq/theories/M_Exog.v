(** Model of soepy/exogenous_processes/*.py, soepy/shared/numerical_integration.py and
    of the interface of numpy.random's global generator. *)
From Verif Require Import Base Num M_Params M_Experience.

(** *** numpy.random's global generator (not project code).
    An abstract state machine.  [choice] and [binomial] may raise ValueError
    (malformed probabilities). *)
Record rng (T : Type) := mkRng {
  rng_state : Type;
  rng_seed : Z -> rng_state;                               (* np.random.seed(s) *)
  rng_choice : rng_state -> list Z -> nat -> list T ->      (* values, size, p *)
               result (list Z * rng_state);
  rng_binomial : rng_state -> list T ->                     (* n=1, one p per draw *)
               result (list Z * rng_state);
  rng_normal : rng_state -> nat -> nat ->                   (* (rows, columns), N(0,1) *)
               list (list T) * rng_state
}.
Arguments rng_state {T}. Arguments rng_seed {T}. Arguments rng_choice {T}.
Arguments rng_binomial {T}. Arguments rng_normal {T}.

Section Model.
  Context {T : Type} {NT : Num T}.
  Local Open Scope num_scope.

  (** a python number k as upper slice bound [0:k] on an axis of length n: number of
      selected entries *)
  Definition slice_to (n k : Z) : Z := if (k <? 0)%Z then Z.max 0 (n + k) else Z.min k n.

  (** numpy [values.reshape(a, b)] of a flat array *)
  Definition reshape2 (a b : Z) (flat : list T) : result (list (list T)) :=
    if (zlen flat =? a * b)%Z then Ok (chunks (Z.to_nat a) (Z.to_nat b) flat)
    else Err (ValueError "cannot reshape array").

  (** exogenous_processes/children.py:21-40.  The pickled frame is given as its rows
      (index level "period", row values). *)
  Definition gen_prob_child_vector (sp : model_spec T) (df : list (Z * list T))
      : result (list (list T)) :=
    let df := filter (fun r => fst r <? num_periods sp)%Z df in
    do prob_child_values <- reshape2 (num_periods sp) 3 (flat_map snd df);
    let k := slice_to (num_periods sp)
               (Z.min (last_child_bearing_period sp + 1) (num_periods sp)) in
    let prob_child :=
      map (fun t => if (t <? k)%Z
                    then map (fun v => #0 + v) (nth (Z.to_nat t) prob_child_values [])
                    else repeat #0 3)
          (range (num_periods sp)) in
    Ok prob_child.

  (** exogenous_processes/children.py:43-56 and experience.py:22-37 share this code.
      The frame is given as its rows (index level "educ_level", share). *)
  Definition fix_first (l : list T) : result (list T) :=
    match l with
    | [] => Err IndexError
    | _ :: rest => Ok ((#1 - nsum rest) :: rest)
    end.
  Definition shares_by_educ (num_educ : Z) (df : list (Z * T)) : result (list (list T)) :=
    mapM (fun e => fix_first (map snd (filter (fun r => fst r =? e)%Z df))) (range num_educ).

  (** exogenous_processes/children.py:43-56 *)
  Definition gen_prob_child_init_age_vector (sp : model_spec T) (df : list (Z * T)) :=
    shares_by_educ (num_educ_levels sp) df.

  (** exogenous_processes/experience.py:22-37 *)
  Definition gen_prob_init_exp_component_vector (sp : model_spec T) (df : list (Z * T)) :=
    shares_by_educ (num_educ_levels sp) df.

  (** np.convolve(a, v) (mode "full") *)
  Definition convolve (a v : list T) : list T :=
    map (fun k => nsum (map (fun i => nth i a #0 *
                                      (if Nat.leb i k then nth (k - i) v #0 else #0))
                            (seq 0 (List.length a))))
        (seq 0 (List.length a + List.length v - 1)).

  (** exogenous_processes/experience.py:40-62 *)
  Definition gen_prob_init_exp_years_vector (sp : model_spec T) (df_ft df_pt : list (Z * T))
      : result (list (list T)) :=
    do prob_ft <- gen_prob_init_exp_component_vector sp df_ft;
    do prob_pt <- gen_prob_init_exp_component_vector sp df_pt;
    let max_years := (2 * init_exp_max sp)%Z in
    mapM (fun e =>
      do p_ft <- np_get prob_ft e;
      do p_pt <- np_get prob_pt e;
      let p := convolve p_ft p_pt in
      let p := firstn (Z.to_nat (slice_to (zlen p) (max_years + 1))) p in
      let s := nsum p in
      Ok (map (fun x => x / s) p)) (range (num_educ_levels sp)).

  (** exogenous_processes/partner.py:7-41.  Frames as rows (index level "period",
      value).  [.loc[(range(P), slice(None)), :]] takes the rows of periods 0..P-1 period
      by period, within a period in file order (pandas reorders by the given labels if the
      index is not sorted; it raises KeyError for an absent period, here the reshape error). *)
  Definition gen_prob_partner (sp : model_spec T) (df_arrival df_separation : list (Z * T))
      : result (list (list (list (T * T)))) :=
    let sel := fun df : list (Z * T) =>
      flat_map (fun t => map snd (filter (fun r => fst r =? t)%Z df)) (range (num_periods sp)) in
    do arrival <- reshape2 (num_periods sp) (num_educ_levels sp) (sel df_arrival);
    do separation <- reshape2 (num_periods sp) (num_educ_levels sp) (sel df_separation);
    Ok (map2 (map2 (fun a s => [(#1 - a, a); (s, #1 - s)])) arrival separation).

  (** exogenous_processes/partner.py:44-50 *)
  Definition gen_prob_partner_present_vector (df : list (list T)) : list T := List.concat df.

  (** exogenous_processes/education.py:6-14 *)
  Definition gen_prob_educ_level_vector (df : list T) : list T := df.

  (** *** numerical_integration.py *)
  Section Integration.
    Context (rg : rng T) (roots_hermite : Z -> list T * list T) (sqrt2 sqrtpi : T).

    (** np.random.seed (called in numerical_integration.py:32 and simulate_auxiliary.py:41):
        numpy accepts seeds of 32 bits *)
    Definition np_seed (seed : Z) : result (rng_state rg) :=
      if ((0 <=? seed) && (seed <? 4294967296))%Z then Ok (rng_seed rg seed)
      else Err (ValueError "Seed must be between 0 and 2**32 - 1").

    (** numpy refuses negative sizes *)
    Definition np_size (n : Z) : result nat :=
      if (n <? 0)%Z then Err (ValueError "negative dimensions are not allowed") else Ok (Z.to_nat n).

    (** numerical_integration.py:27-39; the generator is re-seeded *)
    Definition draw_zero_one_distributed_shocks (seed num_periods_ num_draws : Z)
        : result (list (list T) * rng_state rg) :=
      do g <- np_seed seed;
      do n <- np_size num_periods_;
      do m <- np_size num_draws;
      Ok (rng_normal rg g n m).

    (** numerical_integration.py:5-24; [sqrt2], [sqrtpi] are np.sqrt(2), np.sqrt(np.pi);
        scipy's roots_hermite refuses n < 1. *)
    Definition get_integration_draws_and_weights (sp : model_spec T) (g : rng_state rg)
        : result ((list T * list T) * rng_state rg) :=
      if String.eqb (integration_method sp) "quadrature" then
        if (num_draws_emax sp <? 1)%Z then Err (ValueError "n must be a positive integer.") else
        let '(standard_draws, w) := roots_hermite (num_draws_emax sp) in
        Ok ((map (fun d => d * sqrt2) standard_draws, map (fun x => x * (#1 / sqrtpi)) w), g)
      else if String.eqb (integration_method sp) "monte_carlo" then
        do (m, g) <- draw_zero_one_distributed_shocks (seed_emax sp) 1 (num_draws_emax sp);
        do draws <- np_get m 0;
        Ok ((draws, repeat (#1 / #(num_draws_emax sp)) (Z.to_nat (num_draws_emax sp))), g)
      else Err (ValueError ("Integration method " ++ integration_method sp ++ " not specified.")%string).
  End Integration.
End Model.
