(** soepy/test/test_value_function_simulation_consistency.py: the two numbers the test compares.
    The files, dictionary and parameters of the test are in X_Consistency.v.  As in M_AuxFuncs.v
    all series carry the same index, so series operations are element by element. *)
From Verif Require Import Base Num M_Sim M_AuxFuncs.
Open Scope Z_scope.

Section Model.
  Context {T : Type} {NT : Num T}.
  Local Open Scope num_scope.

  (** np.where(cond, x, y) for arrays of equal length *)
  Definition np_where (cond : list bool) (x y : list T) : list T :=
    map2 (fun (b : bool) (p : T * T) => if b then fst p else snd p) cond (combine x y).

  (** test_value_function_simulation_consistency.py:197-204 *)
  Definition chosen_where (data : list (out_row T)) : result (list T) :=
    do flow_n <- flow_column "Flow_Utility_N" 0 data;
    let choice := map o_choice data in
    do flow_p <- flow_column "Flow_Utility_P" 1 data;
    do flow_f <- flow_column "Flow_Utility_F" 2 data;
    let flow_chosen := np_where (map (fun c => c =? 1)%Z choice) flow_p flow_n in
    Ok (np_where (map (fun c => c =? 2)%Z choice) flow_f flow_chosen).

  (** the keys of groupby(..., sort=False), in order of appearance *)
  Definition keys_unsorted (ids : list Z) : list Z :=
    fold_left (fun seen k => if existsb (Z.eqb k) seen then seen else seen ++ [k]) ids [].
  (** :211-213, sums by group; rounding of the sums is not modelled *)
  Definition group_sums_unsorted (ids : list Z) (values : list T) : list T :=
    map (fun k => nsum (map snd (filter (fun q => fst q =? k)%Z (combine ids values)))) (keys_unsorted ids).

  (** df0[["Value_Function_N", "Value_Function_P", "Value_Function_F"]].max(axis=1) for one row (:218) *)
  Definition row_best (r : out_row T) : result T :=
    match o_full r with
    | Some f => match f_value f with
                | [n; p; w] => Ok (nmax (nmax n p) w)
                | _ => Err (KeyError "Value_Function_N")
                end
    | None => Err (KeyError "Value_Function_N")
    end.

  (** :206-219, mean_disc_sum and mean_v0; np.power(delta, Period) for periods that are not
      negative *)
  Definition compared (data : list (out_row T)) (delta : T) : result (option T * option T) :=
    do flow_chosen <- chosen_where data;
    let disc := map (fun r => int_power delta (Z.to_nat (a_period (o_state r)))) data in
    let mean_disc_sum := series_mean (group_sums_unsorted (map (fun r => a_id (o_state r)) data) (map2 nmul flow_chosen disc)) in
    let df0 := filter (fun r => a_period (o_state r) =? 0)%Z data in
    do v0 <- mapM row_best df0;
    Ok (mean_disc_sum, series_mean v0).

  (** np.testing.assert_allclose(actual, desired, rtol): NaN equals NaN *)
  Definition assert_allclose (actual desired : option T) (rtol : T) : result unit :=
    match actual, desired with
    | Some a, Some b => if nabs (a - b) <=? rtol * nabs b then Ok tt else Err AssertionError
    | None, None => Ok tt
    | _, _ => Err AssertionError
    end.

  (** :194-221 *)
  Definition consistency_test (data : list (out_row T)) (delta : T) : result unit :=
    do m <- compared data delta;
    assert_allclose (fst m) (snd m) (nlit 1 100000).
End Model.
