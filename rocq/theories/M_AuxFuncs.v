(** soepy/test/resources/aux_funcs.py: the summary statistic the test suite computes from a
    simulated data set.  The rows of the frame carry one index entry each, in the same order
    in all series involved, so series operations are element by element. *)
From Verif Require Import Base Num M_Sim.
Open Scope Z_scope.

Section Model.
  Context {T : Type} {NT : Num T}.
  Local Open Scope num_scope.

  (** data["Flow_Utility_N"], "_P", "_F" for j = 0, 1, 2; the columns exist only in the full
      output *)
  Definition flow_column (name : string) (j : nat) (data : list (out_row T)) : result (list T) :=
    mapM (fun r => match o_full r with
                   | Some f => match nth_error (f_flow f) j with Some u => Ok u | None => Err (KeyError name) end
                   | None => Err (KeyError name)
                   end) data.

  (** aux_funcs.py:5-9 *)
  Definition create_chosen_flow_util (data : list (out_row T)) : result (list T) :=
    do out <- flow_column "Flow_Utility_N" 0 data;
    let part := map (fun r => o_choice r =? 1)%Z data in
    do flow_p <- flow_column "Flow_Utility_P" 1 data;
    let out := mask_assign part out (mask_select part flow_p) in
    let full := map (fun r => o_choice r =? 2)%Z data in
    do flow_f <- flow_column "Flow_Utility_F" 2 data;
    Ok (mask_assign full out (mask_select full flow_f)).

  (** delta ** k for an integer k that is not negative *)
  Fixpoint int_power (delta : T) (k : nat) : T :=
    match k with O => #1 | S k' => delta * int_power delta k' end.

  (** the sorted, distinct keys of a groupby *)
  Fixpoint insert_key (k : Z) (l : list Z) : list Z :=
    match l with
    | [] => [k]
    | x :: l' => if (k <? x)%Z then k :: l else if (k =? x)%Z then l else x :: insert_key k l'
    end.
  Definition group_keys (ids : list Z) : list Z := fold_right insert_key [] ids.

  (** series.groupby(ids).sum(): the sum of each group, by increasing key.  Rounding of the
      sums (pandas compensates it) is not modelled *)
  Definition group_sums (ids : list Z) (values : list T) : list T :=
    map (fun k => nsum (map snd (filter (fun q => fst q =? k)%Z (combine ids values)))) (group_keys ids).

  (** .mean(): None is NaN, the mean of nothing *)
  Definition series_mean (l : list T) : option T :=
    match l with [] => None | _ => Some (nsum l / #(zlen l)) end.

  (** aux_funcs.py:12-17 *)
  Definition create_disc_sum_av_utility (data : list (out_row T)) (delta : T) : result (option T) :=
    do flow_util <- create_chosen_flow_util data;
    let terms := map2 (fun u r => u * int_power delta (Z.to_nat (a_period (o_state r)))) flow_util data in
    Ok (series_mean (group_sums (map (fun r => a_id (o_state r)) data) terms)).
End Model.
