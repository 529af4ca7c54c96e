(** Model of the two library searches behind [jnp.searchsorted(grid, x, side="right")]
    (interpolation.py:31) and [cdf.searchsorted(uniform_samples, side="right")] (numpy's
    [choice]).  M_Experience.v and M_Numpy.v count entries instead; T_Search.v shows that this is
    the same for sorted arrays.  The sources of both libraries are not in the repository; the
    functions transcribed are named at each definition. *)
From Coq Require Import ZArith List.
From Verif Require Import Base Num M_Experience M_Numpy.
Import ListNotations.

Section Model.
  Context {T : Type} {NT : Num T}.
  Local Open Scope num_scope.

  (** jax/_src/numpy/lax_numpy.py [_searchsorted_via_scan], the default method, [body_fun];
      [op] is "less than" for side="right" *)
  Definition search_step (sorted_arr : list T) (query : T) (state : Z * Z) : Z * Z :=
    let (low, high) := state in
    let mid := ((low + high) / 2)%Z in
    let go_left := query <? aget sorted_arr mid in
    (if go_left then low else mid, if go_left then mid else high).

  (** [_searchsorted_via_scan]: n_levels = int(ceil(log2(len(sorted_arr) + 1))) rounds from
      (0, len(sorted_arr)), then the second component *)
  Definition jnp_searchsorted_right (sorted_arr : list T) (query : T) : Z :=
    let n_levels := Z.to_nat (Z.log2_up (zlen sorted_arr + 1)) in
    snd (Nat.iter n_levels (search_step sorted_arr query) (0%Z, zlen sorted_arr)).

  (** interpolation.py:13-45 with jax's search *)
  Definition linear_interp_1d_search (grid values : list T) (x : T) : T :=
    let idx_hi := jnp_searchsorted_right grid x in
    let idx_hi := Z.min (Z.max idx_hi 1) (zlen grid - 1) in
    let idx_lo := (idx_hi - 1)%Z in
    let x_lo := aget grid idx_lo in
    let x_hi := aget grid idx_hi in
    let v_lo := aget values idx_lo in
    let v_hi := aget values idx_hi in
    let denom := x_hi - x_lo in
    let weight := if #0 <? denom then (x - x_lo) / denom else #0 in
    v_lo + weight * (v_hi - v_lo).

  (** numpy/core/src/npysort/binsearch.cpp [binsearch] with side right: the loop
      [while (min_idx < max_idx)], at most [fuel] rounds of it *)
  Fixpoint binsearch_loop (fuel : nat) (arr : list T) (key : T) (min_idx max_idx : Z) : Z * Z :=
    match fuel with
    | O => (min_idx, max_idx)
    | S fuel =>
        if (min_idx <? max_idx)%Z then
          let mid_idx := (min_idx + Z.shiftr (max_idx - min_idx) 1)%Z in
          if aget arr mid_idx <=? key then binsearch_loop fuel arr key (mid_idx + 1)%Z max_idx
          else binsearch_loop fuel arr key min_idx mid_idx
        else (min_idx, max_idx)
    end.

  (** [binsearch]: the loop over keys; the search for a key starts from the result for the key
      before it.  The number of entries bounds the rounds (T_Search.v shows that the loop has
      ended by then). *)
  Fixpoint binsearch_keys (arr : list T) (last_key : T) (min_idx max_idx : Z) (keys : list T) : list Z :=
    match keys with
    | [] => []
    | key :: keys =>
        let '(min_idx, max_idx) :=
          if last_key <=? key then (min_idx, zlen arr)
          else (0%Z, if (max_idx <? zlen arr)%Z then (max_idx + 1)%Z else zlen arr) in
        let '(min_idx, max_idx) := binsearch_loop (List.length arr) arr key min_idx max_idx in
        min_idx :: binsearch_keys arr key min_idx max_idx keys
    end.
  Definition np_searchsorted_right (arr keys : list T) : list Z :=
    match keys with [] => [] | key :: _ => binsearch_keys arr key 0 (zlen arr) keys end.

  (** mtrand.pyx [choice(a, size, replace=True, p)] with numpy's search *)
  Definition np_choice_search (src : random_source T) (g : src_state src) (vals : list Z) (n : nat) (p : list T)
      : result (list Z * src_state src) :=
    if (zlen vals =? 0)%Z && negb (Nat.eqb n 0)
      then Err (ValueError "'a' cannot be empty unless no samples are taken")
    else if negb (zlen p =? zlen vals)%Z then Err (ValueError "'a' and 'p' must have same size")
    else if existsb (fun x => x <? #0) p then Err (ValueError "probabilities are not non-negative")
    else if nlit 1 67108864 <? nabs (kahan_sum p - #1)
      then Err (ValueError "probabilities do not sum to 1")
    else
      let cdf := cumsum p in
      let cdf := map (fun c => c / last cdf #0) cdf in
      let (us, g) := uniforms src n g in
      do idx <- mapM (np_get vals) (np_searchsorted_right cdf us);
      Ok (idx, g).
End Model.
