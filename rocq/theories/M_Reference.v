(** Model of soepy/test/test_full_solve_continuous.py: the second implementation of the
    solution (numpy loops) against which the test compares the solver. *)
From Verif Require Import Base Num M_Params M_Experience M_StateSpace.

Section Model.
  Context {T : Type} {NT : Num T}.
  Local Open Scope num_scope.

  (** np.linspace(0.0, 1.0, n): multiples of 1 / (n - 1), the last point is set to 1 *)
  Definition linspace01 (n : Z) : list T :=
    if (n <=? 1)%Z then repeat #0 (Z.to_nat n)
    else map (fun i => #i * (#1 / #(n - 1))) (range (n - 1)) ++ [#1].

  (** np.interp(x, xp, fp) for one x and increasing xp: constant outside, fp[j] at a grid
      point, slope * (x - xp[j]) + fp[j] in between. *)
  Fixpoint np_interp (xp fp : list T) (x : T) : T :=
    match xp, fp with
    | x0 :: ((x1 :: _) as xp'), v0 :: ((v1 :: _) as fp') =>
        if x <=? x0 then v0
        else if x <? x1 then (v1 - v0) / (x1 - x0) * (x - x0) + v0
        else np_interp xp' fp' x
    | _, v0 :: _ => v0
    | _, [] => #0
    end.

  (** test_full_solve_continuous.py:105-115 (_next_stock_np) *)
  Definition next_stock_np (x : T) (period init_exp_max_ : Z) (pt_inc : T) (choice : Z) : T :=
    let max_years_t := #init_exp_max_ + nmax #period (#period * pt_inc) in
    let exp_years := x * max_years_t in
    let exp_years_next := exp_years + b2n (choice =? 2)%Z * #1 + b2n (choice =? 1)%Z * pt_inc in
    let max_years_tp1 := #init_exp_max_ + nmax #(period + 1) (#(period + 1) * pt_inc) in
    let denom := if #0 <? max_years_tp1 then max_years_tp1 else #1 in
    nclip (exp_years_next / denom) #0 #1.

  (** child_local_t[i, choice, b, m] of one state i *)
  Definition local_index (child_local : list (list (list Z))) (choice b m : Z) : result Z :=
    do x <- np_get child_local choice; do y <- np_get x b; np_get y m.

  (** test_full_solve_continuous.py:184-216: the loop over the choices.  [last] is
      t == n_periods - 1. *)
  Definition reference_continuation (sp : model_spec T) (grid : list T) (v_next_grid : list (list T)) (t : Z) (last : bool)
      (child_local : list (list (list Z))) (pt_inc p_child : T) (p_partner : T * T) (choice : Z) : result (list T) :=
    if last then Ok (map (fun _ => #0) grid)
    else
      let x_next := map (fun x => next_stock_np x t (init_exp_max sp) pt_inc choice) grid in
      do idx00 <- local_index child_local choice 0 0;
      do idx01 <- local_index child_local choice 0 1;
      do idx10 <- local_index child_local choice 1 0;
      do idx11 <- local_index child_local choice 1 1;
      do row00 <- np_get v_next_grid idx00;
      do row01 <- np_get v_next_grid idx01;
      do row10 <- np_get v_next_grid idx10;
      do row11 <- np_get v_next_grid idx11;
      let no_child := #1 - p_child in
      Ok (map (fun x => no_child * (fst p_partner * np_interp grid row00 x + snd p_partner * np_interp grid row01 x)
                        + p_child * (fst p_partner * np_interp grid row10 x + snd p_partner * np_interp grid row11 x)) x_next).

  (** test_full_solve_continuous.py:163-244: the body of the loop over the states of a
      period; the result is [grid][4]. *)
  Definition reference_state (mp : model_params T) (sp : model_spec T) (grid : list T) (v_next_grid : list (list T))
      (t : Z) (last : bool) (prob_child_t : list T) (prob_partner_t : list (list (T * T)))
      (state : row) (covariate : cov T) (child_local : list (list (list Z))) : result (list (list T)) :=
    let educ := col EDUC_LEVEL state in
    let partner := col PARTNER state in
    let pt_inc := get_pt_increment mp educ (col AGE_YOUNGEST_CHILD state) false in
    do p_child <- np_get prob_child_t educ;
    do p_row <- np_get prob_partner_t educ;
    do p_partner <- np_get p_row partner;
    do continuation_values <- mapM (reference_continuation sp grid v_next_grid t last child_local pt_inc p_child p_partner) [0; 1; 2]%Z;
    let max_years_t := #(init_exp_max sp) + nmax #t (#t * pt_inc) in
    let gamma_0_ := aget (gamma_0 mp) educ in
    let gamma_1_ := aget (gamma_1 mp) educ in
    let equiv := cov_equiv covariate in
    let floor := nlit 1 100000000000000 in
    Ok (map (fun g =>
          let exp_years := aget grid g * max_years_t in
          let log_wage := gamma_0_ + gamma_1_ * nln (exp_years + #1) in
          let female_wage_pt := hours_of 1 * nexp log_wage in
          let female_wage_ft := hours_of 2 * nexp log_wage in
          let cons_pt := nmax (female_wage_pt / equiv) floor in
          let cons_ft := nmax (female_wage_ft / equiv) floor in
          let c0 := aget (jget [] continuation_values 0) g in
          let c1 := aget (jget [] continuation_values 1) g in
          let c2 := aget (jget [] continuation_values 2) g in
          let val0 := delta mp * c0 in
          let val1 := cons_pt + delta mp * c1 in
          let val2 := cons_ft + delta mp * c2 in
          [c0; c1; c2; nmax val0 (nmax val1 val2)])
        (range (zlen grid))).

  (** test_full_solve_continuous.py:146-244, the work for period t: the blocks of the
      period, the indexes made local to the next block (:136-140), the states one by one.
      (As in [make_period_data] the blocks are taken without the check of the sizes by
      reshape.) *)
  Definition reference_period (mp : model_params T) (sp : model_spec T) (grid : list T)
      (states : list row) (covariates : list (cov T)) (child_state_indexes : list (list (list (list Z))))
      (prob_child : list (list T)) (prob_partner : list (list (list (T * T))))
      (t : Z) (emaxs_next : list (list (list T))) : result (list (list (list T))) :=
    let n_periods := num_periods sp in
    let n := (zlen states / n_periods)%Z in
    let block {A} (l : list A) := nth (Z.to_nat t) (chunks (Z.to_nat n_periods) (Z.to_nat n) l) [] in
    let local := map (map (map (map (fun v => v - (t + 1) * n)%Z))) (block child_state_indexes) in
    do prob_child_t <- np_get prob_child t;
    do prob_partner_t <- np_get prob_partner t;
    let v_next_grid := map (map (fun quad => aget quad 3)) emaxs_next in
    mapM (fun '(state, covariate, child_local) =>
            reference_state mp sp grid v_next_grid t (t =? n_periods - 1)%Z prob_child_t prob_partner_t state covariate child_local)
         (combine (combine (block states) (block covariates)) local).

  (** test_full_solve_continuous.py:146, 247-248: the loop over the periods, the last first *)
  Fixpoint reference_loop (step : Z -> list (list (list T)) -> result (list (list (list T))))
      (init : list (list (list T))) (ts : list Z) : result (list (list (list (list T)))) :=
    match ts with
    | [] => Ok []
    | t :: ts' =>
        do later <- reference_loop step init ts';
        do cur <- step t (match later with [] => init | next :: _ => next end);
        Ok (cur :: later)
    end.

  (** test_full_solve_continuous.py:118-250 (_reference_solve); [n_grid] is
      model_spec.experience_grid_points. *)
  Definition reference_solve (states : list row) (covariates : list (cov T)) (child_state_indexes : list (list (list (list Z))))
      (mp : model_params T) (sp : model_spec T) (n_grid : Z) (prob_child : list (list T)) (prob_partner : list (list (list (T * T))))
      : result (list (list (list T))) :=
    let n := Z.to_nat (zlen states / num_periods sp) in
    let init := repeat (repeat [#0; #0; #0; #0] (Z.to_nat n_grid)) n in
    do out_pp <- reference_loop (reference_period mp sp (linspace01 n_grid) states covariates child_state_indexes prob_child prob_partner)
                   init (range (num_periods sp));
    Ok (List.concat out_pp).
End Model.
