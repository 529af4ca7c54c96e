(** Property theorems C32 - C44, C51: the simulation.

    [simulation rg mp sp sol ip pc pp data] (S_Sim.v): [data] is the full output of
    pyth_simulate for parameters mp, specification sp, solution objects sol, initial
    probabilities ip, birth probabilities pc and partner probabilities pp.  Theorems
    stated for every [Num T] hold for real and for rounded arithmetic alike. *)
From Coq Require Import Reals Lra Lia ZArith List String.
From Verif Require Import Base Num M_Params M_Experience M_StateSpace M_Solve M_Exog M_Sim S_Experience S_Interp S_Tax
  S_Benefits S_StateSpace S_Bellman S_Solver S_Rng S_Sim S_SimInputs L_Num L_SimProps L_SimUpdate L_SimPairs L_SimTotal L_SimFlow
  X_Example L_Witness L_Rng L_SimExample L_SimCompare L_Bellman L_StateSpace L_Seed L_Solver.
Import ListNotations.

Section AnyArithmetic.
  Open Scope Z_scope.
  Context {T : Type} {NT : Num T}.

  (** C32: (Identifier, Period) is a key; an agent with education e is observed exactly
      in the periods from educ_years[e] to the last one. *)
  Theorem C32_panel :
    forall (rg : rng T) mp sp sol ip pc pp data,
    sim_setting rg sp sol -> simulation rg mp sp sol ip pc pp data ->
    NoDup (map row_key data) /\
    exists educs : list Z,
      zlen educs = num_agents_sim sp /\
      (forall r, In r data -> (0 <= row_id r)%Z /\
         nth_error educs (Z.to_nat (row_id r)) = Some (a_educ (o_state r))) /\
      (forall k e, nth_error educs k = Some e -> exists y,
         (0 <= e)%Z /\ nth_error (educ_years sp) (Z.to_nat e) = Some y /\
         forall t, (exists r, In r data /\ row_key r = (Z.of_nat k, t)) <-> (y <= t < num_periods sp)%Z) /\
      zlen data = sumZ (map (fun e => Z.max 0 (num_periods sp - nth (Z.to_nat e) (educ_years sp) 0)) educs).
  Proof.
    intros rg mp sp sol ip pc pp data (H1 & H2 & H3) (g & g' & H).
    split; [exact (panel_keys rg mp sp sol ip pc pp false H1 H2 H3 g g' data H)|].
    exact (panel rg mp sp sol ip pc pp false H1 H2 H3 g g' data H).
  Qed.

  (** C33: rows come in one block per period, whose rows carry that period, ... *)
  Theorem C33_blocks :
    forall (rg : rng T) mp sp sol ip pc pp data,
    sim_setting rg sp sol -> simulation rg mp sp sol ip pc pp data ->
    exists blocks, data = List.concat blocks /\ zlen blocks = num_periods sp /\
      forall t block r, nth_error blocks t = Some block -> In r block -> row_period r = Z.of_nat t.
  Proof.
    intros rg mp sp sol ip pc pp data (H1 & H2 & H3) (g & g' & H).
    exact (by_period rg mp sp sol ip pc pp false H1 H2 H3 g g' data H).
  Qed.

  (** ... every agent is in a state of the state space, and the row of the solution
      tables used for it is the one of that state. *)
  Theorem C33_states_listed :
    forall (rg : rng T) mp sp sol ip pc pp data,
    sim_setting rg sp sol -> simulation rg mp sp sol ip pc pp data ->
    forall r, In r data ->
    agent_in_space sp (o_state r) /\
    exists i f emax_row c,
      np_get (sol_states sol) i = Ok (discrete_state (o_state r)) /\ o_full r = Some f /\
      np_get (sol_emaxs sol) i = Ok emax_row /\
      mapM (fun c => interp_uniform_grid (map (fun q => aget q c) emax_row) (a_stock (o_state r))) (range NUM_CHOICES)
        = Ok (f_cont f) /\
      np_get (sol_non_cons sol) i = Ok (f_non_cons f) /\
      np_get (sol_covariates sol) i = Ok c /\ f_male_wage f = cov_male_wage c.
  Proof.
    intros rg mp sp sol ip pc pp data (H1 & H2 & H3) (g & g' & H) r Hr.
    exact (listed rg mp sp sol ip pc pp false H1 H2 H3 g g' data H r Hr).
  Qed.

  (** C35: laws of motion of the endogenous columns between consecutive rows of an agent, *)
  Theorem C35_history :
    forall (rg : rng T) mp sp sol ip pc pp data,
    sim_setting rg sp sol -> simulation rg mp sp sol ip pc pp data ->
    forall r r', follows data r r' ->
    a_educ (o_state r') = a_educ (o_state r) /\ a_type (o_state r') = a_type (o_state r) /\
    a_lagged (o_state r') = o_choice r /\
    a_exp_pt (o_state r') = (a_exp_pt (o_state r) + if o_choice r =? 1 then 1 else 0)%Z /\
    a_exp_ft (o_state r') = (a_exp_ft (o_state r) + if o_choice r =? 2 then 1 else 0)%Z.
  Proof.
    intros rg mp sp sol ip pc pp data (H1 & H2 & H3) (g & g' & H).
    exact (history rg mp sp sol ip pc pp false H1 H2 H3 g g' data H).
  Qed.

  (** and over any window the experience columns count the choices made in it; rows exist
      for every period of the window. *)
  Theorem C35_experience_counts_choices :
    forall (rg : rng T) mp sp sol ip pc pp data,
    sim_setting rg sp sol -> simulation rg mp sp sol ip pc pp data ->
    forall r0 r1, In r0 data -> In r1 data -> row_id r1 = row_id r0 -> (row_period r0 <= row_period r1)%Z ->
    let made c := zlen (filter (fun r => (row_id r =? row_id r0) && (row_period r0 <=? row_period r)
                                         && (row_period r <? row_period r1) && (o_choice r =? c))%Z data) in
    a_exp_pt (o_state r1) = (a_exp_pt (o_state r0) + made 1)%Z /\
    a_exp_ft (o_state r1) = (a_exp_ft (o_state r0) + made 2)%Z.
  Proof.
    intros rg mp sp sol ip pc pp data (H1 & H2 & H3) (g & g' & H) r0 r1 I0 I1 Eid Hle made.
    pose proof (history rg mp sp sol ip pc pp false H1 H2 H3 g g' data H) as Hh. split.
    - refine (window_count rg mp sp sol ip pc pp false H1 H2 H3 g g' data H a_exp_pt 1 _ r0 r1 I0 I1 Eid Hle).
      intros r r' Hf. apply (Hh r r' Hf).
    - refine (window_count rg mp sp sol ip pc pp false H1 H2 H3 g g' data H a_exp_ft 2 _ r0 r1 I0 I1 Eid Hle).
      intros r r' Hf. apply (Hh r r' Hf).
  Qed.

  (** C36: the youngest child ages, or is replaced by a newborn with the probability the
      table holds for the next period; no births are drawn after the last child bearing
      period.  A single finds a partner and a couple separates by the draw of the current
      period. *)
  Theorem C36_demography :
    forall (rg : rng T) mp sp sol ip pc pp data,
    sim_setting rg sp sol -> simulation rg mp sp sol ip pc pp data ->
    forall r r', follows data r r' ->
    let a := o_state r in let a' := o_state r' in let t := row_period r in
    (t <= last_child_bearing_period sp -> exists row p d,
       np_get pc (t + 1) = Ok row /\ np_get row (a_educ a) = Ok p /\
       drawn rg p d /\ (d = 0 \/ d = 1) /\ a_age a' = if d =? 0 then aged sp (a_age a) else 0)%Z /\
    (last_child_bearing_period sp < t -> a_age a' = aged sp (a_age a))%Z /\
    (a_partner a = 0 -> exists pr, partner_prob pp t (a_educ a) 0 = Ok pr /\ drawn rg (snd pr) (a_partner a'))%Z /\
    (a_partner a = 1 -> exists pr s, partner_prob pp t (a_educ a) 1 = Ok pr /\
       drawn rg (fst pr) s /\ a_partner a' = 1 - s)%Z /\
    (a_partner a = 0 \/ a_partner a = 1)%Z /\ (a_partner a' = 0 \/ a_partner a' = 1)%Z.
  Proof.
    intros rg mp sp sol ip pc pp data (H1 & H2 & H3) (g & g' & H) r r' Hf.
    exact (demography rg mp sp sol ip pc pp false H1 H2 H3 g g' data H r r' Hf).
  Qed.

  (** impossible events never, certain events always happen; age 0 means a birth *)
  Theorem C36_certain_events :
    forall (rg : rng T) mp sp sol ip pc pp data,
    sim_setting rg sp sol -> simulation rg mp sp sol ip pc pp data ->
    forall r r', follows data r r' ->
    let a := o_state r in let a' := o_state r' in let t := row_period r in
    let birth p := exists row, np_get pc (t + 1)%Z = Ok row /\ np_get row (a_educ a) = Ok p in
    (birth (nofZ 0) -> a_age a' = aged sp (a_age a)) /\
    (birth (nofZ 1) -> t <= last_child_bearing_period sp -> a_age a' = 0)%Z /\
    aged sp (a_age a) <> 0%Z /\
    (forall pr, partner_prob pp t (a_educ a) 0 = Ok pr -> a_partner a = 0%Z ->
       (snd pr = nofZ 0 -> a_partner a' = 0%Z) /\ (snd pr = nofZ 1 -> a_partner a' = 1%Z)) /\
    (forall pr, partner_prob pp t (a_educ a) 1 = Ok pr -> a_partner a = 1%Z ->
       (fst pr = nofZ 0 -> a_partner a' = 1%Z) /\ (fst pr = nofZ 1 -> a_partner a' = 0%Z)).
  Proof.
    intros rg mp sp sol ip pc pp data (H1 & H2 & H3) (g & g' & H) r r' Hf a a' t birth.
    destruct (demography rg mp sp sol ip pc pp false H1 H2 H3 g g' data H r r' Hf) as (D1 & D2 & D3 & D4 & _).
    destruct (listed rg mp sp sol ip pc pp false H1 H2 H3 g g' data H r (proj1 Hf)) as [Hin _].
    fold a in D1, D2, D3, D4, Hin. fold a' in D1, D2, D3, D4. fold t in D1, D2, D3, D4.
    split; [|split; [|split; [|split]]].
    - intros (row & B1 & B2). destruct (Z.le_gt_cases t (last_child_bearing_period sp)) as [Hle|Hgt]; [|apply D2; exact Hgt].
      destruct (D1 Hle) as (row' & p & d & E1 & E2 & Hd & _ & ->). rewrite B1 in E1. injection E1 as <-.
      rewrite B2 in E2. injection E2 as <-. apply (drawn_zero rg H1) in Hd. subst d. reflexivity.
    - intros (row & B1 & B2) Hle. destruct (D1 Hle) as (row' & p & d & E1 & E2 & Hd & _ & ->). rewrite B1 in E1. injection E1 as <-.
      rewrite B2 in E2. injection E2 as <-. apply (drawn_one rg H1) in Hd. subst d. reflexivity.
    - unfold agent_in_space, in_space in Hin. unfold aged. destruct (a_age a =? -1)%Z eqn:E; [lia|].
      apply Z.eqb_neq in E. destruct (a_age a <? child_age_max sp)%Z; lia.
    - intros pr Hpr Hs. destruct (D3 Hs) as (pr' & E & Hd). rewrite Hpr in E. injection E as <-.
      split; intros Ep; rewrite Ep in Hd; [exact (drawn_zero rg H1 _ Hd)|exact (drawn_one rg H1 _ Hd)].
    - intros pr Hpr Hs. destruct (D4 Hs) as (pr' & s & E & Hd & ->). rewrite Hpr in E. injection E as <-.
      split; intros Ep; rewrite Ep in Hd; [rewrite (drawn_zero rg H1 _ Hd)|rewrite (drawn_one rg H1 _ Hd)]; reflexivity.
  Qed.

  (** C37: the next state is one of the four successors the solver's transition table
      lists for the current state and choice. *)
  Theorem C37_successor_listed :
    forall (rg : rng T) mp sp sol ip pc pp data ss,
    sim_setting rg sp sol -> simulation rg mp sp sol ip pc pp data ->
    create_state_space_objects sp = Ok ss ->
    forall r r', follows data r r' ->
    exists i table birth partner j,
      np_get (ss_states ss) i = Ok (discrete_state (o_state r)) /\
      np_get (ss_child_state_indexes ss) i = Ok table /\
      (0 <= birth < 2)%Z /\ (0 <= partner < 2)%Z /\
      entry table (o_choice r) birth partner = Ok j /\
      np_get (ss_states ss) j = Ok (discrete_state (o_state r')).
  Proof.
    intros rg mp sp sol ip pc pp data ss (H1 & H2 & H3) (g & g' & H) Hss r r' Hf.
    exact (anticipated rg mp sp sol ip pc pp false H1 H2 H3 g g' data H ss r r' Hss Hf).
  Qed.

  (** C41: the random numbers drawn before a call do not matter: neither for the whole
      program nor for the closure it builds. *)
  Theorem C41_simulate_reproducible :
    forall (rg : rng T) roots sqrt2 sqrtpi mp sp files biased sparse g1 g2,
    simulate rg roots sqrt2 sqrtpi mp sp files biased sparse g1
    = simulate rg roots sqrt2 sqrtpi mp sp files biased sparse g2.
  Proof.
    intros rg roots sqrt2 sqrtpi mp sp files biased sparse g1 g2. unfold simulate, get_simulate_func.
    destruct (gen_prob_child_init_age_vector _ _); cbn [bind]; [|reflexivity].
    destruct (gen_prob_init_exp_component_vector _ (xf_exp_pt files)); cbn [bind]; [|reflexivity].
    destruct (gen_prob_init_exp_component_vector _ (xf_exp_ft files)); cbn [bind]; [|reflexivity].
    destruct (gen_prob_child_vector _ _); cbn [bind]; [|reflexivity].
    destruct (gen_prob_partner _ _ _); cbn [bind]; [|reflexivity].
    destruct (create_state_space_objects _); cbn [bind]; [|reflexivity].
    unfold get_integration_draws_and_weights. destruct (String.eqb _ _).
    - destruct (_ <? 1)%Z; [reflexivity|]. destruct (roots _). reflexivity.
    - destruct (String.eqb _ _); [|reflexivity]. reflexivity.
  Qed.

  Theorem C41_closure_calls_independent :
    forall (rg : rng T) roots sqrt2 sqrtpi sp files biased sparse g g0 f,
    get_simulate_func rg roots sqrt2 sqrtpi sp files biased sparse g = Ok (f, g0) ->
    (forall mp sp' g1 g2, f mp sp' g1 = f mp sp' g2) /\
    (forall g', exists f' g0', get_simulate_func rg roots sqrt2 sqrtpi sp files biased sparse g' = Ok (f', g0') /\
       forall mp sp' g1 g2, f' mp sp' g1 = f mp sp' g2) /\
    (forall mp g1 g2, simulate rg roots sqrt2 sqrtpi mp sp files biased sparse g1 = f mp sp g2).
  Proof.
    intros rg roots sqrt2 sqrtpi sp files biased sparse g g0 f H.
    assert (Hi : forall mp sp' g1 g2, f mp sp' g1 = f mp sp' g2).
    { unfold get_simulate_func in H.
      destruct (gen_prob_child_init_age_vector _ _); cbn [bind] in H; [|discriminate].
      destruct (gen_prob_init_exp_component_vector _ (xf_exp_pt files)); cbn [bind] in H; [|discriminate].
      destruct (gen_prob_init_exp_component_vector _ (xf_exp_ft files)); cbn [bind] in H; [|discriminate].
      destruct (gen_prob_child_vector _ _); cbn [bind] in H; [|discriminate].
      destruct (gen_prob_partner _ _ _); cbn [bind] in H; [|discriminate].
      destruct (create_state_space_objects _); cbn [bind] in H; [|discriminate].
      destruct (get_integration_draws_and_weights _ _ _ _ _ _) as [[dw g1]|]; cbn [bind] in H; [|discriminate].
      injection H as <- <-. intros. reflexivity. }
    assert (Hg : forall g', exists f' g0', get_simulate_func rg roots sqrt2 sqrtpi sp files biased sparse g' = Ok (f', g0') /\ f' = f).
    { intros g'. unfold get_simulate_func in *.
      destruct (gen_prob_child_init_age_vector _ _); cbn [bind] in *; [|discriminate].
      destruct (gen_prob_init_exp_component_vector _ (xf_exp_pt files)); cbn [bind] in *; [|discriminate].
      destruct (gen_prob_init_exp_component_vector _ (xf_exp_ft files)); cbn [bind] in *; [|discriminate].
      destruct (gen_prob_child_vector _ _); cbn [bind] in *; [|discriminate].
      destruct (gen_prob_partner _ _ _); cbn [bind] in *; [|discriminate].
      destruct (create_state_space_objects _); cbn [bind] in *; [|discriminate].
      unfold get_integration_draws_and_weights in *. destruct (String.eqb _ _).
      - destruct (_ <? 1)%Z; [discriminate|]. destruct (roots _). cbn [bind fst snd] in *. injection H as <- <-. do 2 eexists. split; reflexivity.
      - destruct (String.eqb _ _); [|discriminate]. destruct (draw_zero_one_distributed_shocks _ _ _ _) as [[m gm]|]; cbn [bind] in *; [|discriminate].
        destruct (np_get m 0); cbn [bind fst snd] in *; [|discriminate]. injection H as <- <-. do 2 eexists. split; reflexivity. }
    split; [exact Hi|]. split.
    - intros g'. destruct (Hg g') as (f' & g0' & E & ->). exists f, g0'. split; [exact E|exact Hi].
    - intros mp g1 g2. unfold simulate. destruct (Hg g1) as (f' & g0' & -> & ->). cbn [bind]. apply Hi.
  Qed.

  (** C42: two simulations in the same exogenous world agree row by row in everything
      the agents do not choose, whatever parameters, policies and solutions they use. *)
  Theorem C42_exogenous_columns :
    forall (rg : rng T) mp1 mp2 sp1 sp2 sol1 sol2 ip pc pp data1 data2,
    sim_setting rg sp1 sol1 -> sim_setting rg sp2 sol2 -> same_world sp1 sp2 -> type_shares mp1 = type_shares mp2 ->
    simulation rg mp1 sp1 sol1 ip pc pp data1 -> simulation rg mp2 sp2 sol2 ip pc pp data2 ->
    map (fun r => exogenous (o_state r)) data1 = map (fun r => exogenous (o_state r)) data2.
  Proof.
    intros rg mp1 mp2 sp1 sp2 sol1 sol2 ip pc pp data1 data2 (A1 & A2 & A3) (_ & B2 & B3) Hw Hs (g1 & g1' & H1) (g2 & g2' & H2).
    exact (same_exogenous rg A1 mp1 mp2 sp1 sp2 sol1 sol2 ip pc pp A2 B2 A3 B3 Hw Hs false false g1 g2 data1 data2 g1' g2' H1 H2).
  Qed.

  (** C43: a sparse run succeeds iff the full run does and returns the same rows with the
      shared columns, the small integer columns stored as signed bytes. *)
  Theorem C43_sparse_restricts_full :
    forall (rg : rng T) mp sp sol ip pc pp b g,
    (forall data' g', pyth_simulate rg mp sp sol ip pc pp b true g = Ok (data', g') ->
       exists data, pyth_simulate rg mp sp sol ip pc pp b false g = Ok (data, g') /\ Forall2 sparse_of data data') /\
    (forall data g', pyth_simulate rg mp sp sol ip pc pp b false g = Ok (data, g') ->
       exists data', pyth_simulate rg mp sp sol ip pc pp b true g = Ok (data', g') /\ Forall2 sparse_of data data') /\
    (forall e, pyth_simulate rg mp sp sol ip pc pp b true g = Err e <->
               pyth_simulate rg mp sp sol ip pc pp b false g = Err e).
  Proof.
    intros rg mp sp sol ip pc pp b g. rewrite sparse_run.
    assert (HF : forall data : list (out_row T), Forall2 sparse_of data (map (fun r => cast_sparse (drop_full r)) data)).
    { induction data as [|r data IH]; constructor; [apply sparse_of_cast|exact IH]. }
    destruct (pyth_simulate rg mp sp sol ip pc pp b false g) as [[data g0]|e]; cbn [rmap fst snd].
    - split; [|split].
      + intros data' g' H. injection H as <- <-. exists data. split; [reflexivity|apply HF].
      + intros data0 g' H. injection H as <- <-. eexists. split; [reflexivity|apply HF].
      + intros e. split; discriminate.
    - split; [discriminate|]. split; [discriminate|]. reflexivity.
  Qed.

  (** If the integer columns fit into a byte nothing is lost. *)
  Theorem C43_no_loss :
    forall (rg : rng T) mp sp sol ip pc pp g data' g',
    sim_setting rg sp sol ->
    (num_periods sp <= 128)%Z -> (num_educ_levels sp <= 128)%Z -> (child_age_max sp <= 127)%Z ->
    (init_exp_max sp + num_periods sp <= 128)%Z ->
    pyth_simulate rg mp sp sol ip pc pp false true g = Ok (data', g') ->
    exists data, simulation rg mp sp sol ip pc pp data /\
      Forall2 (fun r r' => o_state r' = o_state r /\ o_choice r' = o_choice r /\ o_wage r' = o_wage r) data data'.
  Proof.
    intros rg mp sp sol ip pc pp g data' g' (H1 & H2 & H3) HP HE HA HX H.
    destruct (proj1 (C43_sparse_restricts_full rg mp sp sol ip pc pp false g) data' g' H) as (data & Hd & HF).
    exists data. split; [exists g, g'; exact Hd|].
    assert (Hall : forall r, In r data -> agent_in_space sp (o_state r) /\ (0 <= o_choice r < 3)%Z /\
      (0 <= a_exp_pt (o_state r) <= 127)%Z /\ (0 <= a_exp_ft (o_state r) <= 127)%Z).
    { intros r Hr. destruct (listed rg mp sp sol ip pc pp false H1 H2 H3 g g' data Hd r Hr) as [Hin _].
      split; [exact Hin|]. unfold agent_in_space, in_space in Hin.
      pose proof (experience_bounds rg mp sp sol ip pc pp false H1 H2 H3 g g' data Hd r Hr) as Hb. unfold row_period in Hb.
      split; [|lia]. destruct (wage_and_shock rg mp sp sol ip pc pp false H1 H2 H3 g g' data Hd) as (col & _ & Hw).
      destruct (Hw r Hr) as (draw & _ & _ & i & r0 & Hs & ->). rewrite hide_choice. eapply sim_row_choice. exact Hs. }
    assert (H8 : forall z z', (-128 <= z < 128)%Z -> as_int8 z z' -> z' = z).
    { intros z z' Hz [Hb (k & ->)]. lia. }
    clear Hd H. revert Hall. induction HF as [|r r' l l' Hs HF IH]; intros Hall; constructor.
    - destruct (Hall r (or_introl eq_refl)) as (Hin & Hc & Hpt & Hft). unfold agent_in_space, in_space in Hin.
      destruct Hs as (_ & S2 & S3 & S4 & S5 & S6 & S7 & S8 & S9 & S10 & S11 & S12 & S13).
      apply H8 in S3, S8, S9, S10, S11, S12, S13; try lia.
      split; [|split; assumption]. destruct (o_state r), (o_state r'). cbn in *. congruence.
    - apply IH. intros r0 Hr0. apply Hall. right. exact Hr0.
  Qed.

  (** The key stays unique up to 256 periods ... *)
  Theorem C43_key_unique :
    forall (rg : rng T) mp sp sol ip pc pp g data' g',
    sim_setting rg sp sol -> (num_periods sp <= 256)%Z ->
    pyth_simulate rg mp sp sol ip pc pp false true g = Ok (data', g') ->
    NoDup (map row_key data').
  Proof.
    intros rg mp sp sol ip pc pp g data' g' Hset HP H.
    destruct (proj1 (C43_sparse_restricts_full rg mp sp sol ip pc pp false g) data' g' H) as (data & Hd & HF).
    assert (Hsim : simulation rg mp sp sol ip pc pp data) by (exists g, g'; exact Hd).
    pose proof (proj1 (C32_panel rg mp sp sol ip pc pp data Hset Hsim)) as Hn.
    assert (Hper : forall r, In r data -> (0 <= row_period r < 256)%Z).
    { intros r Hr. destruct (C33_states_listed rg mp sp sol ip pc pp data Hset Hsim r Hr) as [Hin _].
      unfold agent_in_space, in_space in Hin. unfold row_period. lia. }
    clear Hd H Hsim. revert Hn Hper. induction HF as [|r r' l l' Hs HF IH]; intros Hn Hper; [constructor|].
    cbn [map] in *. inversion Hn; subst. constructor; [|apply IH; [assumption|intros; apply Hper; right; assumption]].
    intros Hin. apply in_map_iff in Hin. destruct Hin as (q' & Ek & Hq').
    assert (Hex : exists q, In q l /\ sparse_of q q').
    { clear - HF Hq'. induction HF; [destruct Hq'|]. destruct Hq' as [<-|Hq']; [exists x; split; [left; reflexivity|assumption]|].
      destruct (IHHF Hq') as (q & Hq & Hs). exists q. split; [right; exact Hq|exact Hs]. }
    destruct Hex as (q & Hq & Hsq). apply H1. apply in_map_iff. exists q. split; [|exact Hq].
    destruct Hs as (_ & _ & _ & I1 & _ & _ & _ & [_ (k1 & P1)] & _). destruct Hsq as (_ & _ & _ & I2 & _ & _ & _ & [_ (k2 & P2)] & _).
    unfold row_key, row_id, row_period in *. injection Ek as K1 K2.
    pose proof (Hper r (or_introl eq_refl)). pose proof (Hper q (or_intror Hq)). f_equal; [congruence|lia].
  Qed.

  (** ... but beyond 128 periods the Period column shows negative numbers and beyond 256
      periods the key is no longer unique (for agents that are in the sample long enough). *)
  Theorem C43_wraps_beyond_bytes :
    forall (rg : rng T) mp sp sol ip pc pp g data' g',
    sim_setting rg sp sol -> (1 <= num_agents_sim sp)%Z ->
    pyth_simulate rg mp sp sol ip pc pp false true g = Ok (data', g') ->
    ((128 < num_periods sp)%Z -> (forall y, In y (educ_years sp) -> (y <= 128)%Z) ->
       exists r', In r' data' /\ (row_period r' < 0)%Z) /\
    ((256 < num_periods sp)%Z -> (forall y, In y (educ_years sp) -> (y <= num_periods sp - 257)%Z) ->
       ~ NoDup (map row_key data')).
  Proof.
    intros rg mp sp sol ip pc pp g data' g' Hset HA H.
    destruct (proj1 (C43_sparse_restricts_full rg mp sp sol ip pc pp false g) data' g' H) as (data & Hd & HF).
    assert (Hsim : simulation rg mp sp sol ip pc pp data) by (exists g, g'; exact Hd).
    destruct (C32_panel rg mp sp sol ip pc pp data Hset Hsim) as [Hn (educs & Le & _ & Hp & _)].
    assert (He : exists e, nth_error educs 0 = Some e).
    { destruct educs as [|e educs]; [unfold zlen in Le; cbn [List.length] in Le; lia|exists e; reflexivity]. }
    destruct He as [e He]. destruct (Hp 0%nat e He) as (y & _ & Hy & Hrows). apply nth_error_In in Hy.
    assert (Hnth : forall r, In r data -> exists k r', nth_error data k = Some r /\ nth_error data' k = Some r' /\ sparse_of r r').
    { intros r Hr. clear - HF Hr. induction HF as [|q q' l l' Hq HF IHHF]; [destruct Hr|]. destruct Hr as [<-|Hr].
      - exists 0%nat, q'. exact (conj eq_refl (conj eq_refl Hq)).
      - destruct (IHHF Hr) as (k & r' & A & B & C). exists (S k), r'. exact (conj A (conj B C)). }
    split.
    - intros HP Hle. specialize (Hle y Hy). destruct (proj2 (Hrows 128%Z)) as (r & Hr & Ek); [lia|].
      destruct (Hnth r Hr) as (k & r' & _ & Hk & Hs). exists r'. split; [eapply nth_error_In; exact Hk|].
      destruct Hs as (_ & _ & _ & _ & _ & _ & _ & [Hb (q & Hq)] & _). unfold row_key, row_period in *. injection Ek as _ E2. lia.
    - intros HP Hle Hnd. specialize (Hle y Hy).
      destruct (proj2 (Hrows y)) as (r & Hr & Ek); [lia|]. destruct (proj2 (Hrows (y + 256)%Z)) as (q & Hq & Eq); [lia|].
      destruct (Hnth r Hr) as (k & r' & K1 & K2 & Hs). destruct (Hnth q Hq) as (j & q' & J1 & J2 & Hs').
      assert (Hkj : k = j).
      { rewrite NoDup_nth_error in Hnd. apply Hnd.
        - rewrite map_length. apply nth_error_Some. congruence.
        - rewrite !(map_nth_error row_key _ _ K2), !(map_nth_error row_key _ _ J2). f_equal.
          destruct Hs as (_ & _ & _ & I1 & _ & _ & _ & [B1 (k1 & P1)] & _). destruct Hs' as (_ & _ & _ & I2 & _ & _ & _ & [B2 (k2 & P2)] & _).
          unfold row_key, row_id, row_period in *. injection Ek as E1 E2. injection Eq as E3 E4. f_equal; [congruence|lia]. }
      subst j. rewrite K1 in J1. injection J1 as <-. rewrite Ek in Eq. injection Eq as Eq. lia.
  Qed.

  (** C51: the flag for biased expectations reaches the data only through the solution ... *)
  Theorem C51_flag_only_through_solution :
    forall (rg : rng T) roots sqrt2 sqrtpi mp sp files sparse b1 b2 g,
    (forall ss pc pp zs ws,
       solve sp (ss_states ss) (ss_covariates ss) (ss_child_state_indexes ss) pc pp zs ws b1 mp
       = solve sp (ss_states ss) (ss_covariates ss) (ss_child_state_indexes ss) pc pp zs ws b2 mp) ->
    simulate rg roots sqrt2 sqrtpi mp sp files b1 sparse g = simulate rg roots sqrt2 sqrtpi mp sp files b2 sparse g.
  Proof.
    intros rg roots sqrt2 sqrtpi mp sp files sparse b1 b2 g Hs. unfold simulate, get_simulate_func.
    destruct (gen_prob_child_init_age_vector _ _); cbn [bind]; [|reflexivity].
    destruct (gen_prob_init_exp_component_vector _ (xf_exp_pt files)); cbn [bind]; [|reflexivity].
    destruct (gen_prob_init_exp_component_vector _ (xf_exp_ft files)); cbn [bind]; [|reflexivity].
    destruct (gen_prob_child_vector _ _); cbn [bind]; [|reflexivity].
    destruct (gen_prob_partner _ _ _); cbn [bind]; [|reflexivity].
    destruct (create_state_space_objects _); cbn [bind]; [|reflexivity].
    destruct (get_integration_draws_and_weights _ _ _ _ _ _) as [[dw g1]|]; cbn [bind]; [|reflexivity].
    rewrite Hs. reflexivity.
  Qed.
End AnyArithmetic.
Open Scope R_scope.
Print Assumptions C32_panel.
Print Assumptions C33_blocks.
Print Assumptions C33_states_listed.
Print Assumptions C35_history.
Print Assumptions C35_experience_counts_choices.
Print Assumptions C36_demography.
Print Assumptions C36_certain_events.
Print Assumptions C37_successor_listed.
Print Assumptions C41_simulate_reproducible.
Print Assumptions C41_closure_calls_independent.
Print Assumptions C42_exogenous_columns.
Print Assumptions C43_sparse_restricts_full.
Print Assumptions C43_no_loss.
Print Assumptions C43_key_unique.
Print Assumptions C43_wraps_beyond_bytes.
Print Assumptions C51_flag_only_through_solution.

(** C33: with inputs of matching shapes and proper probabilities no lookup fails: the
    simulation returns a data set. *)
Theorem C33_simulation_returns :
  forall rg mp sp sol ip pc pp, sim_inputs_ok rg mp sp sol ip pc pp ->
  forall b sparse g, exists data g', pyth_simulate rg mp sp sol ip pc pp b sparse g = Ok (data, g').
Proof.
  intros rg mp sp sol ip pc pp [(S1 & S2 & S3) I2 I3 I4 I5 I6 I7 I8] b sparse g.
  exact (simulate_total rg S1 I2 mp sp sol ip pc pp S2 I3 S3 I4 I5 I6 I7 I8 b sparse g).
Qed.
Print Assumptions C33_simulation_returns.

(** C34: values are flow utility plus discounted continuation value; the choice is the
    first of the best alternatives. *)
Theorem C34_choice_maximises_value :
  forall rg mp sp biased zs ws pc pp sol ip data,
  inputs_ok sp mp pc pp -> solved sp mp biased zs ws pc pp sol ->
  sim_setting rg sp sol -> simulation rg mp sp sol ip pc pp data ->
  forall r, In r data -> exists f, o_full r = Some f /\
    List.length (f_flow f) = 3%nat /\ List.length (f_cont f) = 3%nat /\ List.length (f_value f) = 3%nat /\
    (forall c, (0 <= c < 3)%Z -> at_ (f_value f) c = at_ (f_flow f) c + delta mp * at_ (f_cont f) c) /\
    first_best (at_ (f_value f)) (o_choice r).
Proof.
  intros rg mp sp biased zs ws pc pp sol ip data Hok Hs Hset Hsim r Hr.
  destruct (rows_of_simulation rg mp sp biased zs ws pc pp sol Hok Hs ip data Hset Hsim) as (col & _ & H).
  destruct (H r Hr) as (z & f & _ & _ & Hf & _ & _ & Ef & Ec & Ev & Hb). exists f. split; [exact Hf|].
  rewrite Ev in *. rewrite Ef, Ec in *. cbn [map map2 List.length] in *.
  refine (conj eq_refl (conj eq_refl (conj eq_refl (conj _ Hb)))).
  intros c Hc. assert (c = 0 \/ c = 1 \/ c = 2)%Z as [-> | [-> | ->]] by lia; reflexivity.
Qed.
Print Assumptions C34_choice_maximises_value.

(** These are the payoffs of the economic model: consumption utility given the agent's
    shock, and continuation values of the Bellman recursion interpolated at the agent's
    experience. *)
Theorem C34_payoffs_are_bellman :
  forall rg mp sp biased zs ws pc pp sol ip data,
  inputs_ok sp mp pc pp -> solved sp mp biased zs ws pc pp sol ->
  sim_setting rg sp sol -> simulation rg mp sp sol ip pc pp data ->
  forall r, In r data -> exists f s, let a := o_state r in
    o_full r = Some f /\ shock_of sp mp r s /\
    f_flow f = map (sim_flow sp mp (a_period a) (a_educ a) (a_lagged a) (a_type a) (a_age a) (a_partner a) (a_stock a) s)
                 [0; 1; 2]%Z /\
    f_cont f = map (fun c => interpolate (uniform_grid (List.length (exp_grid sp)))
                 (map (continuation sp mp (is_elterngeld sp) biased (combine zs ws) (child_fun pc) (partner_fun pp)
                         (remaining sp (a_period a)) (a_period a) (a_educ a) (a_type a) (a_age a) (a_partner a) c)
                    (exp_grid sp)) (clip01 (a_stock a))) [0; 1; 2]%Z /\
    f_male_wage f = partner_wage sp (a_period a) (a_educ a) (a_partner a) /\
    f_non_cons f = [1; leisure mp (a_educ a) (a_type a) (a_age a) 1; leisure mp (a_educ a) (a_type a) (a_age a) 2].
Proof.
  intros rg mp sp biased zs ws pc pp sol ip data Hok Hs Hset Hsim r Hr.
  destruct (rows_of_simulation rg mp sp biased zs ws pc pp sol Hok Hs ip data Hset Hsim) as (col & _ & H).
  destruct (H r Hr) as (z & f & _ & Hz & Hf & Hm & Hn & Ef & Ec & _). exists f, (z * shock_sd mp). cbv zeta.
  exact (conj Hf (conj Hz (conj Ef (conj Ec (conj Hm Hn))))).
Qed.
Print Assumptions C34_payoffs_are_bellman.

(** C37, C51: ... and realised experience follows the law of motion that the solver uses
    without biased expectations, whatever solution the agents act on. *)
Theorem C37_stock_as_anticipated :
  forall rg mp sp sol ip pc pp data,
  spec_ok sp -> params_ok sp mp -> sim_setting rg sp sol -> simulation rg mp sp sol ip pc pp data ->
  forall r r', follows data r r' ->
  a_stock (o_state r') = stock_next sp mp false (row_period r) (a_educ (o_state r)) (a_age (o_state r)) (o_choice r)
                           (a_stock (o_state r)).
Proof.
  intros rg mp sp sol ip pc pp data Hsp Hmp (H1 & H2 & H3) (g & g' & H) r r' Hf.
  rewrite (next_stock_law rg mp sp sol ip pc pp false H1 H2 H3 g g' data H r r' Hf).
  destruct (listed rg mp sp sol ip pc pp false H1 H2 H3 g g' data H r (proj1 Hf)) as [Hin _].
  unfold agent_in_space, in_space in Hin. apply next_stock_spec; try assumption; unfold row_period; lia.
Qed.
Print Assumptions C37_stock_as_anticipated.

(** That is: in the table the agents act on (without biased expectations), the continuation value of
    the choice taken is next period's table, averaged over births and partners, read at the very
    stock the agent then has (agents whose stock is a grid point; others are interpolated). *)
Theorem C37_solver_anticipates_stock :
  forall rg mp sp zs ws pc pp sol ip data,
  inputs_ok sp mp pc pp -> sim_setting rg sp sol -> simulation rg mp sp sol ip pc pp data ->
  forall r r', follows data r r' -> forall g, nth_error (exp_grid sp) g = Some (a_stock (o_state r)) ->
  let a := o_state r in
  let cell := solver_cell sp mp false zs ws pc pp in
  exists v : Z -> Z -> list R,
    (forall age partner, (age = aged sp (a_age a) \/ age = 0)%Z -> (0 <= partner < 2)%Z ->
       List.length (v age partner) = List.length (exp_grid sp) /\
       forall k x, nth_error (v age partner) k = Some x ->
         cell (a_period a + 1)%Z (a_educ a) (o_choice r) (a_type a) age partner k 3%Z = Ok x) /\
    let next age partner := interpolate (exp_grid sp) (v age partner) (a_stock (o_state r')) in
    let birth := child_fun pc (a_period a) (a_educ a) in
    let meet := partner_fun pp (a_period a) (a_educ a) (a_partner a) in
    cell (a_period a) (a_educ a) (a_lagged a) (a_type a) (a_age a) (a_partner a) g (o_choice r)
    = Ok ((1 - birth) * (meet 0%Z * next (aged sp (a_age a)) 0%Z + meet 1%Z * next (aged sp (a_age a)) 1%Z)
          + birth * (meet 0%Z * next 0%Z 0%Z + meet 1%Z * next 0%Z 1%Z)).
Proof.
  intros rg mp sp zs ws pc pp sol ip data Hok Hset Hsim r r' Hf g Hg a cell.
  pose proof (C37_stock_as_anticipated rg mp sp sol ip pc pp data (proj1 Hok) (proj1 (proj2 Hok)) Hset Hsim r r' Hf) as Hst.
  destruct (C33_states_listed rg mp sp sol ip pc pp data Hset Hsim r (proj1 Hf)) as [Hin _].
  destruct (C33_states_listed rg mp sp sol ip pc pp data Hset Hsim r' (proj1 (proj2 Hf))) as [Hin' _].
  destruct (C35_history rg mp sp sol ip pc pp data Hset Hsim r r' Hf) as (_ & _ & Hl & _).
  unfold agent_in_space, in_space in Hin, Hin'. rewrite Hl in Hin'. destruct Hf as (_ & _ & _ & Hp). unfold row_period in *. rewrite Hp in Hin'.
  fold a in Hin, Hin', Hst, Hg |- *. clearbody a.
  pose proof (proj1 Hok) as Hsp.
  exists (fun age partner => map (value sp mp (is_elterngeld sp) false (combine zs ws) (child_fun pc) (partner_fun pp)
            (remaining sp (a_period a + 1)) (a_period a + 1) (a_educ a) (o_choice r) (a_type a) age partner) (exp_grid sp)).
  split.
  - intros age partner Hage Hpar. split; [apply map_length|]. intros k x Hx. unfold cell.
    rewrite nth_error_map in Hx. destruct (nth_error (exp_grid sp) k) as [y|] eqn:Ey; [|discriminate].
    assert (Ex : x = value sp mp (is_elterngeld sp) false (combine zs ws) (child_fun pc) (partner_fun pp)
            (remaining sp (a_period a + 1)) (a_period a + 1) (a_educ a) (o_choice r) (a_type a) age partner y) by (cbn [option_map] in Hx; congruence).
    rewrite Ex. apply (solver_values sp mp false zs ws pc pp Hok); [|exact Ey]. unfold in_space.
    assert (Ha : (-1 <= age <= child_age_max sp)%Z).
    { destruct Hage as [-> | ->]; [unfold aged; destruct (Z.eqb_spec (a_age a) (-1)); [lia|destruct (Z.ltb_spec (a_age a) (child_age_max sp)); lia]|].
      destruct Hsp as (_ & _ & _ & Hc & _). lia. }
    lia.
  - cbv zeta.
    assert (Hi : in_space sp (a_period a) (a_educ a) (a_lagged a) (a_type a) (a_age a) (a_partner a)) by (unfold in_space; lia).
    destruct (solver_values sp mp false zs ws pc pp Hok _ _ _ _ _ _ g _ Hi Hg) as (H0 & H1 & H2 & _).
    assert (Er : remaining sp (a_period a) = S (remaining sp (a_period a + 1))) by (unfold remaining; lia).
    rewrite Er in H0, H1, H2. cbn [continuation] in H0, H1, H2. unfold expected_next in H0, H1, H2.
    rewrite Hst. unfold cell.
    assert (o_choice r = 0 \/ o_choice r = 1 \/ o_choice r = 2)%Z as [-> | [-> | ->]] by lia; assumption.
Qed.
Print Assumptions C37_solver_anticipates_stock.

Theorem C51_realised_experience_unbiased :
  forall rg mp sp biased zs ws pc pp sol ip data,
  inputs_ok sp mp pc pp -> solved sp mp biased zs ws pc pp sol ->
  sim_setting rg sp sol -> simulation rg mp sp sol ip pc pp data ->
  forall r r', follows data r r' ->
  let a := o_state r in
  let pt := at_ (gamma_p mp) (a_educ a) + (if ((0 <=? a_age a) && (a_age a <=? 2))%Z then gamma_p_mom mp else 0) in
  let years := a_stock a * (IZR (init_exp_max sp) + IZR (a_period a) * Rmax 1 pt) in
  let gained := if (o_choice r =? 1)%Z then pt else if (o_choice r =? 2)%Z then 1 else 0 in
  a_stock (o_state r') = clip01 ((years + gained) / (IZR (init_exp_max sp) + IZR (a_period a + 1) * Rmax 1 pt)).
Proof.
  intros rg mp sp biased zs ws pc pp sol ip data (Hsp & Hmp & _) Hs Hset Hsim r r' Hf.
  exact (C37_stock_as_anticipated rg mp sp sol ip pc pp data Hsp Hmp Hset Hsim r r' Hf).
Qed.
Print Assumptions C51_realised_experience_unbiased.

(** C38: the claim that the simulator draws births between t and t+1 with the probability
    the solver uses (prob_child[t], see [expected_next] in S_Bellman.v and C24) is false. *)
Theorem C38_same_birth_probability_refuted :
  ~ (forall rg mp sp zs ws pc pp sol ip data,
       inputs_ok sp mp pc pp -> solved sp mp false zs ws pc pp sol -> sim_inputs_ok rg mp sp sol ip pc pp ->
       simulation rg mp sp sol ip pc pp data ->
       forall r r', follows data r r' -> (row_period r <= last_child_bearing_period sp)%Z ->
       exists d, drawn rg (child_fun pc (row_period r) (a_educ (o_state r))) d /\
         a_age (o_state r') = if (d =? 1)%Z then 0%Z else aged sp (a_age (o_state r))).
Proof.
  intros Hclaim.
  destruct (example_run late_child late_inputs late_child_probs) as (sol & data & Hs & Hok & Hsim & r & r' & Hf & Hp).
  destruct (Hclaim ex_rng ex_params ex_spec ex_draws ex_weights late_child ex_prob_partner sol ex_ip data late_inputs Hs Hok Hsim r r' Hf)
    as (d & Hd & Hage); [rewrite Hp; cbn [ex_spec last_child_bearing_period]; lia|].
  destruct (C33_states_listed ex_rng ex_params ex_spec sol ex_ip late_child ex_prob_partner data
              (si_setting _ _ _ _ _ _ _ Hok) Hsim r (proj1 Hf)) as [Hin _].
  unfold agent_in_space, in_space in Hin. cbn [ex_spec num_educ_levels] in Hin. rewrite Hp in Hd.
  assert (Hz : child_fun late_child 2 (a_educ (o_state r)) = 0).
  { assert (a_educ (o_state r) = 0 \/ a_educ (o_state r) = 1 \/ a_educ (o_state r) = 2)%Z as [-> | [-> | ->]] by lia; reflexivity. }
  rewrite Hz in Hd. apply (drawn_zero ex_rng ex_rng_ok) in Hd. subst d.
  destruct (C36_certain_events ex_rng ex_params ex_spec sol ex_ip late_child ex_prob_partner data
              (si_setting _ _ _ _ _ _ _ Hok) Hsim r r' Hf) as (_ & H1 & H0 & _).
  apply H0. rewrite <- H1.
  - symmetry. exact Hage.
  - exists [1; 1; 1]. rewrite Hp. split; [reflexivity|].
    assert (a_educ (o_state r) = 0 \/ a_educ (o_state r) = 1 \/ a_educ (o_state r) = 2)%Z as [-> | [-> | ->]] by lia; reflexivity.
  - rewrite Hp. cbn [ex_spec last_child_bearing_period]. lia.
Qed.
Print Assumptions C38_same_birth_probability_refuted.

(** What is true: the simulator uses the probability of the following period, so the two
    agree for tables that do not change from one period to the next. *)
Theorem C38_agrees_if_constant :
  forall rg mp sp sol ip pc pp data,
  child_table_ok sp pc -> sim_setting rg sp sol -> simulation rg mp sp sol ip pc pp data ->
  forall r r', follows data r r' -> (row_period r <= last_child_bearing_period sp)%Z ->
  child_fun pc (row_period r) (a_educ (o_state r)) = child_fun pc (row_period r + 1) (a_educ (o_state r)) ->
  exists d, drawn rg (child_fun pc (row_period r) (a_educ (o_state r))) d /\
    a_age (o_state r') = if (d =? 1)%Z then 0%Z else aged sp (a_age (o_state r)).
Proof.
  intros rg mp sp sol ip pc pp data [T1 T2] Hset Hsim r r' Hf Hle Ep.
  destruct (C33_states_listed rg mp sp sol ip pc pp data Hset Hsim r (proj1 Hf)) as [Hin _].
  unfold agent_in_space, in_space in Hin.
  destruct (C36_demography rg mp sp sol ip pc pp data Hset Hsim r r' Hf) as (D & _).
  destruct (D Hle) as (row & p & d & E1 & E2 & Hd & Hd01 & ->). exists d. split.
  - rewrite Ep. unfold child_fun, at_.
    assert (Hrow : nth (Z.to_nat (row_period r + 1)) pc [] = row).
    { apply np_get_zat_inv in E1; [|unfold row_period; lia]. unfold zat in E1.
      destruct (row_period r + 1 <? 0)%Z; [discriminate|]. apply nth_error_nth. exact E1. }
    rewrite Hrow. apply np_get_zat_inv in E2; [|lia]. unfold zat in E2.
    destruct (a_educ (o_state r) <? 0)%Z; [discriminate|]. rewrite (nth_error_nth _ _ 0 E2). exact Hd.
  - destruct Hd01 as [-> | ->]; reflexivity.
Qed.
Print Assumptions C38_agrees_if_constant.

(** C39: the wage column. *)
Theorem C39_observed_wage :
  forall rg mp sp biased zs ws pc pp sol ip data,
  inputs_ok sp mp pc pp -> solved sp mp biased zs ws pc pp sol ->
  sim_setting rg sp sol -> simulation rg mp sp sol ip pc pp data ->
  forall r, In r data -> let a := o_state r in
  (o_wage r = None <-> o_choice r = 0%Z) /\
  exists s, shock_of sp mp r s /\ forall w, o_wage r = Some w ->
    w = elasticity_scale sp
        * exp (at_ (gamma_0 mp) (a_educ a)
               + at_ (gamma_1 mp) (a_educ a)
                 * ln (years_of (a_stock a) (init_exp_max sp) (a_period a)
                         (pt_credit mp false (a_educ a) (a_age a)) + 1) + s) /\
    (0 < elasticity_scale sp -> 0 < w).
Proof.
  intros rg mp sp biased zs ws pc pp sol ip data Hok Hs Hset Hsim r Hr a.
  destruct (rows_of_simulation rg mp sp biased zs ws pc pp sol Hok Hs ip data Hset Hsim) as (col & _ & H).
  destruct (H r Hr) as (z & f & _ & Hz & _). pose proof Hz as (Hw & _). split.
  - rewrite Hw. destruct (o_choice r =? 0)%Z eqn:E; [apply Z.eqb_eq in E; split; auto|].
    apply Z.eqb_neq in E. split; [discriminate|congruence].
  - exists (z * shock_sd mp). split; [exact Hz|]. intros w Ew. rewrite Hw in Ew.
    destruct (o_choice r =? 0)%Z; [discriminate|]. injection Ew as <-. fold a. unfold observed_wage, base_wage. split.
    + rewrite <- exp_plus. ring.
    + intros He. apply Rmult_lt_0_compat; [|exact He]. apply Rmult_lt_0_compat; apply exp_pos.
Qed.
Print Assumptions C39_observed_wage.

(** C40: an agent's shocks are one column of the shock matrix, and no two agents share a
    column. *)
Theorem C40_private_shocks :
  forall rg mp sp biased zs ws pc pp sol ip data,
  inputs_ok sp mp pc pp -> solved sp mp biased zs ws pc pp sol ->
  sim_setting rg sp sol -> simulation rg mp sp sol ip pc pp data ->
  let matrix := fst (rng_normal rg (rng_seed rg (seed_sim sp)) (Z.to_nat (num_periods sp)) (Z.to_nat (num_agents_sim sp))) in
  exists column : Z -> nat,
    (forall r r', In r data -> In r' data -> row_id r <> row_id r' -> column (row_id r) <> column (row_id r')) /\
    forall r, In r data -> exists z, element matrix (Z.to_nat (row_period r)) (column (row_id r)) = Some z /\
      shock_of sp mp r (z * shock_sd mp).
Proof.
  intros rg mp sp biased zs ws pc pp sol ip data Hok Hs Hset Hsim matrix.
  destruct (rows_of_simulation rg mp sp biased zs ws pc pp sol Hok Hs ip data Hset Hsim) as (col & Hi & H).
  exists col. split.
  - intros r r' Hr Hr' Hne E. apply Hne. apply Hi; assumption.
  - intros r Hr. destruct (H r Hr) as (z & f & He & Hz & _). exists z. exact (conj He Hz).
Qed.
Print Assumptions C40_private_shocks.

(** C42: partner wages, too. *)
Theorem C42_partner_wages :
  forall rg mp1 mp2 sp1 sp2 sol1 sol2 ip pc pp data1 data2,
  sim_setting rg sp1 sol1 -> sim_setting rg sp2 sol2 -> same_world sp1 sp2 -> type_shares mp1 = type_shares mp2 ->
  simulation rg mp1 sp1 sol1 ip pc pp data1 -> simulation rg mp2 sp2 sol2 ip pc pp data2 ->
  partner_cf_const sp1 = partner_cf_const sp2 -> partner_cf_age sp1 = partner_cf_age sp2 ->
  partner_cf_age_sq sp1 = partner_cf_age_sq sp2 -> partner_cf_educ sp1 = partner_cf_educ sp2 ->
  map (fun r => option_map f_male_wage (o_full r)) data1 = map (fun r => option_map f_male_wage (o_full r)) data2.
Proof.
  intros rg mp1 mp2 sp1 sp2 sol1 sol2 ip pc pp data1 data2 S1 S2 Hw Hs D1 D2 P1 P2 P3 P4.
  pose proof (C42_exogenous_columns rg mp1 mp2 sp1 sp2 sol1 sol2 ip pc pp data1 data2 S1 S2 Hw Hs D1 D2) as E.
  assert (Hrow : forall mp sp sol data, sim_setting rg sp sol -> simulation rg mp sp sol ip pc pp data ->
    map (fun r => option_map f_male_wage (o_full r)) data
    = map (fun q => Some (partner_wage sp (snd (fst (fst (fst (fst q))))) (snd (fst (fst (fst q)))) (snd q)))
        (map (fun r => exogenous (o_state r)) data)).
  { intros mp sp sol data S D. rewrite map_map. apply map_ext_in. intros r Hr. cbn [exogenous fst snd].
    destruct S as (A1 & A2 & A3), D as (g & g' & Hd).
    exact (male_wage_of_row rg mp sp sol ip pc pp A1 A2 A3 g g' data Hd r Hr). }
  rewrite (Hrow _ _ _ _ S1 D1), (Hrow _ _ _ _ S2 D2), E. apply map_ext. intros q. unfold partner_wage.
  rewrite P1, P2, P3, P4. reflexivity.
Qed.
Print Assumptions C42_partner_wages.

(** C44: flow utilities reported by the simulation are those of the solver ... *)
Theorem C44_same_payoffs :
  forall sp mp t e l ty a m x z c,
  unscaled sp -> no_costs_for_older sp -> benefits_paid sp ->
  above_floor sp mp t e l a m x (z * shock_sd mp) c -> (0 <= c < 3)%Z ->
  sim_flow sp mp t e l ty a m x (z * shock_sd mp) c = flow sp mp (is_elterngeld sp) false t e l ty a m x c z.
Proof. exact same_flow. Qed.
Print Assumptions C44_same_payoffs.

(** ... and the rows of a simulation report exactly these. *)
Theorem C44_reported_payoffs :
  forall rg mp sp biased zs ws pc pp sol ip data,
  inputs_ok sp mp pc pp -> solved sp mp biased zs ws pc pp sol ->
  sim_setting rg sp sol -> simulation rg mp sp sol ip pc pp data ->
  unscaled sp -> no_costs_for_older sp -> benefits_paid sp ->
  forall r, In r data -> exists f z, let a := o_state r in
    o_full r = Some f /\ shock_of sp mp r (z * shock_sd mp) /\
    forall c, (0 <= c < 3)%Z ->
      above_floor sp mp (a_period a) (a_educ a) (a_lagged a) (a_age a) (a_partner a) (a_stock a) (z * shock_sd mp) c ->
      at_ (f_flow f) c = flow sp mp (is_elterngeld sp) false (a_period a) (a_educ a) (a_lagged a) (a_type a) (a_age a)
                           (a_partner a) (a_stock a) c z.
Proof.
  intros rg mp sp biased zs ws pc pp sol ip data Hok Hs Hset Hsim U1 U2 U3 r Hr.
  destruct (rows_of_simulation rg mp sp biased zs ws pc pp sol Hok Hs ip data Hset Hsim) as (col & _ & H).
  destruct (H r Hr) as (z & f & _ & Hz & Hf & _ & _ & Ef & _). exists f, z. cbv zeta. refine (conj Hf (conj Hz _)).
  intros c Hc Ha. rewrite <- same_flow by assumption. rewrite Ef.
  assert (c = 0 \/ c = 1 \/ c = 2)%Z as [-> | [-> | ->]] by lia; reflexivity.
Qed.
Print Assumptions C44_reported_payoffs.

(** None of the four conditions can be dropped. *)
Theorem C44_scaled_wages_refuted :
  ~ (forall sp mp t e l ty a m x z c, spec_ok sp -> params_ok sp mp -> in_space sp t e l ty a m -> 0 <= x <= 1 ->
       no_costs_for_older sp -> benefits_paid sp -> above_floor sp mp t e l a m x (z * shock_sd mp) c -> (0 <= c < 3)%Z ->
       sim_flow sp mp t e l ty a m x (z * shock_sd mp) c = flow sp mp (is_elterngeld sp) false t e l ty a m x c z).
Proof.
  intros H. apply scaled_differs. pose proof (cmp_inputs 2 0 0 36) as (H1 & H2 & _).
  apply (H (cmp_spec 2 0 0 36) erz_params 0%Z 0%Z 2%Z 0%Z 0%Z 0%Z 0 0 0%Z H1 H2); try lra; try lia.
  - unfold in_space. cbn [cmp_spec num_periods num_educ_levels num_types child_age_max]. lia.
  - intros c Hc. assert (c = 1 \/ c = 2)%Z as [-> | ->] by lia; reflexivity.
  - right. cbn [cmp_spec child_benefits]. lra.
  - unfold above_floor, sim_resources_spec. change (0 =? 0)%Z with true. cbn iota zeta. rewrite cmp_base.
    change (partner_wage (cmp_spec 2 0 0 36) 0 0 0) with 0. rewrite cmp_net by lra.
    change (is_elterngeld (cmp_spec 2 0 0 36)) with false. unfold benefits_spec, raising_allowance. cbn [Z.eqb orb].
    change (basic_support (cmp_spec 2 0 0 36) 0 0) with (1 + 1 + (1 + 1 + 1)). cbn [cmp_spec erziehungsgeld]. cbv zeta.
    match goal with |- context [Rmax ?p ?q] => pose proof (Rmax_r p q) end. destruct (Rle_dec _ _); lra.
Qed.
Print Assumptions C44_scaled_wages_refuted.

Theorem C44_below_floor_refuted :
  ~ (forall sp mp t e l ty a m x z c, spec_ok sp -> params_ok sp mp -> in_space sp t e l ty a m -> 0 <= x <= 1 ->
       unscaled sp -> no_costs_for_older sp -> benefits_paid sp -> (0 <= c < 3)%Z ->
       sim_flow sp mp t e l ty a m x (z * shock_sd mp) c = flow sp mp (is_elterngeld sp) false t e l ty a m x c z).
Proof.
  intros H. apply floors_differ. pose proof (cmp_inputs 1 0 1000 36) as (H1 & H2 & _).
  apply (H (cmp_spec 1 0 1000 36) erz_params 0%Z 0%Z 2%Z 0%Z 0%Z 0%Z 0 0 2%Z H1 H2); try lra; try lia.
  - unfold in_space. cbn [cmp_spec num_periods num_educ_levels num_types child_age_max]. lia.
  - reflexivity.
  - intros c Hc. assert (c = 1 \/ c = 2)%Z as [-> | ->] by lia; reflexivity.
  - right. cbn [cmp_spec child_benefits]. lra.
Qed.
Print Assumptions C44_below_floor_refuted.

Theorem C44_costs_for_older_refuted :
  ~ (forall sp mp t e l ty a m x z c, spec_ok sp -> params_ok sp mp -> in_space sp t e l ty a m -> 0 <= x <= 1 ->
       unscaled sp -> benefits_paid sp -> above_floor sp mp t e l a m x (z * shock_sd mp) c -> (0 <= c < 3)%Z ->
       sim_flow sp mp t e l ty a m x (z * shock_sd mp) c = flow sp mp (is_elterngeld sp) false t e l ty a m x c z).
Proof.
  intros H. apply costs_differ. pose proof (cmp_inputs 1 10 0 36) as (H1 & H2 & _).
  apply (H (cmp_spec 1 10 0 36) erz_params 0%Z 0%Z 2%Z 0%Z (-1)%Z 0%Z 0 0 2%Z H1 H2); try lra; try lia.
  - unfold in_space. cbn [cmp_spec num_periods num_educ_levels num_types child_age_max]. lia.
  - reflexivity.
  - right. cbn [cmp_spec child_benefits]. lra.
  - unfold above_floor, sim_resources_spec. change (2 =? 0)%Z with false. cbn iota zeta. rewrite Rmult_0_l, cmp_observed.
    change (partner_wage (cmp_spec 1 10 0 36) 0 0 0) with 0. change (hours 2) with 38. rewrite cmp_net by lra.
    change (sim_allowance (cmp_spec 1 10 0 36) (-1) 0 2 (1 * 38) 0) with 0.
    change (sim_care_costs (cmp_spec 1 10 0 36) (-1) 2) with 0. change (child_benefit (cmp_spec 1 10 0 36) (-1)) with 0. lra.
Qed.
Print Assumptions C44_costs_for_older_refuted.

Theorem C44_without_child_benefits_refuted :
  ~ (forall sp mp t e l ty a m x z c, spec_ok sp -> params_ok sp mp -> in_space sp t e l ty a m -> 0 <= x <= 1 ->
       unscaled sp -> no_costs_for_older sp -> above_floor sp mp t e l a m x (z * shock_sd mp) c -> (0 <= c < 3)%Z ->
       sim_flow sp mp t e l ty a m x (z * shock_sd mp) c = flow sp mp (is_elterngeld sp) false t e l ty a m x c z).
Proof.
  intros H. apply allowance_differs. pose proof (cmp_inputs 1 0 0 0) as (H1 & H2 & _).
  apply (H (cmp_spec 1 0 0 0) erz_params 0%Z 0%Z 2%Z 0%Z 0%Z 0%Z 0 0 1%Z H1 H2); try lra; try lia.
  - unfold in_space. cbn [cmp_spec num_periods num_educ_levels num_types child_age_max]. lia.
  - reflexivity.
  - intros c Hc. assert (c = 1 \/ c = 2)%Z as [-> | ->] by lia; reflexivity.
  - unfold above_floor, sim_resources_spec. change (1 =? 0)%Z with false. cbn iota zeta. rewrite Rmult_0_l, cmp_observed.
    change (partner_wage (cmp_spec 1 0 0 0) 0 0 0) with 0. change (hours 1) with 18. rewrite cmp_net by lra.
    assert (0 <= sim_allowance (cmp_spec 1 0 0 0) 0 0 1 (1 * 18) 0).
    { unfold sim_allowance. change (is_elterngeld (cmp_spec 1 0 0 0)) with false. cbn iota. change (1 =? 1)%Z with true. cbn iota.
      unfold raising_allowance. cbn [Z.eqb orb cmp_spec erziehungsgeld]. destruct (Rle_dec _ _); lra. }
    change (sim_care_costs (cmp_spec 1 0 0 0) 0 1) with 0. change (child_benefit (cmp_spec 1 0 0 0) 0) with 0. lra.
Qed.
Print Assumptions C44_without_child_benefits_refuted.

(** *** The hypotheses are met: ten agents with three education levels over four periods,
    acting on the solution of the example specification, drawn by the generator of
    L_Rng.v; among the rows there are two consecutive ones of some agent. *)
Example C32_simulation : exists sol data,
  inputs_ok ex_spec ex_params ex_prob_child ex_prob_partner /\
  solved ex_spec ex_params false ex_draws ex_weights ex_prob_child ex_prob_partner sol /\
  sim_inputs_ok ex_rng ex_params ex_spec sol ex_ip ex_prob_child ex_prob_partner /\
  simulation ex_rng ex_params ex_spec sol ex_ip ex_prob_child ex_prob_partner data /\
  exists r r', follows data r r' /\ row_period r = 2%Z.
Proof.
  destruct (example_run ex_prob_child ex_inputs ex_child_probs) as (sol & data & H1 & H2 & H3 & H4).
  exists sol, data. exact (conj ex_inputs (conj H1 (conj H2 (conj H3 H4)))).
Qed.
(** two policies in one world: wages scaled by 1 and by 2, child benefits 0 and 36 *)
Example C42_worlds : same_world (cmp_spec 1 0 0 0) (cmp_spec 2 0 0 36) /\
  elasticity_scale (cmp_spec 1 0 0 0) <> elasticity_scale (cmp_spec 2 0 0 36) /\
  child_benefits (cmp_spec 1 0 0 0) <> child_benefits (cmp_spec 2 0 0 36).
Proof. split; [repeat split|]. cbn [cmp_spec elasticity_scale child_benefits]. split; lra. Qed.
Example C43_fits : (num_periods ex_spec <= 128)%Z /\ (num_educ_levels ex_spec <= 128)%Z /\ (child_age_max ex_spec <= 127)%Z /\
  (init_exp_max ex_spec + num_periods ex_spec <= 128)%Z.
Proof. cbn [ex_spec num_periods num_educ_levels child_age_max init_exp_max]. lia. Qed.
Example C44_conditions : unscaled ex_spec /\ no_costs_for_older ex_spec /\ benefits_paid ex_spec.
Proof.
  split; [reflexivity|]. split; [|left; reflexivity].
  intros c Hc. assert (c = 1 \/ c = 2)%Z as [-> | ->] by lia; reflexivity.
Qed.
