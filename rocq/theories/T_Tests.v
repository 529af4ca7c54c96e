(** Property theorem C92: assertions of the test suite that hold whatever random_init draws. *)
From Coq Require Import Reals Lra Lia ZArith List String.
From Verif Require Import Base Num M_Params M_StateSpace M_Tax M_Exog M_Sim M_Spec M_Main M_RandomInit S_StateSpace S_Bellman S_Solver S_Rng S_Sim S_SimInputs S_SimEntry S_Spec S_Main S_RandomInit S_Tests
  L_Num L_Spec L_Params L_Main L_RandomInit L_RandomValues L_Rng L_Solve L_Value L_Stability L_Tests T_Solve T_Sim T_SimEntry T_Reform T_Main T_RandomInit X_Example L_Witness.
Import ListNotations.
Local Open Scope string_scope.
Local Open Scope list_scope.
Open Scope R_scope.

(** C92, test_unit.test_unit_nan: the women of an education level are first seen in the period
    their education takes, if there are any ... *)
Theorem C92_first_period :
  forall rg dr c s ri s' x biased data, draws_ok dr -> admissible c -> random_init dr c s = Ok (ri, s') ->
  run_returns rg ri x (own_params ri) biased data ->
  forall years e y, cs_educ_years c = Some years -> nth_error years e = Some y ->
  (exists r, In r data /\ a_educ (o_state r) = Z.of_nat e) -> first_period data (Z.of_nat e) y.
Proof.
  intros rg dr c s ri s' x biased data Hd Hc E Hrun years e y Hy He Hr.
  destruct (run_inv rg dr c s ri s' x biased data Hd Hc E Hrun) as (df & mp & sp & ip & pc & pp & zs & ws & sol & Hp & Hm & _ & _ & Hi & Hsim).
  destruct (C88_constraints_kept dr c s ri s' Hd Hc E _ df mp [] Hp) as (sp' & Hm' & _ & _ & _ & _ & _ & _ & _ & _ & Hk). rewrite (Hm []) in Hm'.
  assert (sp' = sp) by congruence. subst sp'. rewrite Hy in Hk.
  apply (first_of_level rg mp sp sol ip pc pp data (si_setting _ _ _ _ _ _ _ Hi) Hsim); [lia|rewrite Hk, Nat2Z.id; exact He|exact Hr].
Qed.
Print Assumptions C92_first_period.

(** ... and no row of theirs exists if their education lasts until the end *)
Theorem C92_no_first_period :
  forall rg dr c s ri s' x biased data, draws_ok dr -> admissible c -> random_init dr c s = Ok (ri, s') ->
  run_returns rg ri x (own_params ri) biased data ->
  forall years e y p, cs_educ_years c = Some years -> nth_error years e = Some y -> cs_periods c = Some p -> (p <= y)%Z ->
  forall r, In r data -> a_educ (o_state r) <> Z.of_nat e.
Proof.
  intros rg dr c s ri s' x biased data Hd Hc E Hrun years e y p Hy He Hpe Hle r Hr Er.
  destruct (run_inv rg dr c s ri s' x biased data Hd Hc E Hrun) as (df & mp & sp & ip & pc & pp & zs & ws & sol & Hp & Hm & _ & _ & Hi & Hsim).
  destruct (C88_constraints_kept dr c s ri s' Hd Hc E _ df mp [] Hp) as (sp' & Hm' & _ & Hper & _ & _ & _ & _ & _ & _ & Hk). rewrite (Hm []) in Hm'.
  assert (sp' = sp) by congruence. subst sp'. rewrite Hy in Hk. rewrite Hpe in Hper. unfold set_to in Hper.
  destruct (level_period rg mp sp sol ip pc pp data (si_setting _ _ _ _ _ _ _ Hi) Hsim r Hr) as (y' & _ & Hy' & Hp' & _).
  rewrite Hk, Er, Nat2Z.id in Hy'. assert (y' = y) by congruence. lia.
Qed.
Print Assumptions C92_no_first_period.

(** test_unit.test_no_children_no_exp: nobody enters with a child or experience if the
    constraints exclude both *)
Theorem C92_no_children_no_experience :
  forall rg dr c s ri s' x biased data, draws_ok dr -> admissible c -> random_init dr c s = Ok (ri, s') ->
  run_returns rg ri x (own_params ri) biased data ->
  forall r, In r data -> row_period r = 0%Z ->
  (cs_child_age_init_max c = Some (-1)%Z -> a_age (o_state r) = (-1)%Z) /\
  (cs_init_exp_max c = Some 0%Z -> a_exp_pt (o_state r) = 0%Z /\ a_exp_ft (o_state r) = 0%Z).
Proof.
  intros rg dr c s ri s' x biased data Hd Hc E Hrun r Hr Hper.
  destruct (run_inv rg dr c s ri s' x biased data Hd Hc E Hrun) as (df & mp & sp & ip & pc & pp & zs & ws & sol & Hp & Hm & _ & _ & Hi & Hsim).
  destruct (C88_constraints_kept dr c s ri s' Hd Hc E _ df mp [] Hp) as (sp' & Hm' & _ & _ & _ & _ & _ & Ha & He & _). rewrite (Hm []) in Hm'.
  assert (sp' = sp) by congruence. subst sp'.
  pose proof (si_setting _ _ _ _ _ _ _ Hi) as Hset.
  pose proof (entered rg mp sp sol ip pc pp data Hset Hsim r Hr Hper) as Hen.
  destruct (C64_initial_conditions rg mp sp sol ip pc pp data Hset Hsim r Hen) as (_ & _ & _ & _ & _ & A1 & (q & _ & A2 & _) & _ & _ & P1 & (q1 & _ & P2 & _) & F1 & (q2 & _ & F2 & _)).
  split; intros H; rewrite H in *; unfold set_to in *; lia.
Qed.
Print Assumptions C92_no_children_no_experience.

(** test_unit.test_unit_data_frame_shape: the number of rows *)
Theorem C92_number_of_rows :
  forall rg dr c s ri s' x biased data, draws_ok dr -> admissible c -> random_init dr c s = Ok (ri, s') ->
  run_returns rg ri x (own_params ri) biased data ->
  forall years p ids0 ids1 ids2, cs_educ_years c = Some years -> cs_periods c = Some p ->
  ids_of_level data 0 ids0 -> ids_of_level data 1 ids1 -> ids_of_level data 2 ids2 ->
  zlen data = sumZ (map2 (fun ids y => zlen ids * (p - y))%Z [ids0; ids1; ids2] years).
Proof.
  intros rg dr c s ri s' x biased data Hd Hc E Hrun years p ids0 ids1 ids2 Hy Hpe H0 H1 H2.
  destruct (run_inv rg dr c s ri s' x biased data Hd Hc E Hrun) as (df & mp & sp & ip & pc & pp & zs & ws & sol & Hp & Hm & _ & _ & Hi & Hsim).
  destruct (C88_constraints_kept dr c s ri s' Hd Hc E _ df mp [] Hp) as (sp' & Hm' & _ & Hper & _ & _ & _ & _ & _ & _ & Hk). rewrite (Hm []) in Hm'.
  assert (sp' = sp) by congruence. subst sp'. rewrite Hy in Hk. rewrite Hpe in Hper. unfold set_to in Hper. rewrite <- Hper, <- Hk.
  pose proof (proj1 (ad_educ c Hc years Hy)) as L3. rewrite <- Hk in L3. unfold zlen in L3.
  apply (number_of_rows rg mp sp sol ip pc pp data (si_setting _ _ _ _ _ _ _ Hi) Hsim); [cbn [List.length]; lia|].
  intros [|[|[|e]]] ids Hn; cbn in Hn; try (destruct e; discriminate Hn); injection Hn as <-; assumption.
Qed.
Print Assumptions C92_number_of_rows.

(** test_get_simulate: values are flow utilities plus discounted continuation values, the
    choice is the first maximum (argmax); the discount factor is the one of the file *)
Theorem C92_bellman :
  forall rg dr c s ri s' x biased data, draws_ok dr -> admissible c -> random_init dr c s = Ok (ri, s') ->
  run_returns rg ri x (own_params ri) biased data ->
  exists df mp, read_model_params_init (own_params ri) = Ok (df, mp) /\
  forall r, In r data -> exists f, o_full r = Some f /\
    (forall a, (0 <= a < 3)%Z -> at_ (f_value f) a = at_ (f_flow f) a + delta mp * at_ (f_cont f) a) /\
    first_best (at_ (f_value f)) (o_choice r).
Proof.
  intros rg dr c s ri s' x biased data Hd Hc E Hrun.
  destruct (run_inv rg dr c s ri s' x biased data Hd Hc E Hrun) as (df & mp & sp & ip & pc & pp & zs & ws & sol & Hp & Hm & Hok & Hs & Hi & Hsim).
  exists df, mp. split; [exact Hp|]. intros r Hr.
  destruct (C34_choice_maximises_value rg mp sp biased zs ws pc pp sol ip data Hok Hs (si_setting _ _ _ _ _ _ _ Hi) Hsim r Hr) as (f & F1 & _ & _ & _ & F2 & F3).
  exists f. auto.
Qed.
Print Assumptions C92_bellman.

(** the function made by get_simulate_func gives the data of simulate *)
Theorem C92_same_function :
  forall dr c s ri s', draws_ok dr -> admissible c -> random_init dr c s = Ok (ri, s') ->
  forall rg roots s2 spi x biased sparse g h h1 f g1 h' g' g2,
  let sa := SpecPath (ri_yaml ri) 0 in
  get_simulate_func_of rg roots s2 spi (own_params ri) sa x biased sparse g h = (h1, Ok (f, g1)) ->
  snd (f (own_params ri) sa g' h') = snd (simulate_of rg roots s2 spi (own_params ri) sa x biased sparse g2 h').
Proof.
  intros dr c s ri s' Hd Hc E rg roots s2 spi x biased sparse g h h1 f g1 h' g' g2 sa Hf.
  destruct (C88_parameters dr c s ri s' Hd E) as (mp & Hp & _).
  destruct (C88_constraints_kept dr c s ri s' Hd Hc E _ _ mp h Hp) as (sp & Hm & _).
  destruct (C88_constraints_kept dr c s ri s' Hd Hc E _ _ mp h' Hp) as (sp' & Hm' & _).
  assert (sp' = sp).
  { rewrite (read_at_any_heap dr c s ri s' _ h' h E) in Hm'. congruence. }
  subst sp'. apply (C55_function_reused rg roots s2 spi _ _ x biased sparse g h h1 f g1 _ _ g' g2 h' mp sp mp Hf Hm); [|exact Hm'].
  exact (yaml_arg_ok dr c s ri s' h' E).
Qed.
Print Assumptions C92_same_function.

(** test_expectation: education, type, partner, children, periods and the earnings of partners
    are the same for all parameters that agree on the shares of the types, under biased and
    unbiased expectations *)
Theorem C92_demography :
  forall rg dr c s ri s' x biased biased' data data' pa' df' mp', draws_ok dr -> admissible c -> random_init dr c s = Ok (ri, s') ->
  run_returns rg ri x (own_params ri) biased data ->
  read_model_params_init pa' = Ok (df', mp') -> assoc_get "shares" df' = assoc_get "shares" (frame_to_dict (ri_params ri)) ->
  run_returns rg ri x pa' biased' data' ->
  map (fun r => exogenous (o_state r)) data' = map (fun r => exogenous (o_state r)) data /\
  map (fun r => option_map f_male_wage (o_full r)) data' = map (fun r => option_map f_male_wage (o_full r)) data.
Proof.
  intros rg dr c s ri s' x biased biased' data data' pa' df' mp' Hd Hc E Hrun Hp' Hs Hrun'.
  destruct (run_inv rg dr c s ri s' x biased data Hd Hc E Hrun) as (df & mp & sp & ip & pc & pp & zs & ws & sol & Hp & Hm & _ & _ & Hi & _).
  destruct Hrun as (_ & roots & s2 & spi & g & h & g' & Hrg & _ & R1). destruct Hrun' as (_ & roots' & s2' & spi' & g2 & h2 & g2' & _ & _ & R2).
  assert (df = frame_to_dict (ri_params ri)) by (destruct (C88_parameters dr c s ri s' Hd E) as (mp0 & Hp0 & _); unfold own_params in Hp; congruence). subst df.
  assert (Hsp : forall h0, snd (read_model_spec_init (SpecPath (ri_yaml ri) 0) (frame_to_dict (ri_params ri)) h0) = Ok sp).
  { intros h0. specialize (Hm h0). rewrite read_model_value, Hp in Hm.
    destruct (snd (read_model_spec_init (SpecPath (ri_yaml ri) 0) (frame_to_dict (ri_params ri)) h0)) as [sp0|e]; congruence. }
  exact (demography rg roots s2 spi roots' s2' spi' _ pa' _ x biased biased' g g2 g' g2' h h2 _ df' mp mp' sp data data'
    Hrg (yaml_arg_ok dr c s ri s' h E) (yaml_arg_ok dr c s ri s' h2 E) Hp Hp' Hs (Hsp h) (Hsp h2) (proj1 (proj2 (si_setting _ _ _ _ _ _ _ Hi))) R1 R2).
Qed.
Print Assumptions C92_demography.

(** test_expectation as a whole: the frame with increments of one year is read, only these
    increments differ, both runs return data that agree in the columns compared, and with the new
    frame the kind of expectations makes no difference at all *)
Theorem C92_expectation :
  forall rg dr c s ri s' x, draws_ok dr -> admissible c -> random_init dr c s = Ok (ri, s') -> names_files (ri_yaml ri) (ri_files ri) x ->
  rng_ok rg -> rng_total rg ->
  let df := frame_to_dict (full_increments (ri_params ri)) in
  let run pa biased roots s2 spi g h := snd (simulate_of rg roots s2 spi pa (SpecPath (ri_yaml ri) 0) x biased false g h) in
  exists mp', read_model_params_init (ParamsFrame df) = Ok (df, mp') /\ gamma_p mp' = [1; 1; 1] /\ gamma_p_mom mp' = 0 /\
    (forall category, category <> "exp_increase_p" -> category <> "exp_increase_p_mom" ->
       assoc_get category df = assoc_get category (frame_to_dict (ri_params ri))) /\
    forall roots s2 spi g h, exists data g1 data' g1',
      run (own_params ri) false roots s2 spi g h = Ok (data, g1) /\ run (ParamsFrame df) true roots s2 spi g h = Ok (data', g1') /\
      map (fun r => exogenous (o_state r)) data' = map (fun r => exogenous (o_state r)) data /\
      map (fun r => option_map f_male_wage (o_full r)) data' = map (fun r => option_map f_male_wage (o_full r)) data /\
      run (ParamsFrame df) false roots s2 spi g h = Ok (data', g1').
Proof.
  intros rg dr c s ri s' x Hd Hc E Hx Hrg Htot df run. pose proof (random_init_inv dr c s ri s' E) as (st & d & fs & s1 & s2' & Eri & E1 & E2 & E3).
  destruct (params_drawn dr Hd s1) as (d' & s2'' & E2' & Hp). assert (d' = d) by congruence. subst d'. cbv zeta in Hp.
  destruct Hp as ((mp & Hp & _ & _ & _ & HL) & Ht).
  assert (Ep : ri_params ri = params_frame d) by (rewrite Eri; reflexivity). rewrite <- Ep in Hp, Ht.
  destruct (full_read (ri_params ri) mp Hp HL) as (mp' & Hp' & G1 & G2 & G3). fold df in Hp', G3.
  exists mp'. split; [exact Hp'|]. split; [exact G1|]. split; [exact G2|]. split; [exact G3|]. intros roots s2 spi g h.
  assert (R : forall pa df0 mp0 biased, read_model_params_init pa = Ok (df0, mp0) ->
    (forall k, k <> "exp_increase_p" -> k <> "exp_increase_p_mom" -> assoc_get k df0 = assoc_get k (frame_to_dict (ri_params ri))) ->
    exists data g1, run pa biased roots s2 spi g h = Ok (data, g1)).
  { intros pa df0 mp0 biased Hp0 Hk. unfold run. rewrite Eri. cbn [ri_yaml]. rewrite Eri in Hx. cbn [ri_yaml ri_files] in Hx.
    assert (Ha : arg_ok (SpecPath (spec_yaml st) 0) h) by (split; [exact (yaml_closed st)|cbn; lia]).
    assert (K1 : assoc_get "shares" df0 = assoc_get "shares" (frame_to_dict (ri_params ri))) by (apply Hk; discriminate).
    assert (K2 : assoc_get "hetrg_unobs" df0 = assoc_get "hetrg_unobs" (frame_to_dict (ri_params ri))) by (apply Hk; discriminate).
    destruct Ht as [Ht|(n & share & p & f & (T1 & het & T2 & T3) & Hs)].
    - destruct (C52_program_returns_one_type rg roots s2 spi _ (SpecPath (spec_yaml st) 0) x h _ _ _ _ _ mp0 Hrg Htot eq_refl Ha (yaml_complete st) Hp0 ltac:(congruence)) as (sp & Ag & _ & Hrun).
      destruct (drawn_files_ok dr Hd c s s1 s2' s' st d fs _ sp x Hc E1 E2 E3 Hx Ag) as (U & F). exact (Hrun U F biased false g).
    - assert (Hw : with_types df0 n share p f) by (split; [congruence|exists het; split; [congruence|exact T3]]).
      destruct (C52_program_returns rg roots s2 spi _ (SpecPath (spec_yaml st) 0) x h _ _ _ _ _ mp0 n share p f Hrg Htot eq_refl Ha (yaml_complete st) Hp0 Hw Hs) as (sp & Ag & Hrun).
      destruct (drawn_files_ok dr Hd c s s1 s2' s' st d fs _ sp x Hc E1 E2 E3 Hx Ag) as (U & F). exact (Hrun U F biased false g). }
  destruct (R (own_params ri) _ mp false Hp ltac:(reflexivity)) as (data & g1 & D1).
  destruct (R (ParamsFrame df) _ mp' true Hp' G3) as (data' & g1' & D2).
  exists data, g1, data', g1'. split; [exact D1|]. split; [exact D2|].
  destruct (C92_demography rg dr c s ri s' x false true data data' (ParamsFrame df) df mp' Hd Hc E) as (Q1 & Q2).
  - split; [exact Hx|]. exists roots, s2, spi, g, h, g1. auto.
  - exact Hp'.
  - apply G3; discriminate.
  - split; [exact Hx|]. exists roots, s2, spi, g, h, g1'. auto.
  - split; [exact Q1|]. split; [exact Q2|]. rewrite <- D2. unfold run.
    assert (Ha : arg_ok (SpecPath (ri_yaml ri) 0) h) by exact (yaml_arg_ok dr c s ri s' h E).
    rewrite !program_value by exact Ha. rewrite read_model_value, Hp'.
    destruct (snd (read_model_spec_init (SpecPath (ri_yaml ri) 0) df h)) as [sp|e]; [|reflexivity]. cbn [bind].
    symmetry. apply C62_correct_bias_data; [rewrite G1; discriminate|rewrite G1; intros y Hy; cbn [In] in Hy; intuition congruence|exact G2].
Qed.
Print Assumptions C92_expectation.

(** test_missing_spec: entries deleted from (or changed in) the file's dictionary *)
Theorem C92_missing_entries :
  forall dr c s ri s' df, random_init dr c s = Ok (ri, s') ->
  let out h := snd (read_model_spec_init (SpecDict 0) df h) in
  let y := ri_yaml ri in
  out (edit_taxes (without "tax_year") y) = Err (ValueError "Specify tax_year.") /\
  (forall n, n <> 2007%Z -> out (edit_taxes (with_entry "tax_year" (VInt n)) y) = Err (ValueError "Tax year not implemented.")) /\
  out (edit_taxes (without "child_care_costs") y) = Err (ValueError "Child care costs not properly specified.") /\
  out (edit_costs (without "under_3") y) = Err (ValueError "Child care costs not properly specified.") /\
  out (edit_costs (without "3_to_6") y) = Err (ValueError "Child care costs not properly specified.") /\
  out (edit_taxes (without "tax_splitting") y) = Err (ValueError "Specify if couples share taxes.") /\
  exists sp, out y = Ok sp.
Proof.
  intros dr c s ri s' df E. destruct (random_init_inv dr c s ri s' E) as (st & d & fs & s1 & s2 & -> & _). cbv zeta. cbn [ri_yaml].
  exact (missing_entries st df).
Qed.
Print Assumptions C92_missing_entries.

(** test_construction_emax: in the last period the expected maximum is the weighted maximum of the
    flow utilities; it is their maximum at a shock of zero up to what the shocks change in the
    utilities, and exactly so without shocks *)
Theorem C92_last_period :
  forall sp mp biased zs ws pc pp, inputs_ok sp mp pc pp -> nonneg_weights zs ws -> average (fun _ => 1) (combine zs ws) = 1 ->
  forall t e l ty a m g x v, in_space sp t e l ty a m -> t = (num_periods sp - 1)%Z -> nth_error (exp_grid sp) g = Some x ->
  solver_cell sp mp biased zs ws pc pp t e l ty a m g 3 = Ok v ->
  let u := flow sp mp (is_elterngeld sp) biased t e l ty a m x in
  let best z := Rmax (Rmax (u 0%Z z) (u 1%Z z)) (u 2%Z z) in
  v = average best (combine zs ws) /\
  (forall eps, (forall z w c, In (z, w) (combine zs ws) -> (0 <= c < 3)%Z -> Rabs (u c z - u c 0) <= eps) -> Rabs (v - best 0) <= eps) /\
  (shock_sd mp = 0 -> v = best 0).
Proof.
  intros sp mp biased zs ws pc pp Hok Hw Hw1 t e l ty a m g x v Hin Ht Hx Hv u best.
  assert (E : v = average best (combine zs ws)).
  { destruct (C24_solver_is_bellman sp mp biased zs ws pc pp Hok t e l ty a m g x Hin Hx) as (H3 & _). rewrite H3 in Hv. injection Hv as <-.
    replace (remaining sp t) with 0%nat by (unfold remaining; lia). cbn [value]. apply average_ext. intros z. unfold best, best3, u. rewrite Rmult_0_r, !Rplus_0_r. reflexivity. }
  split; [exact E|]. assert (N : forall eps, (forall z w c, In (z, w) (combine zs ws) -> (0 <= c < 3)%Z -> Rabs (u c z - u c 0) <= eps) -> Rabs (v - best 0) <= eps).
  { intros eps He. rewrite E. assert (K : average (fun _ => best 0) (combine zs ws) = best 0) by (rewrite average_const, Hw1; ring). rewrite <- K at 1.
    apply (average_near eps (fun _ => best 0) best); [exact Hw|exact Hw1|]. intros z w Hz. apply (best3_near eps (fun c => u c 0) (fun c => u c z)). intros c Hc. exact (He z w c Hz Hc). }
  split; [exact N|]. intros H0. specialize (N 0). assert (Rabs (v - best 0) <= 0).
  { apply N. intros z w c _ Hc. replace (u c z) with (u c 0); [rewrite Rminus_diag_eq by reflexivity; rewrite Rabs_R0; lra|].
    unfold u, flow. rewrite H0, !Rmult_0_r. reflexivity. }
  pose proof (Rabs_pos (v - best 0)). assert (Z : Rabs (v - best 0) = 0) by lra. destruct (Req_dec (v - best 0) 0) as [|Hne]; [lra|]. apply Rabs_no_R0 in Hne. contradiction.
Qed.
Print Assumptions C92_last_period.
Example C92_last_period_case : inputs_ok ex_spec ex_params ex_prob_child ex_prob_partner /\ nonneg_weights ex_draws ex_weights /\ average (fun _ => 1) (combine ex_draws ex_weights) = 1 /\
  in_space ex_spec 3 2 1 1 3 0 /\ num_periods ex_spec = 4%Z.
Proof.
  split; [exact ex_inputs|]. split; [exact ex_weights_ok|]. split; [exact ex_weights_sum|]. split; [|reflexivity].
  unfold in_space; cbn [ex_spec num_periods num_educ_levels num_types child_age_max]; lia.
Qed.

(** *** The hypotheses are met *)

(** every run that random_init prepares returns a data set; with ten agents without education
    or children, each of them is seen in period 0 *)
Example C92_case : forall dr s, draws_ok dr ->
  exists ri s' x data, random_init dr childless_constraints s = Ok (ri, s') /\ run_returns ex_rng ri x (own_params ri) true data /\
  forall id, (0 <= id < 10)%Z -> exists r, In r data /\ row_id r = id /\ row_period r = 0%Z.
Proof.
  intros dr s Hd. assert (Hc : admissible childless_constraints) by apply C88_admissible.
  destruct (C88_inputs_run dr childless_constraints s Hd Hc) as (ri & s' & E & (x & Hx) & Hrun).
  destruct (Hrun x ex_rng (fun _ => ([], [])) 1 1 [] true false (rng_seed ex_rng 0%Z) Hx ex_rng_ok ex_rng_total) as (data & g' & D).
  assert (R : run_returns ex_rng ri x (own_params ri) true data).
  { split; [exact Hx|]. do 6 eexists. split; [exact ex_rng_ok|]. split; [exact ex_rng_total|]. exact D. }
  exists ri, s', x, data. split; [exact E|]. split; [exact R|]. intros id Hid.
  destruct (run_inv ex_rng dr _ s ri s' x true data Hd Hc E R) as (df & mp & sp & ip & pc & pp & zs & ws & sol & Hp & Hm & _ & _ & Hi & Hsim).
  destruct (C88_constraints_kept dr _ s ri s' Hd Hc E _ df mp [] Hp) as (sp' & Hm' & Ha & Hper & _ & _ & _ & _ & _ & _ & Hk). rewrite (Hm []) in Hm'.
  assert (sp' = sp) by congruence. subst sp'. cbn [set_to childless_constraints cs_agents cs_periods cs_educ_years] in Ha, Hper, Hk.
  destruct (C32_panel ex_rng mp sp sol ip pc pp data (si_setting _ _ _ _ _ _ _ Hi) Hsim) as (_ & educs & L & _ & P & _).
  destruct (nth_error educs (Z.to_nat id)) as [e|] eqn:En; [|apply nth_error_None in En; unfold zlen in L; lia].
  destruct (P _ _ En) as (y & _ & Hy & Hiff). rewrite Hk in Hy. assert (y = 0)%Z by (destruct (Z.to_nat e) as [|[|[|k]]]; cbn in Hy; try congruence; destruct k; discriminate Hy).
  destruct (proj2 (Hiff 0%Z) ltac:(lia)) as (r & Hr & Kr). unfold row_key in Kr. injection Kr as K1 K2. exists r. split; [exact Hr|]. split; lia.
Qed.

(** ... without a child and without experience *)
Example C92_case_childless : forall dr s ri s' x data, draws_ok dr -> random_init dr childless_constraints s = Ok (ri, s') ->
  run_returns ex_rng ri x (own_params ri) true data -> forall r, In r data -> row_period r = 0%Z ->
  a_age (o_state r) = (-1)%Z /\ a_exp_pt (o_state r) = 0%Z /\ a_exp_ft (o_state r) = 0%Z.
Proof.
  intros dr s ri s' x data Hd E R r Hr Hp. destruct (C92_no_children_no_experience ex_rng dr childless_constraints s ri s' x true data Hd (proj2 (proj2 C88_admissible)) E R r Hr Hp) as (H1 & H2).
  split; [apply H1; reflexivity|apply H2; reflexivity].
Qed.
