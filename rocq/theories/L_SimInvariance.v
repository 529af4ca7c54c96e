(** Data of populations without children, without partners, and of one education level and
    type (C69 - C71). *)
From Coq Require Import Reals Lra Lia ZArith List Arith.
From Verif Require Import Base Num M_Params M_Experience M_Tax M_NonEmployment M_StateSpace M_Solve M_Exog M_Sim
  L_Num S_Experience L_Experience S_Interp L_Interp S_Tax S_Benefits L_Tax L_Benefits S_StateSpace L_StateSpace S_Rng S_Sim S_Bellman L_Bellman
  S_Solver L_Solve L_Solver S_SimInputs S_SimEntry S_SimSame S_Invariance S_Reform L_Value L_Invariance L_Reform
  L_Trace L_SimUpdate L_SimInit L_Sim L_SimData L_SimProps L_SimPairs L_SimFlow L_SimEntry L_SimSame.
Import ListNotations.
Open Scope R_scope.

Lemma first_best_unique v c c' : first_best v c -> first_best v c' -> c = c'.
Proof.
  intros (R1 & M1 & S1) (R2 & M2 & S2). destruct (Z.lt_trichotomy c c') as [H|[H|H]]; [|assumption|].
  - specialize (S2 c ltac:(lia)). specialize (M1 c' R2). lra.
  - specialize (S1 c' ltac:(lia)). specialize (M2 c R1). lra.
Qed.

Section TwoEconomies.
  Variables sp1 sp2 : model_spec R.
  Variables mp1 mp2 : model_params R.
  Variable biased : bool.
  Variables zs ws : list R.
  Variable pc : list (list R).
  Variable pp : list (list (list (R * R))).
  Variables sol1 sol2 : solution R.
  Hypothesis Hok1 : inputs_ok sp1 mp1 pc pp.
  Hypothesis Hok2 : inputs_ok sp2 mp2 pc pp.
  Hypothesis Hs1 : solved sp1 mp1 biased zs ws pc pp sol1.
  Hypothesis Hs2 : solved sp2 mp2 biased zs ws pc pp sol2.
  Notation C1 := (continuation sp1 mp1 (is_elterngeld sp1) biased (combine zs ws) (child_fun pc) (partner_fun pp)).
  Notation C2 := (continuation sp2 mp2 (is_elterngeld sp2) biased (combine zs ws) (child_fun pc) (partner_fun pp)).

  Hypothesis Hw : same_world sp1 sp2.
  Hypothesis Hgrid : exp_grid sp2 = exp_grid sp1.
  Hypothesis Hdelta : delta mp2 = delta mp1.
  Hypothesis Hsd : shock_sd mp2 = shock_sd mp1.
  Hypothesis Hsh : type_shares mp2 = type_shares mp1.

  (** education, type, age of the child, partner: economically the same in both *)
  Definition same_state (e ty a m : Z) : Prop :=
    pt_credit mp2 false e a = pt_credit mp1 false e a /\
    forall t l x, in_space sp1 t e l ty a m ->
    partner_wage sp2 t e m = partner_wage sp1 t e m /\
    (forall s, observed_wage sp2 mp2 t e a x s = observed_wage sp1 mp1 t e a x s) /\
    leisure mp2 e ty a 1 = leisure mp1 e ty a 1 /\ leisure mp2 e ty a 2 = leisure mp1 e ty a 2 /\
    (forall s c, (0 <= c < 3)%Z -> sim_flow sp2 mp2 t e l ty a m x s c = sim_flow sp1 mp1 t e l ty a m x s c) /\
    (forall c, (0 <= c < 3)%Z -> C2 (remaining sp1 t) t e ty a m c x = C1 (remaining sp1 t) t e ty a m c x).

  Lemma space2 t e l ty a m : in_space sp1 t e l ty a m -> in_space sp2 t e l ty a m.
  Proof. destruct Hw as (W1 & W2 & W3 & W4 & W5 & _). unfold in_space. rewrite W1, W2, W3, W5. tauto. Qed.

  Lemma same_row a d r1 i1 r2 i2 : agent_in_space sp1 a -> same_state (a_educ a) (a_type a) (a_age a) (a_partner a) ->
    sim_row mp1 sp1 sol1 false false (a_period a) a d = Ok (r1, i1) ->
    sim_row mp2 sp2 sol2 false false (a_period a) a d = Ok (r2, i2) -> r1 = r2.
  Proof.
    intros Hin [_ Hsame] Q1 Q2. destruct a as [aid t e l pt ft x ty a m].
    unfold agent_in_space in Hin. cbn [a_period a_educ a_lagged a_type a_age a_partner a_stock] in *.
    destruct (Hsame t l x Hin) as (Epw & Eow & El1 & El2 & Efl & Econt).
    pose proof (space2 _ _ _ _ _ _ Hin) as Hin2.
    destruct (row_payoffs mp1 sp1 biased zs ws pc pp sol1 Hok1 Hs1 t e l ty a m x d aid pt ft r1 i1 Hin Q1) as (f1 & A1 & A2 & A3 & A4 & A5 & A6 & A7).
    destruct (row_payoffs mp2 sp2 biased zs ws pc pp sol2 Hok2 Hs2 t e l ty a m x d aid pt ft r2 i2 Hin2 Q2) as (f2 & B1 & B2 & B3 & B4 & B5 & B6 & B7).
    pose proof (sim_row_facts mp1 sp1 sol1 (sizes' sp1 mp1 pc pp Hok1) (solved_solution mp1 sp1 biased zs ws pc pp sol1 Hs1)
                  false false t (mkAgent aid t e l pt ft x ty a m) d r1 i1 Hin Q1) as RF1.
    pose proof (sim_row_facts mp2 sp2 sol2 (sizes' sp2 mp2 pc pp Hok2) (solved_solution mp2 sp2 biased zs ws pc pp sol2 Hs2)
                  false false t (mkAgent aid t e l pt ft x ty a m) d r2 i2 Hin2 Q2) as RF2.
    pose proof (rf_state _ _ _ _ _ _ _ _ _ _ RF1) as G1. pose proof (rf_state _ _ _ _ _ _ _ _ _ _ RF2) as G2.
    pose proof (rf_wage _ _ _ _ _ _ _ _ _ _ RF1) as V1. pose proof (rf_wage _ _ _ _ _ _ _ _ _ _ RF2) as V2.
    assert (He : (0 <= t)%Z /\ (0 <= e < num_educ_levels sp1)%Z) by (unfold in_space in Hin; lia).
    assert (He2 : (0 <= e < num_educ_levels sp2)%Z) by (unfold in_space in Hin2; lia).
    rewrite (sim_wage_eq mp1 sp1 pc pp Hok1) in V1 by (cbn [a_educ]; lia).
    rewrite (sim_wage_eq mp2 sp2 pc pp Hok2) in V2 by (cbn [a_educ]; lia).
    cbn [a_educ a_age a_stock] in V1, V2. rewrite Eow in V2.
    assert (Ef : f_flow f2 = f_flow f1).
    { rewrite A4, B4. apply map_ext_in. intros c Hc. apply Efl. cbn in Hc. lia. }
    assert (Er : remaining sp2 t = remaining sp1 t) by (unfold remaining; destruct Hw as (-> & _); reflexivity).
    assert (Ecn : f_cont f2 = f_cont f1).
    { rewrite A5, B5, Hgrid, Er. apply map_ext_in. intros c Hc. f_equal. apply map_ext_in. intros y _.
      destruct (Hsame t l y Hin) as (_ & _ & _ & _ & _ & E). apply E. cbn in Hc. lia. }
    assert (Ev : f_value f2 = f_value f1) by (rewrite A6, B6, Ef, Ecn, Hdelta; reflexivity).
    rewrite Ev in B7. pose proof (first_best_unique _ _ _ A7 B7) as Ech.
    assert (Eff : f2 = f1).
    { destruct f1 as [u1 u2 u3 u4 u5], f2 as [v1 v2 v3 v4 v5]. cbn [f_male_wage f_non_cons f_flow f_cont f_value] in *.
      rewrite El1, El2 in B3. congruence. }
    destruct r1 as [s1 c1 w1 k1], r2 as [s2 c2 w2 k2]. cbn [o_state o_choice o_wage o_full] in *. congruence.
  Qed.

  Lemma same_increment e ty a m t l : in_space sp1 t e l ty a m -> same_state e ty a m ->
    get_pt_increment mp2 e a false = get_pt_increment mp1 e a false.
  Proof.
    intros Hin [E _]. pose proof (space2 _ _ _ _ _ _ Hin) as Hin2. unfold in_space in Hin, Hin2.
    rewrite (increment_spec sp1 mp1) by (try apply Hok1; lia). rewrite (increment_spec sp2 mp2) by (try apply Hok2; lia). exact E.
  Qed.

  Lemma same_data rg ip data1 data2 (K : Z * Z * Z * Z * Z * Z -> Prop) (J : Z -> Z -> Prop) :
    sim_setting rg sp1 sol1 -> sim_setting rg sp2 sol2 ->
    simulation rg mp1 sp1 sol1 ip pc pp data1 -> simulation rg mp2 sp2 sol2 ip pc pp data2 ->
    (forall r, In r data1 -> K (exogenous (o_state r))) ->
    (forall id p e ty a m, K (id, p, e, ty, a, m) -> J e ty -> same_state e ty a m) ->
    Forall2 (alike_rows J eq) data1 data2.
  Proof.
    intros (Hrg & P1 & L1) (_ & P2 & L2) (g1 & g1' & D1) (g2 & g2' & D2) HK Hst.
    apply (same_rows rg Hrg mp1 mp2 sp1 sp2 sol1 sol2 ip pc pp P1 P2 L1 L2 Hw (eq_sym Hsh) (eq_sym Hsd) false false K J
      eq (fun _ => True) (fun _ => True))
      with (g1 := g1) (g2 := g2) (g1' := g1') (g2' := g2'); try assumption.
    - congruence.
    - intros r1 r2 ->. reflexivity.
    - intros id p e a m x y t a0 Hin HKa HJ. unfold a0, init_agent. cbv zeta.
      rewrite (same_increment e t a m p (a_lagged a0)); [|exact Hin|apply (Hst _ _ _ _ _ _ HKa HJ)].
      destruct Hw as (_ & _ & _ & _ & _ & _ & -> & _). reflexivity.
    - intros a d r1 i1 r2 i2 Hin HKa _ HJ Q1 _ Q2.
      apply (same_row a d r1 i1 r2 i2 Hin (Hst _ _ _ _ _ _ HKa HJ) Q1 Q2).
    - intros a c age m Hin HKa HJ. unfold next_agent. cbv zeta.
      rewrite (same_increment _ _ _ _ _ _ Hin (Hst _ _ _ _ _ _ HKa HJ)).
      destruct Hw as (_ & _ & _ & _ & _ & _ & -> & _). reflexivity.
    - intros r Hr. exact (conj (HK r Hr) I).
    - intros. exact I.
  Qed.

  Lemma same_data_all rg ip data1 data2 (K : Z * Z * Z * Z * Z * Z -> Prop) :
    sim_setting rg sp1 sol1 -> sim_setting rg sp2 sol2 ->
    simulation rg mp1 sp1 sol1 ip pc pp data1 -> simulation rg mp2 sp2 sol2 ip pc pp data2 ->
    (forall r, In r data1 -> K (exogenous (o_state r))) ->
    (forall id p e ty a m, K (id, p, e, ty, a, m) -> same_state e ty a m) ->
    data2 = data1.
  Proof.
    intros A1 A2 A3 A4 HK Hst.
    assert (F : Forall2 (alike_rows (fun _ _ => True) eq) data1 data2).
    { apply (same_data rg ip data1 data2 K (fun _ _ => True)); try assumption. intros; eapply Hst; eassumption. }
    clear - F. induction F as [|r1 r2 l1 l2 [_ H] F IH]; [reflexivity|]. rewrite IH, (H I). reflexivity.
  Qed.
End TwoEconomies.


(** *** No children *)
Section Childless.
  Variables sp sp' : model_spec R.
  Variables mp mp' : model_params R.
  Variable biased : bool.
  Variables zs ws : list R.
  Variable pc : list (list R).
  Variable pp : list (list (list (R * R))).
  Hypothesis Hok : inputs_ok sp mp pc pp.
  Hypothesis Hs : same_without_children sp sp' mp mp'.
  Hypothesis Hpc : no_births pc.

  Lemma no_births_fun t e : (0 <= t < num_periods sp)%Z -> (0 <= e < num_educ_levels sp)%Z -> child_fun pc t e = 0.
  Proof.
    intros Ht He. destruct Hok as (_ & _ & (L1 & L2) & _). unfold child_fun, at_.
    assert (Hr : In (nth (Z.to_nat t) pc []) pc) by (apply nth_In; unfold zlen in L1; lia).
    apply (Hpc _ Hr). apply nth_In. specialize (L2 _ Hr). unfold zlen in L2. lia.
  Qed.

  Lemma base_childless t e x : base_wage sp' mp' t e (-1) x = base_wage sp mp t e (-1) x.
  Proof.
    unfold base_wage. rewrite (credit_childless sp sp' mp mp' Hs).
    rewrite (sw_init _ _ _ _ Hs), (sw_gamma_0 _ _ _ _ Hs), (sw_gamma_1 _ _ _ _ Hs). reflexivity.
  Qed.
  Lemma observed_childless t e x s : observed_wage sp' mp' t e (-1) x s = observed_wage sp mp t e (-1) x s.
  Proof. unfold observed_wage. rewrite base_childless, (sw_elasticity _ _ _ _ Hs). reflexivity. Qed.
  Lemma leisure_childless e ty c : leisure mp' e ty (-1) c = leisure mp e ty (-1) c.
  Proof.
    unfold leisure. change (-1 =? -1)%Z with true. cbv zeta. unfold part_time_term, full_time_term.
    rewrite (sw_theta_p _ _ _ _ Hs), (sw_theta_f _ _ _ _ Hs), (sw_no_kids_f _ _ _ _ Hs), (sw_no_kids_p _ _ _ _ Hs). reflexivity.
  Qed.
  Lemma sim_flow_childless t e l ty m x s c :
    sim_flow sp' mp' t e l ty (-1) m x s c = sim_flow sp mp t e l ty (-1) m x s c.
  Proof.
    unfold sim_flow. rewrite leisure_childless, (sw_mu _ _ _ _ Hs).
    assert (E : sim_resources_spec sp' mp' t e l (-1) m x s c = sim_resources_spec sp mp t e l (-1) m x s c); [|rewrite E; reflexivity].
    unfold sim_resources_spec. cbv zeta. rewrite observed_childless, base_childless.
    rewrite !(partner_wage_childless sp sp' mp mp' Hs), !(net_childless sp sp' mp mp' Hs).
    unfold child_benefit. change (-1 =? -1)%Z with true. cbn iota.
    rewrite (benefits_childless sp sp' mp mp' Hs (is_elterngeld sp) (is_elterngeld sp')).
    destruct (c =? 0)%Z; [reflexivity|].
    assert (Ea : forall q own male, sim_allowance q (-1) m c own male = 0).
    { intros q own male. unfold sim_allowance, raising_allowance. change ((-1 =? 0) || (-1 =? 1))%Z with false.
      destruct (is_elterngeld q); [reflexivity|]. destruct (c =? 1)%Z; reflexivity. }
    rewrite !Ea. unfold sim_care_costs. change (0 <=? -1)%Z with false. change (3 <=? -1)%Z with false. cbn [andb]. reflexivity.
  Qed.
  Lemma continuation_childless t e ty m c x : (0 <= t < num_periods sp)%Z -> (0 <= e < num_educ_levels sp)%Z ->
    continuation sp' mp' (is_elterngeld sp') biased (combine zs ws) (child_fun pc) (partner_fun pp) (remaining sp t) t e ty (-1) m c x
    = continuation sp mp (is_elterngeld sp) biased (combine zs ws) (child_fun pc) (partner_fun pp) (remaining sp t) t e ty (-1) m c x.
  Proof.
    intros Ht He. assert (En : (t + Z.of_nat (remaining sp t) = num_periods sp - 1)%Z) by (unfold remaining; lia).
    destruct (remaining sp t) as [|n]; [reflexivity|]. cbn [continuation]. unfold expected_next. cbv zeta.
    rewrite no_births_fun by lia. rewrite (stock_childless sp sp' mp mp' Hs), (sw_grid _ _ _ _ Hs).
    change (aged sp' (-1)) with (-1)%Z. change (aged sp (-1)) with (-1)%Z.
    assert (E : forall m', interpolate (exp_grid sp)
        (map (value sp' mp' (is_elterngeld sp') biased (combine zs ws) (child_fun pc) (partner_fun pp) n (t + 1)%Z e c ty (-1)%Z m') (exp_grid sp))
        (stock_next sp mp biased t e (-1) c x)
      = interpolate (exp_grid sp)
        (map (value sp mp (is_elterngeld sp) biased (combine zs ws) (child_fun pc) (partner_fun pp) n (t + 1)%Z e c ty (-1)%Z m') (exp_grid sp))
        (stock_next sp mp biased t e (-1) c x)).
    { intros m'. apply interpolate_ext. intros y _. apply (value_childless sp sp' mp mp' Hs); try lia; intros; apply no_births_fun; lia. }
    rewrite !E. lra.
  Qed.

  Lemma childless_same e ty m : same_state sp sp' mp mp' biased zs ws pc pp e ty (-1) m.
  Proof.
    split; [apply (credit_childless sp sp' mp mp' Hs)|]. intros t l x Hin. unfold in_space in Hin.
    split; [apply (partner_wage_childless sp sp' mp mp' Hs)|]. split; [intros; apply observed_childless|].
    split; [apply leisure_childless|]. split; [apply leisure_childless|].
    split; [intros; apply sim_flow_childless|]. intros c Hc. apply continuation_childless; lia.
  Qed.
End Childless.

Lemma all_childless rg mp sp sol ip pc pp data : sim_setting rg sp sol -> simulation rg mp sp sol ip pc pp data ->
  enter_childless sp ip -> no_births pc -> forall r, In r data -> a_age (o_state r) = (-1)%Z.
Proof.
  intros Hset Hsim Hip Hpc. apply (life_induction rg mp sp sol ip pc pp Hset data Hsim).
  - intros r Hr. destruct (entry_conditions rg mp sp sol ip pc pp Hset data Hsim r Hr) as (_ & _ & _ & _ & _ & Ha & (p & (Hp1 & Hp2) & (Hc1 & Hc2)) & _).
    apply nth_error_In in Hp2. rewrite (Hip p Hp2) in Hc2.
    destruct (Z.eq_dec (a_age (o_state r)) (-1)) as [E|E]; [exact E|]. exfalso. apply Hc2.
    replace (Z.to_nat (a_age (o_state r) + 1)) with (S (Z.to_nat (a_age (o_state r)))) by lia. cbn [nth_error].
    rewrite nth_error_repeat; [reflexivity|lia].
  - intros r r' Hf E. destruct Hset as (Hrg & Hspec & Hsol). destruct Hsim as (g & g' & H).
    destruct (demography rg mp sp sol ip pc pp false Hrg Hspec Hsol g g' data H r r' Hf) as (D1 & D2 & _).
    rewrite E in D1, D2. change (aged sp (-1)) with (-1)%Z in D1, D2.
    destruct (Z_le_gt_dec (row_period r) (last_child_bearing_period sp)) as [Hle|Hgt]; [|apply D2; lia].
    destruct (D1 Hle) as (row & p & d & R1 & R2 & R3 & R4 & ->).
    assert (p = 0) as -> by (apply (Hpc row); [eapply np_get_Ok_in; exact R1|eapply np_get_Ok_in; exact R2]).
    apply (drawn_zero rg Hrg) in R3. subst d. reflexivity.
Qed.

Lemma childless_data sp sp' mp mp' biased zs ws pc pp sol sol' :
  inputs_ok sp mp pc pp -> inputs_ok sp' mp' pc pp ->
  solved sp mp biased zs ws pc pp sol -> solved sp' mp' biased zs ws pc pp sol' ->
  same_without_children sp sp' mp mp' -> same_world sp sp' -> type_shares mp' = type_shares mp ->
  forall rg ip data data', sim_setting rg sp sol -> sim_setting rg sp' sol' ->
  enter_childless sp ip -> no_births pc ->
  simulation rg mp sp sol ip pc pp data -> simulation rg mp' sp' sol' ip pc pp data' ->
  data' = data.
Proof.
  intros Hok Hok' Hso Hso' Hs Hw Hsh rg ip data data' Hset Hset' Hip Hpc Hsim Hsim'.
  apply (same_data_all sp sp' mp mp' biased zs ws pc pp sol sol' Hok Hok' Hso Hso' Hw
    (sw_grid _ _ _ _ Hs) (sw_delta _ _ _ _ Hs) (sw_sd _ _ _ _ Hs) Hsh rg ip data data' (fun q => snd (fst q) = (-1)%Z)); try assumption.
  - intros r Hr. exact (all_childless rg mp sp sol ip pc pp data Hset Hsim Hip Hpc r Hr).
  - intros id p e ty a m E. cbn in E. subst a. apply childless_same; assumption.
Qed.

(** *** No partners *)
Section Single.
  Variable sp : model_spec R.
  Variable mp : model_params R.
  Variables biased flag : bool.
  Variables zs ws : list R.
  Variable pc : list (list R).
  Variable pp : list (list (list (R * R))).
  Hypothesis Hok : inputs_ok sp mp pc pp.
  Hypothesis Hpp : no_arrivals pp.
  Notation sp' := (with_splitting sp flag).

  Lemma no_arrivals_fun t e : (0 <= t < num_periods sp)%Z -> (0 <= e < num_educ_levels sp)%Z -> partner_fun pp t e 0 1 = 0.
  Proof.
    intros Ht He. destruct Hok as (_ & _ & _ & (L1 & L2)). unfold partner_fun. change (1 =? 0)%Z with false. change (Z.to_nat 0) with 0%nat.
    assert (Hr : In (nth (Z.to_nat t) pp []) pp) by (apply nth_In; unfold zlen in L1; lia).
    destruct (L2 _ Hr) as [L3 _]. apply (Hpp _ Hr). apply nth_In. unfold zlen in L3. lia.
  Qed.
  Lemma net_single own : household_net sp' own 0 = household_net sp own 0.
  Proof. unfold household_net. destruct (Rlt_dec 0 0); [lra|reflexivity]. Qed.
  Lemma single_same e ty a : same_state sp sp' mp mp biased zs ws pc pp e ty a 0.
  Proof.
    split; [reflexivity|]. intros t l x Hin. pose proof Hin as (Ht & He & _).
    split; [reflexivity|]. split; [reflexivity|]. split; [reflexivity|]. split; [reflexivity|]. split.
    - intros s c Hc. unfold sim_flow.
      assert (E : sim_resources_spec sp' mp t e l a 0 x s c = sim_resources_spec sp mp t e l a 0 x s c); [|rewrite E; reflexivity].
      unfold sim_resources_spec. cbv zeta. change (partner_wage sp' t e 0) with 0. change (partner_wage sp t e 0) with 0.
      rewrite !net_single. reflexivity.
    - intros c Hc. assert (En : (t + Z.of_nat (remaining sp t) = num_periods sp - 1)%Z) by (unfold remaining; lia).
      destruct (remaining sp t) as [|n]; [reflexivity|]. cbn [continuation]. unfold expected_next. cbv zeta.
      rewrite no_arrivals_fun by lia. change (exp_grid sp') with (exp_grid sp).
      change (stock_next sp' mp biased t e a c x) with (stock_next sp mp biased t e a c x).
      change (aged sp' a) with (aged sp a). change (is_elterngeld sp') with (is_elterngeld sp).
      assert (E : forall age, interpolate (exp_grid sp)
           (map (value sp' mp (is_elterngeld sp) biased (combine zs ws) (child_fun pc) (partner_fun pp) n (t + 1)%Z e c ty age 0%Z) (exp_grid sp)) (stock_next sp mp biased t e a c x)
         = interpolate (exp_grid sp)
           (map (value sp mp (is_elterngeld sp) biased (combine zs ws) (child_fun pc) (partner_fun pp) n (t + 1)%Z e c ty age 0%Z) (exp_grid sp)) (stock_next sp mp biased t e a c x)).
      { intros age. apply interpolate_ext. intros y _. apply (value_single sp mp); try lia. intros; apply no_arrivals_fun; lia. }
      rewrite !E. lra.
  Qed.
End Single.

Lemma all_single rg mp sp sol ip pc pp data : sim_setting rg sp sol -> simulation rg mp sp sol ip pc pp data ->
  partner_table_ok sp pp -> enter_single ip -> no_arrivals pp -> forall r, In r data -> a_partner (o_state r) = 0%Z.
Proof.
  intros Hset Hsim Htab Hip Hpp. pose proof Hset as (Hrg & Hspec & Hsol). apply (life_induction rg mp sp sol ip pc pp Hset data Hsim).
  - intros r Hr. destruct (entry_conditions rg mp sp sol ip pc pp Hset data Hsim r Hr) as (_ & _ & _ & _ & _ & _ & _ & _ & (p & (_ & Hp) & Hd) & _).
    apply nth_error_In in Hp. rewrite (Hip p Hp) in Hd. exact (drawn_zero rg Hrg _ Hd).
  - intros r r' Hf E. destruct Hsim as (g & g' & H).
    destruct (demography rg mp sp sol ip pc pp false Hrg Hspec Hsol g g' data H r r' Hf) as (_ & _ & D & _).
    destruct (D E) as (pr & Hp & Hd). unfold partner_prob in Hp.
    destruct (np_get pp _) as [row|] eqn:G1; cbn [bind] in Hp; [|discriminate].
    destruct (np_get row _) as [q|] eqn:G2; cbn [bind] in Hp; [|discriminate].
    apply np_get_Ok_in in G1. apply np_get_Ok_in in G2. apply np_get_zat_inv in Hp; [|lia]. unfold zat in Hp. cbn in Hp.
    pose proof (Hpp row G1 q G2) as E0. destruct q as [|q0 q]; [discriminate Hp|]. injection Hp as ->. cbn [nth] in E0.
    rewrite E0 in Hd. exact (drawn_zero rg Hrg _ Hd).
Qed.

Lemma single_data sp mp flag biased zs ws pc pp sol sol' :
  inputs_ok sp mp pc pp ->
  solved sp mp biased zs ws pc pp sol -> solved (with_splitting sp flag) mp biased zs ws pc pp sol' ->
  forall rg ip data data', sim_setting rg sp sol -> sim_setting rg (with_splitting sp flag) sol' ->
  enter_single ip -> no_arrivals pp ->
  simulation rg mp sp sol ip pc pp data -> simulation rg mp (with_splitting sp flag) sol' ip pc pp data' ->
  data' = data.
Proof.
  intros Hok Hso Hso' rg ip data data' Hset Hset' Hip Hpp Hsim Hsim'.
  assert (Hok' : inputs_ok (with_splitting sp flag) mp pc pp) by exact Hok.
  assert (Hw : same_world sp (with_splitting sp flag)) by (repeat split).
  apply (same_data_all sp (with_splitting sp flag) mp mp biased zs ws pc pp sol sol' Hok Hok' Hso Hso' Hw
    eq_refl eq_refl eq_refl eq_refl rg ip data data' (fun q => snd q = 0%Z)); try assumption.
  - intros r Hr. apply (all_single rg mp sp sol ip pc pp data Hset Hsim); try assumption. apply Hok.
  - intros id p e ty a m E. cbn in E. subst m. apply single_same; assumption.
Qed.

(** *** One education level and type *)
Section Own.
  Variable sp : model_spec R.
  Variables mp mp' : model_params R.
  Variable biased : bool.
  Variables zs ws : list R.
  Variable pc : list (list R).
  Variable pp : list (list (list (R * R))).
  Variables e ty : Z.
  Hypothesis Hs : same_for e ty sp mp mp' (child_fun pc) (child_fun pc) (partner_fun pp) (partner_fun pp).

  Lemma base_own t a x : base_wage sp mp' t e a x = base_wage sp mp t e a x.
  Proof.
    unfold base_wage. rewrite (credit_same_for sp mp mp' false _ _ _ _ e ty Hs).
    rewrite (sf_gamma_0 _ _ _ _ _ _ _ _ _ Hs), (sf_gamma_1 _ _ _ _ _ _ _ _ _ Hs). reflexivity.
  Qed.
  Lemma leisure_own a c : leisure mp' e ty a c = leisure mp e ty a c.
  Proof.
    unfold leisure, part_time_term, full_time_term. cbv zeta. fold (at_ (no_kids_f mp') e).
    fold (at_ (no_kids_p mp') e). fold (at_ (yes_kids_f mp') e). fold (at_ (yes_kids_p mp') e).
    fold (at_ (no_kids_f mp) e). fold (at_ (no_kids_p mp) e). fold (at_ (yes_kids_f mp) e).
    fold (at_ (yes_kids_p mp) e). destruct Hs.
    repeat match goal with H : _ = _ |- _ => rewrite H; clear H end. reflexivity.
  Qed.
  Lemma own_same a m : same_state sp sp mp mp' biased zs ws pc pp e ty a m.
  Proof.
    split; [apply (credit_same_for sp mp mp' false _ _ _ _ e ty Hs)|]. intros t l x Hin. pose proof Hin as (Ht & He & _ & _ & _ & Hm).
    assert (Eo : forall s, observed_wage sp mp' t e a x s = observed_wage sp mp t e a x s) by (intros; unfold observed_wage; rewrite base_own; reflexivity).
    split; [reflexivity|]. split; [exact Eo|]. split; [apply leisure_own|]. split; [apply leisure_own|]. split.
    - intros s c Hc. unfold sim_flow. rewrite leisure_own, (sf_mu _ _ _ _ _ _ _ _ _ Hs).
      assert (E : sim_resources_spec sp mp' t e l a m x s c = sim_resources_spec sp mp t e l a m x s c); [|rewrite E; reflexivity].
      unfold sim_resources_spec. cbv zeta. rewrite Eo, base_own. reflexivity.
    - intros c Hc. assert (En : (t + Z.of_nat (remaining sp t) = num_periods sp - 1)%Z) by (unfold remaining; lia).
      destruct (remaining sp t) as [|n]; [reflexivity|]. cbn [continuation]. unfold expected_next. cbv zeta.
      rewrite (stock_same_for sp mp mp' biased _ _ _ _ e ty Hs).
      assert (I : forall age m' q, (0 <= m' < 2)%Z ->
        interpolate (exp_grid sp) (map (value sp mp' (is_elterngeld sp) biased (combine zs ws) (child_fun pc) (partner_fun pp) n (t + 1)%Z e c ty age m') (exp_grid sp)) q
        = interpolate (exp_grid sp) (map (value sp mp (is_elterngeld sp) biased (combine zs ws) (child_fun pc) (partner_fun pp) n (t + 1)%Z e c ty age m') (exp_grid sp)) q).
      { intros age m' q Hm'. apply interpolate_ext. intros y _. apply (value_same_for sp mp mp' _ _ _ _ _ _ _ e ty Hs); lia. }
      rewrite !I by lia. reflexivity.
  Qed.
End Own.

Lemma own_data sp mp mp' biased zs ws pc pp sol sol' e ty :
  inputs_ok sp mp pc pp -> inputs_ok sp mp' pc pp ->
  solved sp mp biased zs ws pc pp sol -> solved sp mp' biased zs ws pc pp sol' ->
  same_for e ty sp mp mp' (child_fun pc) (child_fun pc) (partner_fun pp) (partner_fun pp) ->
  type_shares mp' = type_shares mp ->
  forall rg ip data data', sim_setting rg sp sol -> sim_setting rg sp sol' ->
  simulation rg mp sp sol ip pc pp data -> simulation rg mp' sp sol' ip pc pp data' ->
  rows_of e ty data' = rows_of e ty data.
Proof.
  intros Hok Hok' Hso Hso' Hs Hsh rg ip data data' Hset Hset' Hsim Hsim'.
  assert (Hw : same_world sp sp) by (repeat split).
  assert (F : Forall2 (alike_rows (fun e' ty' => e' = e /\ ty' = ty) eq) data data').
  { apply (same_data sp sp mp mp' biased zs ws pc pp sol sol' Hok Hok' Hso Hso' Hw
      eq_refl (sf_delta _ _ _ _ _ _ _ _ _ Hs) (sf_sd _ _ _ _ _ _ _ _ _ Hs) Hsh rg ip data data' (fun _ => True)); try assumption.
    - intros; exact I.
    - intros id p e' ty' a m _ [-> ->]. apply own_same; assumption. }
  clear - F. unfold rows_of. induction F as [|r1 r2 l1 l2 [E H] F IH]; [reflexivity|]. cbn [filter].
  assert (E1 : a_educ (o_state r2) = a_educ (o_state r1)) by (unfold exogenous in E; congruence).
  assert (E2 : a_type (o_state r2) = a_type (o_state r1)) by (unfold exogenous in E; congruence).
  rewrite E1, E2. destruct ((a_educ (o_state r1) =? e)%Z && (a_type (o_state r1) =? ty)%Z) eqn:B; [|exact IH].
  apply andb_prop in B. destruct B as [B1 B2]. apply Z.eqb_eq in B1, B2. rewrite IH, (H (conj B1 B2)). reflexivity.
Qed.
