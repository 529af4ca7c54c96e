(** Property theorems C101: the consistency test of values and simulated utility
    (test_value_function_simulation_consistency.py). *)
From Coq Require Import Reals Lra Lia ZArith List String.
From Verif Require Import Base Num M_Params M_Tax M_Exog M_Sim M_Spec M_Main M_AuxFuncs M_Consistency S_Interp S_Tax S_StateSpace S_Bellman S_Solver
  S_Rng S_Sim S_SimInputs S_SimEntry S_Stability S_GridSim S_AuxFuncs S_Expect S_Consistency S_Exog S_Spec S_Main S_Idle L_Num L_Rng L_Bellman L_Solver L_Sim L_SimProps L_SimEntry L_Main
  L_SpecField L_Params L_Reserve L_GridWitness L_AuxFuncs L_Consistency L_ConsistencyTest X_Consistency T_Exog T_Sim T_Main T_Expect.
Import ListNotations.
Open Scope R_scope.

(** C101, what the test measures, with risk or without: if everybody enters in period 0, the
    difference of the two numbers it compares is the mean discounted surprise *)
Theorem C101_gap :
  forall rg mp sp biased zs ws pc pp sol ip data,
  inputs_ok sp mp pc pp -> solved sp mp biased zs ws pc pp sol ->
  sim_setting rg sp sol -> simulation rg mp sp sol ip pc pp data -> data <> [] ->
  (forall y, In y (educ_years sp) -> y = 0%Z) ->
  exists a b, compared data (delta mp) = Ok (Some a, Some b) /\
    create_disc_sum_av_utility data (delta mp) = Ok (Some a) /\
    (forall firsts vs, agents_of data (map row_id firsts) ->
       Forall2 (fun r v => row_period r = 0%Z /\ In r data /\ chosen_value r v) firsts vs -> b = mean vs) /\
    (forall firsts sss, agents_of data (map row_id firsts) -> Forall2 (life_surprises sp data) firsts sss ->
       a - b = delta mp * mean (map (discounted (delta mp)) sss)) /\
    exists firsts sss, agents_of data (map row_id firsts) /\ Forall2 (life_surprises sp data) firsts sss.
Proof.
  intros rg mp sp biased zs ws pc pp sol ip data Hok Hs Hset Hsim Hne Hz.
  destruct (compared_gap rg mp sp biased zs ws pc pp sol ip data Hok Hs Hset Hsim Hne Hz) as (a & b & E1 & E2 & E3 & E4).
  exists a, b. refine (conj E1 (conj E2 (conj E3 (conj E4 _)))).
  destruct (lives_exist rg mp sp biased zs ws pc pp sol ip data Hok Hs Hset Hsim) as (firsts & lives & Hag & Hl).
  assert (H : exists sss, Forall2 (life_surprises sp data) firsts sss).
  { clear Hag. induction Hl as [|r us firsts lives [(rs & Hca & _) Hfirst] Hl [sss IH]]; [exists []; constructor|].
    destruct (C100_surprises_exist sp mp biased zs ws pc pp sol rg ip data Hok Hs Hset Hsim _ Hca) as [ss Hss].
    exists (ss :: sss). constructor; [|exact IH]. split; [|exists rs; split; assumption].
    pose proof (career_in _ _ _ Hca r (or_introl eq_refl)) as Hr.
    destruct (starts rg mp sp pc pp sol ip data Hset Hsim Hz (row_id r)) as (q & Hq & Eq & Eq0); [exists r; auto|].
    pose proof (Hfirst q Hq Eq). pose proof (data_space rg mp sp pc pp sol ip data Hset Hsim r Hr) as Hin. unfold agent_in_space, in_space in Hin. unfold row_period in *. lia. }
  destruct H as [sss H]. exists firsts, sss. split; assumption.
Qed.
Print Assumptions C101_gap.

(** the passing of the test, spelled out *)
Theorem C101_verdict :
  forall (data : list (out_row R)) (d : R),
  (consistency_test data d = Ok tt <->
   compared data d = Ok (None, None) \/
   exists a b, compared data d = Ok (Some a, Some b) /\ Rabs (a - b) <= 1/100000 * Rabs b) /\
  (forall e, compared data d = Err e -> consistency_test data d = Err e).
Proof.
  intros data d. unfold consistency_test, assert_allclose. split; [|intros e ->; reflexivity].
  assert (Eabs : forall x : R, nabs x = Rabs x).
  { intros x. unfold nabs. rn. destruct (Rltb_spec x 0); [rewrite Rabs_left by lra; ring|rewrite Rabs_right by lra; reflexivity]. }
  destruct (compared data d) as [[[a|] [b|]]|e]; cbn [bind fst snd].
  - rewrite !Eabs. unfold nlit. rn. split.
    + intros H. right. exists a, b. split; [reflexivity|]. destruct (Rleb _ _) eqn:E; [apply Rleb_true in E; exact E|discriminate].
    + intros [H | (a' & b' & E & H)]; [discriminate|]. assert (a' = a /\ b' = b) as [-> ->] by (split; congruence).
      apply Rleb_true in H. rewrite H. reflexivity.
  - split; [discriminate|]. intros [H | (a' & b' & E & _)]; discriminate.
  - split; [discriminate|]. intros [H | (a' & b' & E & _)]; discriminate.
  - split; [left; reflexivity|reflexivity].
  - split; [discriminate|]. intros [H | (a' & b' & E & _)]; discriminate.
Qed.
Print Assumptions C101_verdict.

(** childless singles who rarely have a child or find a partner and for whom not working is
    best: they do not work, and values are close to the discounted flow of not working *)
Theorem C101_rare_events :
  forall sp mp biased zs ws pc pp sol u d q rg ip data, inputs_ok sp mp pc pp -> solved sp mp biased zs ws pc pp sol ->
  nonneg_weights zs ws -> average (fun _ => 1) (combine zs ws) = 1 -> probabilities sp pc pp -> spans_unit (exp_grid sp) -> 0 <= delta mp -> 0 <= d ->
  rarely_left q sp (child_fun pc) (partner_fun pp) ->
  best_near d u sp mp (is_elterngeld sp) biased (combine zs ws) -> idle_best u sp mp (is_elterngeld sp) biased (combine zs ws) ->
  sim_setting rg sp sol -> simulation rg mp sp sol ip pc pp data ->
  forall r, In r data -> a_age (o_state r) = (-1)%Z -> a_partner (o_state r) = 0%Z -> exists f, o_full r = Some f /\
    let n := remaining sp (row_period r) in
    (forall c, (0 <= c < 3)%Z -> near (drift q d (delta mp) n) (later u (delta mp) n) (at_ (f_cont f) c)) /\
    (forall gap, at_ (f_flow f) 0 = u -> (forall c, (1 <= c <= 2)%Z -> at_ (f_flow f) c <= u - gap) ->
       2 * delta mp * drift q d (delta mp) n <= gap ->
       o_choice r = 0%Z /\ near (delta mp * drift q d (delta mp) n) (u * geometric (delta mp) n) (at_ (f_value f) 0)).
Proof. exact rare_row. Qed.
Print Assumptions C101_rare_events.

(** *** the test itself *)
Lemma ct_inputs rg roots biased g data g' : rng_ok rg -> rng_total rg -> hermite_ok roots ->
  snd (simulate_of rg roots (sqrt 2) (sqrt PI) ct_params (SpecDict 0) ct_files biased false g ct_heap) = Ok (data, g') ->
  exists mp sp ip pc pp zs ws sol, ct_spec sp /\ ct_mp mp /\ tables_of sp ct_files ip pc pp /\ inputs_ok sp mp pc pp /\
    solved sp mp biased zs ws pc pp sol /\ sim_inputs_ok rg mp sp sol ip pc pp /\ simulation rg mp sp sol ip pc pp data /\
    nonneg_weights zs ws /\ average (fun _ => 1) (combine zs ws) = 1.
Proof.
  intros Hrg Htot Hh H. destruct ct_read as (mp & Hread & P).
  destruct (complete_read (SpecDict 0) ct_heap ct_heap 0%nat ct_root ct_D ct_dict eq_refl ct_complete) as (sp & E & Ag).
  pose proof (ct_fields _ _ Ag ct_no_types) as F. pose proof (ct_usable sp F) as U. pose proof (ct_files_ok sp F) as Fi.
  pose proof (consistent_one (SpecDict 0) ct_heap ct_heap 0%nat ct_root ct_D ct_dict ct_params mp sp ct_files eq_refl ct_complete Ag Hread ct_no_types U Fi) as Hr.
  destruct (C54_inputs_of_the_simulation rg roots (sqrt 2) (sqrt PI) ct_params (SpecDict 0) ct_files biased g ct_heap ct_dict mp sp data g' ct_arg Hrg Htot Hread E Hr Fi H)
    as (ip & pc & pp & zs & ws & g1 & sol & T & Hd & Hok & Hs & Hin & Hsim).
  exists mp, sp, ip, pc, pp, zs, ws, sol. refine (conj F (conj P (conj T (conj Hok (conj Hs (conj Hin (conj Hsim _))))))).
  destruct (C49_quadrature rg roots sp g Hh (cs_method _ F) ltac:(rewrite (cs_draws _ F); lia)) as (zs' & ws' & Hd' & _ & L1 & L2 & W1 & W2 & _).
  assert (zs' = zs /\ ws' = ws) as [-> ->] by (split; congruence). split.
  - intros z w Hz. left. apply W1. eapply in_combine_r. exact Hz.
  - transitivity (S_Exog.total ws); [|exact W2]. clear W2. assert (Hl : List.length zs = List.length ws) by (unfold zlen in *; lia). clear - Hl. revert ws Hl.
    induction zs as [|z zs IH]; intros [|w ws] Hl; try discriminate Hl; [reflexivity|]. cbn [combine average]. rewrite IH by (cbn in Hl; lia). unfold S_Exog.total. cbn [fold_right]. ring.
Qed.

(** the program can be called as the test calls it *)
Theorem C101_test_runs :
  forall rg roots biased g, rng_ok rg -> rng_total rg -> exists data g',
  snd (simulate_of rg roots (sqrt 2) (sqrt PI) ct_params (SpecDict 0) ct_files biased false g ct_heap) = Ok (data, g').
Proof.
  intros rg roots biased g Hrg Htot. destruct ct_read as (mp & Hread & P).
  destruct (C52_program_returns_one_type rg roots (sqrt 2) (sqrt PI) ct_params (SpecDict 0) ct_files ct_heap ct_heap 0%nat ct_root ct_D ct_dict mp Hrg Htot eq_refl ct_arg ct_complete Hread ct_no_types)
    as (sp & Ag & _ & H).
  pose proof (ct_fields _ _ Ag ct_no_types) as F. exact (H (ct_usable sp F) (ct_files_ok sp F) biased false g).
Qed.
Print Assumptions C101_test_runs.

(** its data: 10000 agents in periods 0 to 4 *)
Theorem C101_test_data :
  forall rg roots biased g data g', rng_ok rg -> rng_total rg -> hermite_ok roots ->
  snd (simulate_of rg roots (sqrt 2) (sqrt PI) ct_params (SpecDict 0) ct_files biased false g ct_heap) = Ok (data, g') ->
  forall i t, (exists r, In r data /\ row_id r = i /\ row_period r = t) <-> (0 <= i < 10000 /\ 0 <= t < 5)%Z.
Proof.
  intros rg roots biased g data g' Hrg Htot Hh H i t.
  destruct (ct_inputs rg roots biased g data g' Hrg Htot Hh H) as (mp & sp & ip & pc & pp & zs & ws & sol & F & P & T & Hok & Hs & Hin & Hsim & W1 & W2).
  pose proof (si_setting _ _ _ _ _ _ _ Hin) as Hset. pose proof Hset as (S1 & S2 & S3). destruct Hsim as (g1 & g2 & Hsim).
  destruct (panel rg mp sp sol ip pc pp false S1 S2 S3 _ _ data Hsim) as (educs & Le & Hid & Hp & _). rewrite (cs_agents _ F) in Le. rewrite (cs_years _ F), (cs_periods _ F) in Hp.
  assert (Hk : forall k e, nth_error educs k = Some e -> forall t, (exists r, In r data /\ row_key r = (Z.of_nat k, t)) <-> (0 <= t < 5)%Z).
  { intros k e He. destruct (Hp k e He) as (y & He0 & Hy & Hr). apply nth_error_In in Hy. destruct Hy as [<- | []]. exact Hr. }
  unfold row_key in Hk. unfold zlen in Le. split.
  - intros (r & Hr & <- & <-). destruct (Hid r Hr) as [H0 He].
    assert (Hlt : (Z.to_nat (row_id r) < List.length educs)%nat) by (apply nth_error_Some; congruence). split; [lia|].
    apply (Hk _ _ He). exists r. split; [exact Hr|]. rewrite Z2Nat.id by lia. reflexivity.
  - intros [Hi Ht]. destruct (nth_error educs (Z.to_nat i)) as [e|] eqn:He; [|apply nth_error_None in He; lia].
    destruct (proj2 (Hk _ _ He t) Ht) as (r & Hr & E). rewrite Z2Nat.id in E by lia. exists r. split; [exact Hr|]. split; congruence.
Qed.
Print Assumptions C101_test_data.

(** if no child is born and no partner found, the test passes, with biased expectations or
    without - and nobody works in it *)
Theorem C101_test_passes :
  forall rg roots biased g data g', rng_ok rg -> rng_total rg -> hermite_ok roots ->
  snd (simulate_of rg roots (sqrt 2) (sqrt PI) ct_params (SpecDict 0) ct_files biased false g ct_heap) = Ok (data, g') ->
  (forall r, In r data -> a_age (o_state r) = (-1)%Z /\ a_partner (o_state r) = 0%Z) ->
  consistency_test data (95/100) = Ok tt /\ forall r, In r data -> o_choice r = 0%Z.
Proof.
  intros rg roots biased g data g' Hrg Htot Hh H Hlone.
  destruct (ct_inputs rg roots biased g data g' Hrg Htot Hh H) as (mp & sp & ip & pc & pp & zs & ws & sol & F & P & T & Hok & Hs & Hin & Hsim & W1 & W2).
  split.
  - exact (p_passes rg mp sp biased zs ws pc pp sol ip data F P T Hok Hs (si_setting _ _ _ _ _ _ _ Hin) Hsim W1 W2 Hlone).
  - intros r Hr. destruct (Hlone r Hr) as [L1 L2].
    apply (p_row rg mp sp biased zs ws pc pp sol ip data F P T Hok Hs (si_setting _ _ _ _ _ _ _ Hin) Hsim W1 W2 r Hr L1 L2).
Qed.
Print Assumptions C101_test_passes.

(** whoever is childless and single in the test does not work, whatever happens to others *)
Theorem C101_nobody_works :
  forall rg roots biased g data g', rng_ok rg -> rng_total rg -> hermite_ok roots ->
  snd (simulate_of rg roots (sqrt 2) (sqrt PI) ct_params (SpecDict 0) ct_files biased false g ct_heap) = Ok (data, g') ->
  forall r, In r data -> a_age (o_state r) = (-1)%Z -> a_partner (o_state r) = 0%Z -> o_choice r = 0%Z.
Proof.
  intros rg roots biased g data g' Hrg Htot Hh H r Hr L1 L2.
  destruct (ct_inputs rg roots biased g data g' Hrg Htot Hh H) as (mp & sp & ip & pc & pp & zs & ws & sol & F & P & T & Hok & Hs & Hin & Hsim & W1 & W2).
  apply (p_row rg mp sp biased zs ws pc pp sol ip data F P T Hok Hs (si_setting _ _ _ _ _ _ _ Hin) Hsim W1 W2 r Hr L1 L2).
Qed.
Print Assumptions C101_nobody_works.

Lemma np_get_val {A} (d : A) (l : list A) i x : (0 <= i)%Z -> np_get l i = Ok x -> nth (Z.to_nat i) l d = x.
Proof.
  intros Hi H. destruct (Z.ltb_spec i (zlen l)) as [Hlt|Hge].
  - rewrite (np_get_nth d l i) in H by lia. congruence.
  - unfold np_get, np_norm in H. replace (i <? zlen l)%Z with false in H by (symmetry; apply Z.ltb_ge; lia).
    replace (0 <=? i)%Z with true in H by (symmetry; apply Z.leb_le; lia).
    replace (i <? 0)%Z with false in H by (symmetry; apply Z.ltb_ge; lia). rewrite ?Bool.andb_false_r in H. cbn [andb] in H. discriminate.
Qed.

(** the rows are such unless an event of probability 1e-6 is drawn *)
Theorem C101_no_events :
  forall rg roots biased g data g', rng_ok rg -> rng_total rg -> hermite_ok roots -> ~ drawn rg tiny 1 ->
  snd (simulate_of rg roots (sqrt 2) (sqrt PI) ct_params (SpecDict 0) ct_files biased false g ct_heap) = Ok (data, g') ->
  forall r, In r data -> a_age (o_state r) = (-1)%Z /\ a_partner (o_state r) = 0%Z.
Proof.
  intros rg roots biased g data g' Hrg Htot Hh Hno H.
  destruct (ct_inputs rg roots biased g data g' Hrg Htot Hh H) as (mp & sp & ip & pc & pp & zs & ws & sol & F & P & T & Hok & Hs & Hin & Hsim & W1 & W2).
  pose proof (si_setting _ _ _ _ _ _ _ Hin) as Hset.
  apply (life_induction rg mp sp sol ip pc pp Hset data Hsim).
  - intros r He. pose proof (positive_entry rg mp sp sol ip pc pp data r Hset (si_init _ _ _ _ _ _ _ Hin) (si_types _ _ _ _ _ _ _ Hin) Hsim He) as (_ & _ & Ha & _ & _ & Hm & _).
    pose proof (data_space rg mp sp pc pp sol ip data Hset Hsim r (proj1 He)) as Hsp. unfold agent_in_space, in_space in Hsp. rewrite (cs_levels _ F) in Hsp.
    assert (Ee : a_educ (o_state r) = 0%Z) by lia. rewrite Ee in Ha, Hm. split.
    + pose proof (io_age _ _ (si_init _ _ _ _ _ _ _ Hin)) as Hp. pose proof (io_age_rows _ _ (si_init _ _ _ _ _ _ _ Hin)) as Hl.
      rewrite (cs_levels _ F) in Hl. rewrite (cs_age_init _ F) in Hp.
      destruct (ip_child_age ip) as [|p l]; [discriminate Hl|]. destruct (Hp p (or_introl eq_refl)) as [Lp _].
      change (nth (Z.to_nat 0) (p :: l) []) with p in Ha. unfold at_ in Ha.
      destruct (Z.ltb_spec (a_age (o_state r) + 1) 1) as [|Hge]; [lia|].
      rewrite nth_overflow in Ha by (unfold zlen in Lp; lia). lra.
    + destruct (Z.eq_dec (a_partner (o_state r)) 1) as [E1|]; [|lia]. specialize (Hm E1).
      destruct T as (_ & _ & _ & _ & T5 & _). rewrite <- T5 in Hm. cbn in Hm. lra.
  - intros r r' Hf [L1 L2].
    pose proof (data_space rg mp sp pc pp sol ip data Hset Hsim r (proj1 Hf)) as Hsp. pose proof (data_space rg mp sp pc pp sol ip data Hset Hsim r' (proj1 (proj2 Hf))) as Hsp'.
    destruct Hf as (Hr & Hr' & Eid & Et). assert (Hf : follows data r r') by (repeat split; assumption).
    unfold agent_in_space, in_space, row_period in *. rewrite (cs_levels _ F), (cs_periods _ F) in *.
    assert (Ee : a_educ (o_state r) = 0%Z) by lia.
    destruct (C36_demography rg mp sp sol ip pc pp data Hset Hsim r r' Hf) as (Hb & Hn & Hp & _ & _ & _). unfold row_period in *.
    rewrite Ee, L1 in *.
    assert (Old : aged sp (-1) = (-1)%Z) by reflexivity. split.
    + destruct (Z.leb_spec (a_period (o_state r)) (last_child_bearing_period sp)) as [Hle|Hgt]; [|rewrite Hn by lia; exact Old].
      destruct (Hb Hle) as (row & p & d & G1 & G2 & D & D01 & ->).
      apply (np_get_val []) in G1; [|lia]. apply (np_get_val 0) in G2; [|lia].
      pose proof (proj1 (t_tables sp ip pc pp F T (a_period (o_state r) + 1)%Z ltac:(lia))) as Ht. unfold child_fun, at_ in Ht. rewrite G1, G2 in Ht. rewrite Ht in D.
      destruct D01 as [-> | ->]; [exact Old|contradiction].
    + destruct (Hp L2) as (pr & G & D). unfold partner_prob in G.
      destruct (np_get pp (a_period (o_state r))) as [x|] eqn:G1; [|discriminate]. cbn [bind] in G.
      destruct (np_get x 0) as [y|] eqn:G2; [|discriminate]. cbn [bind] in G.
      apply (np_get_val []) in G1; [|lia]. apply (np_get_val []) in G2; [|lia]. apply (np_get_val (0, 0)) in G; [|lia].
      pose proof (proj2 (proj2 (t_tables sp ip pc pp F T (a_period (o_state r)) ltac:(lia)) 0%Z ltac:(lia))) as Ht. unfold partner_fun in Ht.
      rewrite G1, G2, G in Ht. cbn in Ht. rewrite Ht in D.
      destruct (Z.eq_dec (a_partner (o_state r')) 1) as [E1|]; [rewrite E1 in D; contradiction|lia].
Qed.
Print Assumptions C101_no_events.

(** a generator that never draws events of probability below 1 *)
Definition quiet_rng : rng R := {|
  rng_state := rng_state ex_rng; rng_seed := rng_seed ex_rng; rng_choice := rng_choice ex_rng;
  rng_binomial := fun g ps => Ok (map (fun p => if Rleb 1 p then 1 else 0)%Z ps, g); rng_normal := rng_normal ex_rng |}.
Lemma quiet_ok : rng_ok quiet_rng.
Proof.
  destruct ex_rng_ok as [H1 H2 H3 _ _ _ _ H8 H9]. constructor; try assumption.
  - intros g ps l g' H. cbn in H. injection H as <- <-. apply map_length.
  - intros g ps l g' H x Hx. cbn in H. injection H as <- <-. apply in_map_iff in Hx. destruct Hx as (p & <- & _). destruct (Rleb 1 p); [right|left]; reflexivity.
  - intros g ps l g' k H Hk. cbn in H. injection H as <- <-. apply (map_nth_error (fun p => if Rleb 1 p then 1 else 0)%Z) in Hk. rewrite Hk. cbn. destruct (Rleb_spec 1 0); [lra|reflexivity].
  - intros g ps l g' k H Hk. cbn in H. injection H as <- <-. apply (map_nth_error (fun p => if Rleb 1 p then 1 else 0)%Z) in Hk. rewrite Hk. cbn. destruct (Rleb_spec 1 1); [reflexivity|lra].
Qed.
Lemma quiet_total : rng_total quiet_rng.
Proof. destruct ex_rng_total as [H1 _]. constructor; [exact H1|]. intros g ps _. cbn. eexists. reflexivity. Qed.
Lemma quiet_tiny : ~ drawn quiet_rng tiny 1.
Proof.
  intros (g & ps & l & g' & j & H & Hp & Hl). cbn in H. injection H as <- <-.
  apply (map_nth_error (fun p => if Rleb 1 p then 1 else 0)%Z) in Hp. rewrite Hp in Hl. pose proof tiny_ok as Ht. unfold tiny in *.
  destruct (Rleb_spec 1 (1/1000000)); [lra|discriminate Hl].
Qed.

(** the test with this generator *)
Example C101_example : exists data g',
  snd (simulate_of quiet_rng ex_roots (sqrt 2) (sqrt PI) ct_params (SpecDict 0) ct_files true false 0%Z ct_heap) = Ok (data, g') /\
  (exists r, In r data /\ row_id r = 9999%Z /\ row_period r = 4%Z) /\
  (forall r, In r data -> a_age (o_state r) = (-1)%Z /\ a_partner (o_state r) = 0%Z /\ o_choice r = 0%Z) /\
  consistency_test data (95/100) = Ok tt.
Proof.
  destruct (C101_test_runs quiet_rng ex_roots true 0%Z quiet_ok quiet_total) as (data & g' & H). exists data, g'. split; [exact H|]. split.
  { apply (C101_test_data quiet_rng ex_roots true 0%Z data g' quiet_ok quiet_total C49_oracle H 9999%Z 4%Z). lia. }
  pose proof (C101_no_events quiet_rng ex_roots true 0%Z data g' quiet_ok quiet_total C49_oracle quiet_tiny H) as L.
  destruct (C101_test_passes quiet_rng ex_roots true 0%Z data g' quiet_ok quiet_total C49_oracle H L) as [P W]. split; [|exact P].
  intros r Hr. destruct (L r Hr). auto.
Qed.

(** the hypotheses of C101_gap hold in the test; those of C101_rare_events are shown for it in
    L_ConsistencyTest.v ([p_row]) *)
Example C101_gap_example : exists rg mp sp zs ws pc pp sol ip data,
  inputs_ok sp mp pc pp /\ solved sp mp true zs ws pc pp sol /\ sim_setting rg sp sol /\ simulation rg mp sp sol ip pc pp data /\ data <> [] /\
  (forall y, In y (educ_years sp) -> y = 0%Z) /\ delta mp = 95/100.
Proof.
  destruct (C101_test_runs ex_rng ex_roots true 0%Z ex_rng_ok ex_rng_total) as (data & g' & H).
  destruct (ct_inputs ex_rng ex_roots true 0%Z data g' ex_rng_ok ex_rng_total C49_oracle H) as (mp & sp & ip & pc & pp & zs & ws & sol & F & P & T & Hok & Hs & Hin & Hsim & _).
  exists ex_rng, mp, sp, zs, ws, pc, pp, sol, ip, data. refine (conj Hok (conj Hs (conj (si_setting _ _ _ _ _ _ _ Hin) (conj Hsim (conj _ (conj _ (cp_delta _ P))))))).
  - intros ->. destruct (proj2 (C101_test_data ex_rng ex_roots true 0%Z [] g' ex_rng_ok ex_rng_total C49_oracle H 0%Z 0%Z) ltac:(lia)) as (r & [] & _).
  - rewrite (cs_years _ F). intros y [<- | []]. reflexivity.
Qed.
