(** Property theorems about the random numbers: C72 and C73. *)
From Coq Require Import Reals Lra Lia ZArith List Arith String.
From Verif Require Import Base Num M_Params M_Experience M_Tax M_StateSpace M_Solve M_Exog M_Sim M_Spec M_Main M_Numpy
  S_Rng S_Numpy S_Sim S_SimInputs S_Solver S_Interp S_Exog S_Spec S_Main
  L_Num L_Exog L_Numpy L_NumpySim L_SimFlow L_Witness L_SimExample L_SameWitness L_Main T_Main T_Sim X_Example.
Import ListNotations.
Open Scope R_scope.

(** C72: numpy's sampling algorithms, fed with numbers from [0, 1), satisfy everything the
    other theorems assume about the generator. *)
Theorem C72_numpy_contract :
  forall src, unit_source src -> rng_ok (numpy_rng src sqrt) /\ rng_total (numpy_rng src sqrt).
Proof. intros src U. split; [apply numpy_rng_ok|apply numpy_rng_total]; exact U. Qed.
Print Assumptions C72_numpy_contract.

(** The Mersenne twister supplies such numbers. *)
Theorem C72_twister_numbers : unit_source mt_source.
Proof. exact mt_unit. Qed.
Print Assumptions C72_twister_numbers.

(** Each of them consists of 53 bits: the upper 27 bits of one word and the upper 26 bits of the next. *)
Theorem C72_twister_bits :
  forall w, let a := fst (mt_next w) in let b := fst (mt_next (snd (mt_next w))) in
  exists k, (0 <= k < 2 ^ 53)%Z /\ fst (src_next mt_source w) = IZR k / IZR (2 ^ 53) /\
    (k / 2 ^ 26 = a / 2 ^ 5)%Z /\ (k mod 2 ^ 26 = b / 2 ^ 6)%Z /\
    snd (src_next mt_source w) = snd (mt_next (snd (mt_next w))).
Proof. exact mt_bits. Qed.
Print Assumptions C72_twister_bits.

(** Choices are drawn by inverse transform, one number each: the numbers that lead to the i-th
    value form an interval as long as its probability. *)
Theorem C72_choice_law :
  forall src, unit_source src -> forall s kept vals n p,
  List.length p = List.length vals -> (forall x, In x p -> 0 <= x) -> total p = 1 ->
  exists l, rng_choice (numpy_rng src sqrt) (s, kept) vals n p = Ok (l, (skip src n s, kept)) /\ List.length l = n /\
    (forall k, (k < n)%nat -> exists x, nth_error l k = Some x /\ stands_for vals p (rand src s k) x) /\
    (forall u, 0 <= u < 1 -> exists! i, (i < List.length vals)%nat /\ mass p i <= u < mass p (S i)) /\
    (forall i q, nth_error p i = Some q -> mass p (S i) - mass p i = q).
Proof.
  intros src U s kept vals n p Hl Hp Hs. change (total p) with (Rsum p) in Hs.
  destruct (choice_succeeds src U s vals n p Hl Hp Hs) as ([l s'] & E). pose proof (choice_spec src U _ _ _ _ _ _ E) as (_ & _ & _ & -> & L & H).
  rewrite (normed_id p Hs) in H. exists l. cbn [numpy_rng rng_choice fst]. rewrite E. cbn [bind fst snd].
  split; [reflexivity|]. split; [exact L|]. split; [exact H|]. split.
  - intros u Hu. rewrite <- Hl. exact (mass_cover p u Hp Hs Hu).
  - intros i q Hq. rewrite (mass_S p i q Hq). ring.
Qed.
Print Assumptions C72_choice_law.

(** Successes: each draw with positive probability uses one number, and the numbers that mean
    success form an interval as long as the probability. *)
Theorem C72_binomial_law :
  forall src, unit_source src -> forall s kept ps, (forall p, In p ps -> 0 <= p <= 1) ->
  exists l, rng_binomial (numpy_rng src sqrt) (s, kept) ps = Ok (l, (skip src (numbers_used ps) s, kept)) /\
    forall k p, nth_error ps k = Some p -> exists x, nth_error l k = Some x /\ (x = 0 \/ x = 1)%Z /\
      (x = 1%Z <-> success p (rand src s (numbers_used (firstn k ps)))).
Proof.
  intros src U s kept ps Hp. exists (outcomes src s ps). cbn [numpy_rng rng_binomial fst]. rewrite np_binomial_ok by assumption.
  cbn [bind fst snd]. rewrite after_skip. split; [reflexivity|]. intros k p Hk. rewrite (outcomes_nth src ps s k p Hk).
  destruct (outcome_success p (rand src s (position ps k)) (Hp p (nth_error_In _ _ Hk)) (rand_unit src U s _)) as [H1 H2].
  eexists. split; [reflexivity|]. split; assumption.
Qed.
Print Assumptions C72_binomial_law.

(** Normal numbers: Marsaglia's polar method, pair by pair, row by row; pairs outside the unit
    disc (and its centre) are rejected, the second number of a pair is kept for the next call. *)
Theorem C72_normal_law :
  forall src st rows n m st', normals src st (List.concat rows) st' -> List.length rows = n -> (forall r, In r rows -> List.length r = m) ->
  rng_normal (numpy_rng src sqrt) st n m = (rows, st').
Proof.
  intros src st rows n m st' H Hn Hm. cbn [numpy_rng rng_normal]. unfold np_normal.
  assert (El : (n * m)%nat = List.length (List.concat rows)).
  { subst n. clear H. induction rows as [|r rows IH]; [reflexivity|]. cbn [List.concat List.length]. rewrite app_length, <- IH by (intros r' Hr; apply Hm; right; exact Hr).
    rewrite (Hm r (or_introl eq_refl)). lia. }
  rewrite El, (gausses_normals src _ _ _ H). subst n. rewrite chunks_concat by exact Hm. reflexivity.
Qed.
Print Assumptions C72_normal_law.

(** C52 with numpy's generator: complete inputs run to the end. *)
Theorem C72_program_returns_with_numpy :
  forall roots s2 spi pa sa files h c loc root D df mp n share p f,
  source sa h = (c, loc) -> arg_ok sa h -> complete c loc root D ->
  read_model_params_init pa = Ok (df, mp) -> with_types df n share p f -> shares_ok n share ->
  exists sp, agrees c loc root D df sp /\
    (usable sp -> files_ok sp files -> forall biased sparse g, exists data g',
       snd (simulate_of (numpy_rng mt_source sqrt) roots s2 spi pa sa files biased sparse g h) = Ok (data, g')).
Proof.
  intros. eapply C52_program_returns; try eassumption; [apply numpy_rng_ok|apply numpy_rng_total]; apply mt_unit.
Qed.
Print Assumptions C72_program_returns_with_numpy.

(** reference values of the generator (seed 5489: first and 10000th word) *)
Fixpoint words (n : nat) (w : list Z) : Z :=
  match n with O => fst (mt_next w) | S n' => words n' (snd (mt_next w)) end.
Example C72_reference : words 0 (mt_seed 5489) = 3499211612%Z /\ words (Z.to_nat 9999) (mt_seed 5489) = 4123659995%Z.
Proof. split; vm_compute; reflexivity. Qed.

(** three values, the number 1/4: the second one *)
Example C72_choice_case : stands_for [10; 20; 30]%Z [1/5; 1/2; 3/10] (1/4) 20%Z.
Proof. exists 1%nat. split; [reflexivity|]. cbn. lra. Qed.
Example C72_choice_numbers : rand ex_source 2%Z 0 = 2/8 /\ rand ex_source 2%Z 1 = 5/8.
Proof. unfold rand. cbn. split; reflexivity. Qed.

(** a pair that is rejected and one that is used *)
Example C72_normal_case : exists a b, (a, b) = polar (6/8) (1/8) /\ normals ex_source (0%Z, None) (List.concat [[a]; [b]]) (12%Z, None).
Proof.
  destruct (polar (6/8) (1/8)) as [a b] eqn:E. exists a, b. split; [reflexivity|]. cbn [List.concat app].
  apply (normals_pair ex_source 1 _ a b 12%Z); [lia| |apply normals_kept, normals_end]. apply polar_later.
  - unfold inside, rand. cbn. lra.
  - rewrite <- E. change 12%Z with (skip ex_source 2 6%Z). change (polar (6/8) (1/8)) with (polar (rand ex_source 6%Z 0) (rand ex_source 6%Z 1)).
    apply (polar_now ex_source 6%Z). unfold inside, rand. cbn. lra.
Qed.

(** Raising a probability may turn the outcome of the same number from success to failure:
    numpy reads the number from the other end when the probability exceeds one half. *)
Example C72_common_numbers_can_fail : exists p p' u, 0 < p < p' /\ p' < 1 /\ 0 <= u < 1 /\ success p u /\ ~ success p' u.
Proof.
  exists (4/10), (6/10), (65/100). repeat split; try lra; unfold success.
  - destruct (Rle_dec (4/10) (1/2)); lra.
  - destruct (Rle_dec (6/10) (1/2)); lra.
Qed.

(** C73: simulate_auxiliary.py seeds the generator with seed_sim, the education levels are
    drawn, and shared/numerical_integration.py seeds it with seed_sim again before the wage
    shocks are drawn.  So the first two wage shocks of period 0 are made of the two numbers that
    decide about the education of agents 0 and 1. *)
Theorem C73_numbers_used_twice :
  forall src mp sp biased zs ws pc pp sol ip data, unit_source src ->
  inputs_ok sp mp pc pp -> solved sp mp biased zs ws pc pp sol ->
  sim_setting (numpy_rng src sqrt) sp sol -> init_ok sp ip -> simulation (numpy_rng src sqrt) mp sp sol ip pc pp data ->
  let s := src_seed src (seed_sim sp) in
  let u := rand src s in
  (forall r, In r data -> stands_for (range (num_educ_levels sp)) (ip_educ ip) (u (Z.to_nat (row_id r))) (a_educ (o_state r))) /\
  exists column : Z -> nat,
    (forall r r', In r data -> In r' data -> row_id r <> row_id r' -> column (row_id r) <> column (row_id r')) /\
    ((forall y, In y (educ_years sp) -> y = 0%Z) -> forall r, In r data -> column (row_id r) = Z.to_nat (row_id r)) /\
    (inside (u 0%nat) (u 1%nat) -> (2 <= num_agents_sim sp)%Z -> forall r, In r data -> row_period r = 0%Z ->
       (column (row_id r) = 0%nat -> shock_of sp mp r (fst (polar (u 0%nat) (u 1%nat)) * shock_sd mp)) /\
       (column (row_id r) = 1%nat -> shock_of sp mp r (snd (polar (u 0%nat) (u 1%nat)) * shock_sd mp))).
Proof.
  intros src mp sp biased zs ws pc pp sol ip data U Hok Hs Hset Hip Hsim s u. split.
  - destruct (educ_drawn _ _ _ _ _ _ _ _ Hset Hsim) as (educs & g1 & E & H). intros r Hr. destruct (H r Hr) as [H0 H1].
    cbn [numpy_rng rng_choice rng_seed fst] in E.
    destruct (np_choice src _ _ _ _) as [[l g2]|] eqn:Ec; [|discriminate]. cbn [bind fst snd] in E. injection E as -> _.
    pose proof (choice_spec src U _ _ _ _ _ _ Ec) as (_ & _ & _ & _ & L & Hk).
    assert (Hlt : (Z.to_nat (row_id r) < Z.to_nat (num_agents_sim sp))%nat) by (rewrite <- L; apply nth_error_Some; congruence).
    destruct (Hk _ Hlt) as (x & Hx & Hst). rewrite H1 in Hx. injection Hx as <-.
    rewrite (normed_id (ip_educ ip)) in Hst; [exact Hst|]. apply (io_educ _ _ Hip).
  - destruct (rows_of_simulation_at (numpy_rng src sqrt) mp sp biased zs ws pc pp sol Hok Hs ip data Hset Hsim) as (col & Hi & Hid & H).
    exists col. split; [intros r r' Hr Hr' Hne E; apply Hne; apply Hi; assumption|]. split; [exact Hid|].
    intros Hin HN r Hr Hr0. destruct (H r Hr) as (z & f & He & Hz & _). rewrite Hr0 in He.
    cbn [numpy_rng rng_normal rng_seed] in He. unfold np_normal in He. fold s in He.
    assert (HP : (1 <= Z.to_nat (num_periods sp))%nat).
    { destruct (Z.to_nat (num_periods sp)) as [|P]; [|lia]. cbn in He. discriminate. }
    destruct (gausses_first src (Z.to_nat (num_periods sp) * Z.to_nat (num_agents_sim sp)) s Hin) as (l & g1 & E).
    { assert (2 <= Z.to_nat (num_agents_sim sp))%nat by lia. nia. }
    rewrite E in He. cbn [fst] in He. apply element_chunks in He. cbn [Z.to_nat Nat.mul Nat.add] in He. fold u in He.
    split; intros Ec; rewrite Ec in He; cbn [nth_error] in He; injection He as <-; exact Hz.
Qed.
Print Assumptions C73_numbers_used_twice.

(** Hence education predicts wages: when everybody enters in period 0, whether agent 0 has the
    lowest education level and whether agent 1 is unlucky in period 0 are decided by the same
    number [u]. *)
Theorem C73_education_predicts_shock :
  forall src mp sp biased zs ws pc pp sol ip data p0 rest, unit_source src ->
  inputs_ok sp mp pc pp -> solved sp mp biased zs ws pc pp sol ->
  sim_setting (numpy_rng src sqrt) sp sol -> init_ok sp ip -> simulation (numpy_rng src sqrt) mp sp sol ip pc pp data ->
  let s := src_seed src (seed_sim sp) in
  let u := rand src s 0 in
  (forall y, In y (educ_years sp) -> y = 0%Z) -> ip_educ ip = p0 :: rest -> 0 < shock_sd mp ->
  inside u (rand src s 1) ->
  forall r0 r1, In r0 data -> In r1 data -> row_id r0 = 0%Z -> row_id r1 = 1%Z -> row_period r1 = 0%Z ->
  exists shock, shock_of sp mp r1 shock /\ (a_educ (o_state r0) = 0%Z <-> u < p0) /\ (shock < 0 <-> u < 1 / 2).
Proof.
  intros src mp sp biased zs ws pc pp sol ip data p0 rest U Hok Hs Hset Hip Hsim s u Hz Hp Hsd Hin r0 r1 H0 H1 I0 I1 P1.
  destruct (C73_numbers_used_twice src mp sp biased zs ws pc pp sol ip data U Hok Hs Hset Hip Hsim) as (He & col & _ & Hid & Hsh).
  cbv zeta in He, Hsh. fold s in He, Hsh. fold u in Hsh.
  assert (HN : (2 <= num_agents_sim sp)%Z).
  { destruct (educ_drawn _ _ _ _ _ _ _ _ Hset Hsim) as (educs & g1 & E & H). destruct (H r1 H1) as [_ Hn].
    destruct (C72_numpy_contract src U) as [Hrg _]. apply (choice_length _ Hrg) in E. rewrite I1 in Hn.
    assert (1 < List.length educs)%nat by (apply nth_error_Some; change 1%nat with (Z.to_nat 1); congruence). lia. }
  destruct (Hsh Hin HN r1 H1 P1) as [_ Hs1]. specialize (Hid Hz r1 H1). rewrite I1 in Hid, Hs1. specialize (Hs1 Hid).
  exists (snd (polar u (rand src s 1)) * shock_sd mp). split; [exact Hs1|]. split.
  - specialize (He r0 H0). rewrite I0 in He. change (Z.to_nat 0) with 0%nat in He. fold u in He. rewrite Hp in He.
    destruct He as (i & Hi & Hm).
    assert (Hpos : forall x, In x (p0 :: rest) -> 0 <= x). { rewrite <- Hp. apply (io_educ _ _ Hip). }
    assert (Hlen : (i < Z.to_nat (num_educ_levels sp))%nat). { rewrite <- range_length. apply nth_error_Some. congruence. }
    assert (Ei : a_educ (o_state r0) = Z.of_nat i).
    { apply (nth_error_nth _ _ 0%Z) in Hi. rewrite nth_range in Hi by exact Hlen. symmetry. exact Hi. }
    rewrite Ei. destruct i as [|i].
    + cbn [mass] in Hm. split; [intros _|reflexivity]. destruct rest; cbn in Hm; lra.
    + split; [lia|]. intros Hu. exfalso. pose proof (mass_le (p0 :: rest) 1 (S i) Hpos ltac:(lia)) as Hle.
      assert (E1 : mass (p0 :: rest) 1 = p0) by (destruct rest; cbn; ring). rewrite E1 in Hle. lra.
  - unfold polar. cbn [snd]. unfold inside in Hin. cbv zeta in Hin. set (v := rand src s 1) in *. set (r := (2 * u - 1) ^ 2 + (2 * v - 1) ^ 2) in *.
    assert (Hf : 0 < sqrt (- (2 * ln r) / r)).
    { apply sqrt_lt_R0. apply Rdiv_lt_0_compat; [|lra]. assert (ln r < 0) by (rewrite <- ln_1; apply ln_increasing; lra). lra. }
    set (f := sqrt (- (2 * ln r) / r)) in *. assert (Hfs : 0 < f * shock_sd mp) by (apply Rmult_lt_0_compat; assumption).
    replace (f * (2 * u - 1) * shock_sd mp) with ((f * shock_sd mp) * (2 * u - 1)) by ring. set (k := f * shock_sd mp) in *. split; intros H.
    + destruct (Rlt_le_dec u (1/2)) as [|Hn]; [assumption|exfalso]. assert (0 <= k * (2 * u - 1)) by (apply Rmult_le_pos; lra). lra.
    + assert (k * (2 * u - 1) < k * 0) by (apply Rmult_lt_compat_l; lra). lra.
Qed.
Print Assumptions C73_education_predicts_shock.

(** agents of the economy [flat_spec] all enter in period 0; the first two numbers are 1/4 and
    5/8 *)
Example C73_case : exists sol data,
  unit_source ex_source /\ inputs_ok flat_spec kids_params ex_prob_child ex_prob_partner /\
  solved flat_spec kids_params false ex_draws ex_weights ex_prob_child ex_prob_partner sol /\
  sim_setting (numpy_rng ex_source sqrt) flat_spec sol /\ init_ok flat_spec childless_ip /\
  simulation (numpy_rng ex_source sqrt) kids_params flat_spec sol childless_ip ex_prob_child ex_prob_partner data /\
  (forall y, In y (educ_years flat_spec) -> y = 0%Z) /\ ip_educ childless_ip = 1/2 :: [1/4; 1/4] /\ 0 < shock_sd kids_params /\
  inside (rand ex_source (src_seed ex_source (seed_sim flat_spec)) 0) (rand ex_source (src_seed ex_source (seed_sim flat_spec)) 1) /\
  exists r0 r1, In r0 data /\ In r1 data /\ row_id r0 = 0%Z /\ row_id r1 = 1%Z /\ row_period r1 = 0%Z.
Proof.
  destruct (C72_numpy_contract ex_source ex_source_unit) as [G1 G2].
  destruct (any_run_with flat_spec kids_params ex_prob_child ex_prob_partner childless_ip flat_inputs ex_child_probs ex_partner_probs
    (childless_init flat_spec eq_refl eq_refl eq_refl) L_SimExample.ex_types flat_sim_spec _ G1 G2) as (sol & data & S1 & S2 & S3).
  exists sol, data. split; [exact ex_source_unit|]. split; [exact flat_inputs|]. split; [exact S1|]. split; [exact S2|].
  split; [exact (childless_init flat_spec eq_refl eq_refl eq_refl)|]. split; [exact S3|].
  split; [intros y H; cbn [flat_spec educ_years In] in H; lia|]. split; [reflexivity|]. split; [cbn [kids_params shock_sd]; lra|].
  split; [unfold inside, rand; cbn; lra|].
  destruct (C32_panel (numpy_rng ex_source sqrt) kids_params flat_spec sol childless_ip ex_prob_child ex_prob_partner data S2 S3)
    as (_ & educs & L & _ & K & _). change (num_agents_sim flat_spec) with 10%Z in L.
  destruct educs as [|e0 [|e1 educs]]; try discriminate L.
  destruct (K 0%nat e0 eq_refl) as (y0 & _ & Y0 & R0). destruct (K 1%nat e1 eq_refl) as (y1 & _ & Y1 & R1).
  assert (Hy : forall y, In y (educ_years flat_spec) -> y = 0%Z) by (intros y H; cbn [flat_spec educ_years In] in H; lia).
  apply nth_error_In, Hy in Y0, Y1. subst y0 y1.
  destruct (proj2 (R0 0%Z)) as (r0 & D0 & E0); [change (num_periods flat_spec) with 4%Z; lia|].
  destruct (proj2 (R1 0%Z)) as (r1 & D1 & E1); [change (num_periods flat_spec) with 4%Z; lia|].
  unfold row_key in E0, E1. injection E0 as E0 _. injection E1 as E1 E1'. exists r0, r1.
  exact (conj D0 (conj D1 (conj E0 (conj E1 E1')))).
Qed.
