(** Property theorems C48 - C50: exogenous probability tables and integration weights. *)
From Coq Require Import Reals Lra Lia ZArith List String.
From Verif Require Import Base Num M_Params M_Exog S_Rng S_Exog L_Num L_Exog X_Example L_Rng L_Seed.
Import ListNotations.
Open Scope R_scope.

(** C48: partner transitions: from files listing arrival probabilities a t e and separation
    probabilities s t e (at least for all periods of the model), singles stay single with
    1 - a, couples separate with s. *)
Theorem C48_partner_transitions :
  forall sp (a s : Z -> Z -> R) na ns fa fs,
  (0 <= num_periods sp <= na)%Z -> (num_periods sp <= ns)%Z -> (0 <= num_educ_levels sp)%Z ->
  lists_values a (num_educ_levels sp) na fa -> lists_values s (num_educ_levels sp) ns fs ->
  exists tab, gen_prob_partner sp fa fs = Ok tab /\ zlen tab = num_periods sp /\
    forall t, (0 <= t < num_periods sp)%Z -> exists row, nth_error tab (Z.to_nat t) = Some row /\ zlen row = num_educ_levels sp /\
      forall e, (0 <= e < num_educ_levels sp)%Z ->
        nth_error row (Z.to_nat e) = Some [(1 - a t e, a t e); (s t e, 1 - s t e)].
Proof.
  intros sp a s na ns fa fs HP HN HE Fa Fs. eexists. split; [apply (partner_table sp a s na ns); assumption|].
  assert (Hnth : forall n k, (0 <= k < n)%Z -> nth_error (range n) (Z.to_nat k) = Some k).
  { intros n k Hk. rewrite range_nth, Z2Nat.id by lia. destruct (k <? n)%Z eqn:E; [reflexivity|apply Z.ltb_ge in E; lia]. }
  unfold zlen. split; [rewrite map_length, range_length; lia|].
  intros t Ht. eexists. split; [apply map_nth_error; apply Hnth; exact Ht|]. split; [rewrite map_length, range_length; lia|].
  intros e He. rewrite (map_nth_error _ _ _ (Hnth _ e He)). reflexivity.
Qed.
Print Assumptions C48_partner_transitions.

(** Whatever the files contain, every row of the table is a pair of pairs summing to one. *)
Theorem C48_partner_rows_sum_to_one :
  forall sp fa fs tab, gen_prob_partner sp fa fs = Ok tab ->
  forall r, In r tab -> forall q, In q r -> zlen q = 2%Z /\ forall pr, In pr q -> fst pr + snd pr = 1.
Proof. exact partner_rows. Qed.
Print Assumptions C48_partner_rows_sum_to_one.

(** Births: the file up to last_child_bearing_period, 0 afterwards. *)
Theorem C48_births :
  forall sp (p : Z -> Z -> R) n file,
  (0 <= num_periods sp <= n)%Z -> (-1 <= last_child_bearing_period sp)%Z -> lists_periods p 3 n file ->
  exists tab, gen_prob_child_vector sp file = Ok tab /\ zlen tab = num_periods sp /\
    forall t, (0 <= t < num_periods sp)%Z ->
      nth_error tab (Z.to_nat t) = Some (if (t <=? last_child_bearing_period sp)%Z then [p t 0%Z; p t 1%Z; p t 2%Z] else [0; 0; 0]).
Proof.
  intros sp p n file HP HL Hf. eexists. split; [apply (child_vector sp p n); assumption|].
  unfold zlen. split; [rewrite map_length, range_length; lia|]. intros t Ht.
  rewrite (map_nth_error _ _ (range (num_periods sp)) (d := t)).
  - destruct (t <=? _)%Z; reflexivity.
  - rewrite range_nth, Z2Nat.id by lia. destruct (t <? _)%Z eqn:E; [reflexivity|apply Z.ltb_ge in E; lia].
Qed.
Print Assumptions C48_births.

(** A last_child_bearing_period below -1 is counted from the end of the horizon (python's
    slices): births stay possible in the first num_periods + last_child_bearing_period + 1
    periods. *)
Theorem C48_births_negative_period :
  forall sp (p : Z -> Z -> R) n file,
  (0 <= num_periods sp <= n)%Z -> (last_child_bearing_period sp < -1)%Z -> lists_periods p 3 n file ->
  exists tab, gen_prob_child_vector sp file = Ok tab /\ zlen tab = num_periods sp /\
    forall t, (0 <= t < num_periods sp)%Z ->
      nth_error tab (Z.to_nat t)
      = Some (if (t <=? num_periods sp + last_child_bearing_period sp)%Z then [p t 0%Z; p t 1%Z; p t 2%Z] else [0; 0; 0]).
Proof.
  intros sp p n file HP HL Hf. eexists. split; [apply (child_vector_any sp p n); [assumption|right; split; [exact HL|reflexivity]|assumption]|].
  unfold zlen. split; [rewrite map_length, range_length; lia|]. intros t Ht.
  rewrite (map_nth_error _ _ (range (num_periods sp)) (d := t)).
  - destruct (t <=? _)%Z; reflexivity.
  - rewrite range_nth, Z2Nat.id by lia. destruct (t <? _)%Z eqn:E; [reflexivity|apply Z.ltb_ge in E; lia].
Qed.
Print Assumptions C48_births_negative_period.

(** Initial child ages and experience: one list per education level, the file's shares with
    the first one replaced by the remainder, so that every list sums to one. *)
Theorem C48_initial_shares :
  forall n file tab, (0 <= n)%Z -> shares_by_educ n file = Ok tab ->
  zlen tab = n /\
  forall e, (0 <= e < n)%Z -> exists row, nth_error tab (Z.to_nat e) = Some row /\
    total row = 1 /\ tl row = tl (of_level e file) /\ List.length row = List.length (of_level e file) /\
    ((forall x, In x (tl (of_level e file)) -> 0 <= x) -> total (tl (of_level e file)) <= 1 -> forall x, In x row -> 0 <= x).
Proof.
  intros n file tab Hn H. destruct (shares_spec n file tab Hn H) as [H1 H2]. split; [exact H1|].
  intros e He. destruct (H2 e He) as (row & A & B & C & D). exists row.
  refine (conj A (conj B (conj C (conj D _)))). intros P1 P2. eapply share_nonneg; eassumption.
Qed.
Print Assumptions C48_initial_shares.

Theorem C48_initial_shares_defined :
  forall sp file,
  (forall e, (0 <= e < num_educ_levels sp)%Z -> of_level e file <> []) ->
  (exists tab, gen_prob_child_init_age_vector sp file = Ok tab /\ shares_by_educ (num_educ_levels sp) file = Ok tab) /\
  (exists tab, gen_prob_init_exp_component_vector sp file = Ok tab /\ shares_by_educ (num_educ_levels sp) file = Ok tab).
Proof.
  intros sp file H. destruct (shares_total (num_educ_levels sp) file H) as [tab Ht].
  split; exists tab; split; assumption.
Qed.
Print Assumptions C48_initial_shares_defined.

(** C49: Monte-Carlo weights. *)
Theorem C49_monte_carlo :
  forall rg roots s2 spi sp, rng_ok rg -> integration_method sp = "monte_carlo"%string -> (1 <= num_draws_emax sp)%Z -> valid_seed (seed_emax sp) ->
  exists draws weights g', (forall g, get_integration_draws_and_weights rg roots s2 spi sp g = Ok ((draws, weights), g')) /\
    zlen draws = num_draws_emax sp /\ zlen weights = num_draws_emax sp /\
    (forall w, In w weights -> w = 1 / IZR (num_draws_emax sp) /\ 0 < w) /\ total weights = 1.
Proof.
  intros rg roots s2 spi sp Hrg Hm Hn Hs. unfold get_integration_draws_and_weights. rewrite Hm. cbn [String.eqb Ascii.eqb Bool.eqb].
  rewrite shocks_ok by first [exact Hs|lia]. cbn [bind].
  pose proof (normal_rows rg Hrg (rng_seed rg (seed_emax sp)) (Z.to_nat 1) (Z.to_nat (num_draws_emax sp))) as Hr.
  pose proof (normal_cols rg Hrg (rng_seed rg (seed_emax sp)) (Z.to_nat 1) (Z.to_nat (num_draws_emax sp))) as Hc.
  destruct (rng_normal rg _ _ _) as [m g']. cbn [fst] in *. change (Z.to_nat 1) with 1%nat in Hr.
  destruct m as [|r [|]]; try discriminate Hr. specialize (Hc r (or_introl eq_refl)).
  exists r, (repeat (1 / IZR (num_draws_emax sp)) (Z.to_nat (num_draws_emax sp))), g'.
  assert (Hp : 0 < IZR (num_draws_emax sp)) by (apply IZR_lt; lia).
  split; [intros g; reflexivity|]. unfold zlen. rewrite Hc, repeat_length. split; [lia|]. split; [lia|]. split.
  - intros w Hw. apply repeat_spec in Hw. subst w. split; [reflexivity|]. apply Rdiv_lt_0_compat; lra.
  - change total with Rsum. rewrite Rsum_repeat, INR_IZR_INZ, Z2Nat.id by lia. field. lra.
Qed.
Print Assumptions C49_monte_carlo.

(** Quadrature: given scipy's contract the weights sum to one, and the draws have mean 0 and
    variance 1 under them. *)
Theorem C49_quadrature :
  forall rg roots sp g, hermite_ok roots -> integration_method sp = "quadrature"%string -> (1 <= num_draws_emax sp)%Z ->
  exists draws weights, get_integration_draws_and_weights rg roots (sqrt 2) (sqrt PI) sp g = Ok ((draws, weights), g) /\
    draws = map (fun x => x * sqrt 2) (fst (roots (num_draws_emax sp))) /\
    zlen draws = num_draws_emax sp /\ zlen weights = num_draws_emax sp /\
    (forall w, In w weights -> 0 < w) /\ total weights = 1 /\
    total (map2 Rmult draws weights) = 0 /\
    ((2 <= num_draws_emax sp)%Z -> total (map2 (fun z w => z * z * w) draws weights) = 1).
Proof.
  intros rg roots sp g Hh Hm Hn. unfold get_integration_draws_and_weights. rewrite Hm. cbn [String.eqb Ascii.eqb Bool.eqb].
  destruct (Z.ltb_spec (num_draws_emax sp) 1); [lia|].
  destruct (Hh _ Hn) as (H1 & H2 & H3 & H4 & H5 & H6). destruct (roots _) as [x w]. cbn [fst snd] in *.
  assert (Hpi : 0 < sqrt PI) by (apply sqrt_lt_R0; apply PI_RGT_0).
  eexists _, _. split; [reflexivity|]. split; [reflexivity|]. unfold zlen in *. rewrite !map_length. split; [exact H1|]. split; [exact H2|].
  rn. change total with Rsum in *. split; [|split; [|split]].
  - intros v Hv. apply in_map_iff in Hv. destruct Hv as (u & <- & Hu). apply Rmult_lt_0_compat; [apply H3; exact Hu|].
    apply Rdiv_lt_0_compat; lra.
  - rewrite (Rsum_map_mult (fun v => v)), map_id, H4. field. lra.
  - assert (E : forall x w, Rsum (map2 Rmult (map (fun v => v * sqrt 2) x) (map (fun v => v * (1 / sqrt PI)) w))
                = Rsum (map2 Rmult x w) * (sqrt 2 * (1 / sqrt PI))).
    { clear. induction x as [|u x IH]; intros [|v w]; cbn [map map2 Rsum]; try lra. rewrite IH. ring. }
    rewrite E, H5. ring.
  - intros Hn2. assert (E : forall x w, Rsum (map2 (fun z v => z * z * v) (map (fun v => v * sqrt 2) x) (map (fun v => v * (1 / sqrt PI)) w))
                = Rsum (map2 (fun a b => a * a * b) x w) * ((sqrt 2 * sqrt 2) * (1 / sqrt PI))).
    { clear. induction x as [|u x IH]; intros [|v w]; cbn [map map2 Rsum]; try lra. rewrite IH. ring. }
    rewrite E, (H6 Hn2), sqrt_sqrt by lra. field. lra.
Qed.
Print Assumptions C49_quadrature.

(** C50: total experience: for each education level the law of the sum of independent draws
    from the two share vectors. *)
Theorem C50_law_of_total_experience :
  forall sp file_ft file_pt tab, (0 <= num_educ_levels sp)%Z -> (0 <= init_exp_max sp)%Z ->
  gen_prob_init_exp_years_vector sp file_ft file_pt = Ok tab ->
  exists ft pt, shares_by_educ (num_educ_levels sp) file_ft = Ok ft /\ shares_by_educ (num_educ_levels sp) file_pt = Ok pt /\
  zlen tab = num_educ_levels sp /\
  forall e, (0 <= e < num_educ_levels sp)%Z -> exists a b row,
    nth_error ft (Z.to_nat e) = Some a /\ nth_error pt (Z.to_nat e) = Some b /\ nth_error tab (Z.to_nat e) = Some row /\
    ((zlen a <= init_exp_max sp + 1)%Z -> (zlen b <= init_exp_max sp + 1)%Z ->
       List.length row = (List.length a + List.length b - 1)%nat /\
       (forall k, (k < List.length row)%nat -> nth k row 0 = law_of_sum a b k) /\
       (forall k, (List.length row <= k)%nat -> law_of_sum a b k = 0) /\
       total row = 1 /\
       ((forall x, In x a -> 0 <= x) -> (forall x, In x b -> 0 <= x) -> forall x, In x row -> 0 <= x)).
Proof.
  intros sp fft fpt tab HE HI H. destruct (exp_years_spec sp fft fpt tab HE HI H) as (ft & pt & E1 & E2 & HL & Hrow).
  exists ft, pt. refine (conj E1 (conj E2 (conj HL _))). intros e He.
  destruct (Hrow e He) as (a & b & row & Ha & Hb & Hr & Heq). exists a, b, row. refine (conj Ha (conj Hb (conj Hr _))).
  intros La Lb. cbv zeta in Heq.
  destruct (shares_spec _ _ _ HE E1) as [_ S1]. destruct (S1 e He) as (a' & A1 & A2 & _). rewrite Ha in A1. injection A1 as <-.
  destruct (shares_spec _ _ _ HE E2) as [_ S2]. destruct (S2 e He) as (b' & B1 & B2 & _). rewrite Hb in B1. injection B1 as <-.
  assert (Pa : (0 < List.length a)%nat) by (destruct a; [cbn in A2; lra|cbn; lia]).
  assert (Pb : (0 < List.length b)%nat) by (destruct b; [cbn in B2; lra|cbn; lia]).
  unfold zlen in La, Lb. rewrite Nat.min_l in Heq by lia.
  assert (Ht : Rsum (map (law_of_sum a b) (seq 0 (List.length a + List.length b - 1))) = 1).
  { rewrite law_total by assumption. change total with Rsum in *. rewrite A2, B2. ring. }
  rewrite Ht in Heq.
  assert (Heq' : row = map (law_of_sum a b) (seq 0 (List.length a + List.length b - 1))).
  { rewrite Heq. apply map_ext. intros. field. }
  rewrite Heq', map_length, seq_length. split; [reflexivity|]. split; [|split; [|split]].
  - intros k Hk. rewrite (nth_indep _ 0 (law_of_sum a b 0)) by (rewrite map_length, seq_length; exact Hk).
    rewrite map_nth, seq_nth by exact Hk. reflexivity.
  - intros k Hk. unfold law_of_sum. change total with Rsum. apply Rsum_zero. intros i Hi. apply in_seq in Hi.
    apply Rsum_zero. intros j Hj. apply in_seq in Hj. replace (Nat.eqb (i + j) k) with false by (symmetry; apply Nat.eqb_neq; lia). reflexivity.
  - exact Ht.
  - intros Na Nb x Hx. apply in_map_iff in Hx. destruct Hx as (k & <- & _). apply law_nonneg; assumption.
Qed.
Print Assumptions C50_law_of_total_experience.

(** *** The hypotheses are met *)
Definition ex_births (t e : Z) : R := 1 / IZR (2 + t + e).
Example C48_files : lists_values ex_births 3 5 (List.concat (map (fun t => map (fun e => (t, ex_births t e)) (range 3)) (range 5)))
  /\ lists_periods ex_births 3 5 (map (fun t => (t, map (ex_births t) (range 3))) (range 5)).
Proof.
  split; [reflexivity|]. exists (map (fun t => [(t, map (ex_births t) (range 3))]) (range 5)).
  split; [reflexivity|]. split; [reflexivity|]. intros t block H.
  do 5 (destruct t as [|t]; [injection H as <-; split; [intros row [<-|[]]; reflexivity|reflexivity]|]). destruct t; discriminate H.
Qed.
Example C48_shares : exists row0 row1 row2,
  shares_by_educ 3 [(0%Z, 1/2); (0%Z, 1/4); (1%Z, 0); (1%Z, 1/8); (2%Z, 3/4); (2%Z, 1)] = Ok [row0; row1; row2] /\
  row1 = [1 - (0 + 1/8); 1/8].
Proof.
  eexists _, _, _. unfold shares_by_educ, range, range2. cbn [Z.sub Z.to_nat Pos.to_nat Pos.iter_op seq map Z.of_nat Nat.add Z.add mapM
    filter fst snd Z.eqb Pos.eqb fix_first bind nsum fold_left].
  split; [reflexivity|]. reflexivity.
Qed.
(** an oracle satisfying scipy's contract *)
Definition ex_roots (n : Z) : list R * list R :=
  ((if (n <? 2)%Z then [0] else sqrt (IZR n) / 2 :: - (sqrt (IZR n) / 2) :: repeat 0 (Z.to_nat n - 2)),
   repeat (sqrt PI / IZR n) (Z.to_nat n)).
Example C49_oracle : hermite_ok ex_roots.
Proof.
  intros n Hn. cbv zeta. unfold ex_roots. cbn [fst snd].
  assert (Hp : 0 < IZR n) by (apply IZR_lt; lia). assert (Hpi : 0 < sqrt PI) by (apply sqrt_lt_R0; apply PI_RGT_0).
  unfold zlen. split; [|split; [|split; [|split; [|split]]]].
  - destruct (n <? 2)%Z eqn:E; [apply Z.ltb_lt in E; cbn [List.length]; lia|apply Z.ltb_ge in E].
    cbn [List.length]. rewrite repeat_length. lia.
  - rewrite repeat_length. lia.
  - intros v Hv. apply repeat_spec in Hv. subst v. apply Rdiv_lt_0_compat; assumption.
  - change total with Rsum. rewrite Rsum_repeat, INR_IZR_INZ, Z2Nat.id by lia. field. lra.
  - change total with Rsum. destruct (n <? 2)%Z eqn:E; [apply Z.ltb_lt in E|apply Z.ltb_ge in E].
    + replace n with 1%Z by lia. change (Z.to_nat 1) with 1%nat. cbn [repeat map2 Rsum]. ring.
    + replace (Z.to_nat n) with (S (S (Z.to_nat n - 2))) by lia. cbn [repeat map2 Rsum Nat.sub].
      assert (Z0 : forall k m c, Rsum (map2 Rmult (repeat 0 k) (repeat c m)) = 0).
      { clear. induction k as [|k IH]; intros [|m] c; cbn [repeat map2 Rsum]; try reflexivity. rewrite IH. ring. }
      rewrite Z0. ring.
  - intros Hn2. replace (n <? 2)%Z with false by (symmetry; apply Z.ltb_ge; lia). change total with Rsum.
    replace (Z.to_nat n) with (S (S (Z.to_nat n - 2))) by lia. cbn [repeat map2 Rsum Nat.sub].
    assert (Z0 : forall k m c, Rsum (map2 (fun a b => a * a * b) (repeat 0 k) (repeat c m)) = 0).
    { clear. induction k as [|k IH]; intros [|m] c; cbn [repeat map2 Rsum]; try reflexivity. rewrite IH. ring. }
    rewrite Z0. assert (Hs : sqrt (IZR n) * sqrt (IZR n) = IZR n) by (apply sqrt_sqrt; lra).
    transitivity ((sqrt (IZR n) * sqrt (IZR n)) / 2 * (sqrt PI / IZR n)); [lra|]. rewrite Hs. field. lra.
Qed.
Example C49_methods : exists sp1 sp2 : model_spec R,
  integration_method sp1 = "monte_carlo"%string /\ (1 <= num_draws_emax sp1)%Z /\
  integration_method sp2 = "quadrature"%string /\ (2 <= num_draws_emax sp2)%Z /\ rng_ok ex_rng.
Proof.
  exists (mkSpec R 1 1 1 [0]%Z 1 1 1 1 [0;1] 1 1 1 1 10 "monte_carlo" 0 0 0 0 0 (tax_params ex_spec) (0,0) [] true "elterngeld" 0 0 0 0 0 0 0 0 0 0 0 0 0),
         (mkSpec R 1 1 1 [0]%Z 1 1 1 1 [0;1] 1 1 1 1 5 "quadrature" 0 0 0 0 0 (tax_params ex_spec) (0,0) [] true "elterngeld" 0 0 0 0 0 0 0 0 0 0 0 0 0).
  refine (conj eq_refl (conj _ (conj eq_refl (conj _ ex_rng_ok)))); cbn [num_draws_emax]; lia.
Qed.
