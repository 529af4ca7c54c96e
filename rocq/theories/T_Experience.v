(** Property theorems C06 - C11: the experience stock. *)
From Verif Require Import Base Num M_Params M_Experience M_Sim
  L_Num S_Experience L_Experience L_Rounded L_Init.
Open Scope R_scope.

(** C06 *)
Theorem C06_next_stock_in_unit_interval :
  forall (s : R) (t i : Z) (p : R) (c : Z), 0 <= next_stock s t i p c <= 1.
Proof. exact next_stock_unit. Qed.
Print Assumptions C06_next_stock_in_unit_interval.

(** ... also in rounded arithmetic, for every rounding that keeps 0 and 1. *)
Theorem C06_next_stock_in_unit_interval_rounded :
  forall rnd : R -> R, rnd 0 = 0 -> rnd 1 = 1 ->
  forall (s : R) (t i : Z) (p : R) (c : Z), 0 <= @next_stock R (RndNum rnd) s t i p c <= 1.
Proof. exact next_stock_unit_rounded. Qed.
Print Assumptions C06_next_stock_in_unit_interval_rounded.

Example C06_rounding_exists : (fun x : R => IZR (Int_part x)) 0 = 0 /\ (fun x : R => IZR (Int_part x)) 1 = 1.
Proof.
  split; simpl; f_equal; symmetry; unfold Int_part.
  - assert (1%Z = up 0) by (apply tech_up; lra). lia.
  - assert (2%Z = up 1) by (apply tech_up; lra). lia.
Qed.

(** C07: years_of reads a stock as years; the code's own conversion is that reading,
    and one transition adds exactly the credit of the choice. *)
Theorem C07_accumulation :
  forall (s : R) (t i : Z) (p : R) (c : Z),
  0 <= s <= 1 -> (0 <= t)%Z -> (0 <= i)%Z -> 0 <= p ->
  years_of (next_stock s t i p c) i (t + 1) p = years_of s i t p + credit c p.
Proof. exact next_stock_years. Qed.
Print Assumptions C07_accumulation.

Theorem C07_conversion_reads_years :
  forall (s : R) (t i : Z) (p : R), (0 <= t)%Z -> stock_to_exp_years s t i p = years_of s i t p.
Proof. exact stock_to_exp_years_R. Qed.
Print Assumptions C07_conversion_reads_years.

(** the clip never binds: the result is the unclipped ratio *)
Theorem C07_clip_never_binds :
  forall (s : R) (t i : Z) (p : R) (c : Z),
  0 <= s <= 1 -> (0 <= t)%Z -> (0 <= i)%Z -> 0 <= p ->
  next_stock s t i p c = (years_of s i t p + credit c p) / max_years i (t + 1) p.
Proof. exact next_stock_unclipped. Qed.
Print Assumptions C07_clip_never_binds.

Example C07_nontrivial :
  0 <= 1/2 <= 1 /\ years_of (next_stock (1/2) 2 4 (1/4) 1) 4 3 (1/4) = 13/4.
Proof.
  split; [lra|]. change 3%Z with (2 + 1)%Z. rewrite C07_accumulation by (try lia; lra).
  unfold years_of, max_years, credit. simpl. replace (Rmax 1 (1/4)) with 1 by (rmm; lra). lra.
Qed.

(** C08 *)
Theorem C08_stock_years_stock :
  forall (s : R) (t i : Z) (p : R), (0 <= t)%Z -> 0 < max_years i t p ->
  exp_years_to_stock (stock_to_exp_years s t i p) t i p = s.
Proof. exact stock_years_stock. Qed.
Print Assumptions C08_stock_years_stock.

Theorem C08_years_stock_years :
  forall (y : R) (t i : Z) (p : R), (0 <= t)%Z -> 0 < max_years i t p ->
  stock_to_exp_years (exp_years_to_stock y t i p) t i p = y.
Proof. exact years_stock_years. Qed.
Print Assumptions C08_years_stock_years.

(** corner case: zero maximum; the guard divides by 1, years are returned unchanged *)
Theorem C08_zero_maximum :
  forall (y : R) (t i : Z) (p : R), (0 <= t)%Z -> max_years i t p <= 0 ->
  exp_years_to_stock y t i p = y.
Proof. exact years_to_stock_corner. Qed.
Print Assumptions C08_zero_maximum.

Example C08_positive : 0 < max_years 4 3 (1/2) /\ max_years 0 0 (1/2) <= 0.
Proof. unfold max_years. pose proof (Rmax_l 1 (1/2)). split; lra. Qed.

(** C09 *)
Theorem C09_monotone_in_stock :
  forall (s s' : R) (t i : Z) (p : R) (c : Z), (0 <= t)%Z -> (0 <= i)%Z -> s <= s' ->
  next_stock s t i p c <= next_stock s' t i p c.
Proof. exact next_stock_mono_stock. Qed.
Print Assumptions C09_monotone_in_stock.

(** more credit gives at least as much: with the three instances below *)
Theorem C09_monotone_in_credit :
  forall (s : R) (t i : Z) (p : R) (c c' : Z), (0 <= t)%Z -> (0 <= i)%Z ->
  credit c p <= credit c' p -> next_stock s t i p c <= next_stock s t i p c'.
Proof. exact next_stock_mono_credit. Qed.
Print Assumptions C09_monotone_in_credit.

Theorem C09_choice_order :
  forall (s : R) (t i : Z) (p : R), (0 <= t)%Z -> (0 <= i)%Z -> 0 <= p <= 1 ->
  next_stock s t i p 0 <= next_stock s t i p 1 <= next_stock s t i p 2.
Proof.
  intros s t i p Ht Hi Hp.
  exact (conj (next_stock_mono_credit s t i p 0 1 Ht Hi (proj1 Hp))
              (next_stock_mono_credit s t i p 1 2 Ht Hi (proj2 Hp))).
Qed.
Print Assumptions C09_choice_order.

(** ... and in rounded arithmetic, for every monotone idempotent rounding that keeps 0 and 1:
    no rounding error makes more work or more experience look like less. *)
Theorem C09_monotone_in_stock_rounded :
  forall rnd : R -> R, rnd 0 = 0 -> rnd 1 = 1 -> (forall x y, x <= y -> rnd x <= rnd y) ->
  forall (s s' : R) (t i : Z) (p : R) (c : Z), (0 <= t)%Z -> (0 <= i)%Z -> s <= s' ->
  @next_stock R (RndNum rnd) s t i p c <= @next_stock R (RndNum rnd) s' t i p c.
Proof. exact rounded_mono_stock. Qed.
Print Assumptions C09_monotone_in_stock_rounded.

Theorem C09_choice_order_rounded :
  forall rnd : R -> R, rnd 0 = 0 -> rnd 1 = 1 -> (forall x y, x <= y -> rnd x <= rnd y) -> (forall x, rnd (rnd x) = rnd x) ->
  forall (s : R) (t i : Z) (p : R), 0 <= p <= 1 ->
  @next_stock R (RndNum rnd) s t i p 0 <= @next_stock R (RndNum rnd) s t i p 1
  <= @next_stock R (RndNum rnd) s t i p 2.
Proof. exact rounded_choice_order. Qed.
Print Assumptions C09_choice_order_rounded.

Theorem C09_full_time_strictly_more :
  forall (s : R) (t i : Z) (p : R), 0 <= s <= 1 -> (0 <= t)%Z -> (0 <= i)%Z -> 0 <= p ->
  next_stock s t i p 0 < next_stock s t i p 2.
Proof. exact next_stock_strict. Qed.
Print Assumptions C09_full_time_strictly_more.

Theorem C09_biased_part_time_counts_full :
  forall (s : R) (t i : Z) (mp : model_params R) (e a : Z),
  next_stock s t i (get_pt_increment mp e a true) 1
  = next_stock s t i (get_pt_increment mp e a true) 2.
Proof. exact biased_same. Qed.
Print Assumptions C09_biased_part_time_counts_full.

(** C10: years at the end of t (old increment p) against years as read at the start
    of t+1 (new increment p'). *)
Theorem C10_carry_over :
  forall (s : R) (t i : Z) (p p' : R) (c : Z),
  0 <= s <= 1 -> (0 <= t)%Z -> (0 <= i)%Z -> 0 <= p ->
  (p <= 1 /\ p' <= 1) \/ p = p' ->
  years_of (next_stock s t i p c) i (t + 1) p' = years_of s i t p + credit c p.
Proof. exact carry_over. Qed.
Print Assumptions C10_carry_over.

(** exactly when: for positive years, iff the two maxima agree *)
Theorem C10_carry_over_iff :
  forall (s : R) (t i : Z) (p p' : R) (c : Z),
  0 <= s <= 1 -> (0 <= t)%Z -> (0 <= i)%Z -> 0 <= p ->
  0 < years_of s i t p + credit c p ->
  years_of (next_stock s t i p c) i (t + 1) p' = years_of s i t p + credit c p
  <-> Rmax 1 p = Rmax 1 p'.
Proof. exact carry_over_exact. Qed.
Print Assumptions C10_carry_over_iff.

(** a parameter set in which mothers of small children earn double credit *)
Definition mom_params : model_params R :=
  mkParams R [1;1;1] [1;1;1] [1;1;1] 1 [0] [0] [0;0;0] [0;0;0] [0;0;0] [0;0;0]
    0 0 0 0 0 0 1 1 1 [1].

(** the full claim is false of the code: a child turning 3 takes away half of the
    years collected so far *)
Theorem C10_carry_over_refuted :
  exists (mp : model_params R) (e age : Z) (s : R) (t i c : Z),
    0 <= s <= 1 /\ (0 <= t)%Z /\ (0 <= i)%Z /\ 0 <= get_pt_increment mp e age false /\
    years_of (next_stock s t i (get_pt_increment mp e age false) c) i (t + 1)
             (get_pt_increment mp e (age + 1) false)
    <> years_of s i t (get_pt_increment mp e age false)
       + credit c (get_pt_increment mp e age false).
Proof.
  exists mom_params, 0%Z, 2%Z, 0, 0%Z, 0%Z, 2%Z.
  assert (E1 : get_pt_increment mom_params 0 2 false = 2) by (cbn; lra).
  assert (E2 : get_pt_increment mom_params 0 (2 + 1) false = 1) by (cbn; lra).
  rewrite E1, E2. repeat split; try lra; try lia.
  rewrite C10_carry_over_iff; try lra; try lia.
  - rmm; lra.
  - unfold years_of, credit; simpl; lra.
Qed.
Print Assumptions C10_carry_over_refuted.

(** C11: the entering agent *)
Theorem C11_initial_years :
  forall (mp : model_params R) (sp : model_spec R) (b : bool) (id e age m pt ft ty : Z),
  (0 < init_exp_max sp)%Z ->
  let p := get_pt_increment mp e age b in
  let a := init_agent mp sp b id 0 e age m pt ft ty in
  years_of (a_stock a) (init_exp_max sp) (a_period a) p = IZR pt * p + IZR ft.
Proof. exact init_agent_years_0. Qed.
Print Assumptions C11_initial_years.

(** later entry: the years are inflated by max_years(entry)/init_exp_max *)
Theorem C11_initial_years_late_entry :
  forall (mp : model_params R) (sp : model_spec R) (b : bool) (id entry e age m pt ft ty : Z),
  (0 < init_exp_max sp)%Z -> (0 <= entry)%Z ->
  let p := get_pt_increment mp e age b in
  let a := init_agent mp sp b id entry e age m pt ft ty in
  years_of (a_stock a) (init_exp_max sp) (a_period a) p
  = (IZR pt * p + IZR ft) * (max_years (init_exp_max sp) entry p / IZR (init_exp_max sp)).
Proof. exact init_agent_years. Qed.
Print Assumptions C11_initial_years_late_entry.

Theorem C11_initial_stock_unit_iff :
  forall (mp : model_params R) (sp : model_spec R) (b : bool) (id entry e age m pt ft ty : Z),
  (0 < init_exp_max sp)%Z -> (0 <= pt)%Z -> (0 <= ft)%Z ->
  let p := get_pt_increment mp e age b in
  0 <= p ->
  (0 <= a_stock (init_agent mp sp b id entry e age m pt ft ty) <= 1
   <-> IZR pt * p + IZR ft <= IZR (init_exp_max sp)).
Proof. exact init_agent_stock_unit. Qed.
Print Assumptions C11_initial_stock_unit_iff.

(** a specification with init_exp_max = 4 *)
Definition spec4 : model_spec R :=
  mkSpec R 10 3 1 [0;2;6]%Z 10 4 4 5 [0;1] 1 10 1 1 1 "quadrature" 1 0 0 0 1
    (mkTax R [] [] [] []) (0, 1) [] true "elterngeld" 0 0 1 1 1 1 1 0 0 1 0 0 0.
Definition half_params : model_params R :=
  mkParams R [1;1;1] [1;1;1] [1/2;1/2;1/2] 0 [0] [0] [0;0;0] [0;0;0] [0;0;0] [0;0;0]
    0 0 0 0 0 0 1 1 1 [1].

(** refuted in general: an agent with 2 drawn full-time years who enters in period 6
    (education level 2) starts with 5 years; and 4 part-time plus 4 full-time drawn
    years give a stock above 1. *)
Theorem C11_initial_years_refuted :
  exists (mp : model_params R) (sp : model_spec R) (id entry e age m pt ft ty : Z),
    (0 < init_exp_max sp)%Z /\ (0 <= pt <= init_exp_max sp)%Z /\ (0 <= ft <= init_exp_max sp)%Z /\
    nth_error (educ_years sp) (Z.to_nat e) = Some entry /\
    let p := get_pt_increment mp e age false in
    let a := init_agent mp sp false id entry e age m pt ft ty in
    years_of (a_stock a) (init_exp_max sp) (a_period a) p <> IZR pt * p + IZR ft.
Proof.
  exists half_params, spec4, 0%Z, 6%Z, 2%Z, (-1)%Z, 0%Z, 0%Z, 2%Z, 0%Z.
  assert (E : get_pt_increment half_params 2 (-1) false = 1/2)
    by (transitivity (1/2 + 0 * 0); [reflexivity|lra]).
  split; [cbn; lia|]. split; [cbn; lia|]. split; [cbn; lia|]. split; [reflexivity|].
  intros p a. unfold a. rewrite C11_initial_years_late_entry by (cbn; lia).
  unfold p. rewrite E. cbn [spec4 init_exp_max]. unfold max_years.
  replace (Rmax 1 (1/2)) with 1 by (rmm; lra). lra.
Qed.
Print Assumptions C11_initial_years_refuted.

Theorem C11_initial_stock_unit_refuted :
  exists (mp : model_params R) (sp : model_spec R) (id entry e age m pt ft ty : Z),
    (0 < init_exp_max sp)%Z /\ (0 <= pt <= init_exp_max sp)%Z /\ (0 <= ft <= init_exp_max sp)%Z /\
    nth_error (educ_years sp) (Z.to_nat e) = Some entry /\
    1 < a_stock (init_agent mp sp false id entry e age m pt ft ty).
Proof.
  exists half_params, spec4, 0%Z, 0%Z, 0%Z, (-1)%Z, 0%Z, 4%Z, 4%Z, 0%Z.
  assert (E : get_pt_increment half_params 0 (-1) false = 1/2) by (cbn; lra).
  split; [cbn; lia|]. split; [cbn; lia|]. split; [cbn; lia|]. split; [reflexivity|].
  apply Rnot_le_lt. intros H.
  assert (H0 : 0 <= a_stock (init_agent half_params spec4 false 0 0 0 (-1) 0 4 4 0) <= 1).
  { split; [|exact H].
    pose proof (C11_initial_years half_params spec4 false 0 0 (-1) 0 4 4 0) as Hy.
    cbv zeta in Hy. rewrite E in Hy. cbn [spec4 init_exp_max] in Hy.
    specialize (Hy ltac:(lia)). unfold years_of, max_years in Hy.
    change (a_period (init_agent half_params spec4 false 0 0 0 (-1) 0 4 4 0)) with 0%Z in Hy. lra. }
  pose proof (C11_initial_stock_unit_iff half_params spec4 false 0 0 0 (-1) 0 4 4 0) as Hi.
  cbv zeta in Hi. rewrite E in Hi. cbn [spec4 init_exp_max] in Hi.
  pose proof (proj1 (Hi ltac:(lia) ltac:(lia) ltac:(lia) ltac:(lra)) H0) as B. lra.
Qed.
Print Assumptions C11_initial_stock_unit_refuted.

Example C11_positive : (0 < init_exp_max spec4)%Z /\ 0 <= get_pt_increment half_params 0 (-1) false.
Proof. split; [cbn; lia|cbn; lra]. Qed.
