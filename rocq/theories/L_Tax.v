From Verif Require Import Base Num M_Params M_Experience M_Tax L_Num S_Tax.
Open Scope R_scope.

(** ** A tariff built from thresholds and rates by the package's own helpers *)
Definition tariff (t0 t1 t2 t3 r0 r1 r2 r3 : R) : tax_table R :=
  let thresholds := [t0; t1; t2; t3] in
  let rates := [r0; r1; r2; r3] in
  let quad := [create_progressionsfactor rates thresholds 0;
               create_progressionsfactor rates thresholds 1; 0; 0] in
  mkTax R thresholds (create_intercepts rates quad thresholds) rates quad.

Section Tariff.
  Variables t0 t1 t2 t3 r0 r1 r2 r3 : R.
  Hypothesis H01 : t0 < t1.
  Hypothesis H12 : t1 < t2.
  Hypothesis H23 : t2 < t3.
  Hypothesis R0 : 0 <= r0.
  Hypothesis R01 : r0 <= r1.
  Hypothesis R12 : r1 <= r2.
  Hypothesis R23 : r2 <= r3.
  Notation tab := (tariff t0 t1 t2 t3 r0 r1 r2 r3).
  Let q0 := (r1 - r0) / (t1 - t0) / 2.
  Let q1 := (r2 - r1) / (t2 - t1) / 2.
  Let i1 := (t1 - t0) * r0 + (t1 - t0) * (t1 - t0) * q0.
  Let i2 := i1 + (t2 - t1) * r1 + (t2 - t1) * (t2 - t1) * q1.
  Let i3 := i2 + (t3 - t2) * r2.
  Let F0 x := r0 * (x - t0) + q0 * ((x - t0) * (x - t0)).
  Let F1 x := i1 + (r1 * (x - t1) + q1 * ((x - t1) * (x - t1))).
  Let F2 x := i2 + r2 * (x - t2).
  Let F3 x := i3 + r3 * (x - t3).

  Definition tax_cases x :=
    if Rltb x t0 then 0 else if Rltb x t1 then F0 x else if Rltb x t2 then F1 x
    else if Rltb x t3 then F2 x else F3 x.

  Lemma tax_closed x : calculate_inc_tax tab x = tax_cases x.
  Proof.
    unfold calculate_inc_tax.
    change (aget (tx_thresholds tab) 0) with t0. change (aget (tx_thresholds tab) 1) with t1.
    change (aget (tx_thresholds tab) 2) with t2. change (aget (tx_thresholds tab) 3) with t3.
    change (aget (tx_linear tab) 0) with r0. change (aget (tx_linear tab) 1) with r1.
    change (aget (tx_linear tab) 2) with r2. change (aget (tx_linear tab) 3) with r3.
    change (aget (tx_quadratic tab) 0) with q0. change (aget (tx_quadratic tab) 1) with q1.
    change (aget (tx_quadratic tab) 2) with 0. change (aget (tx_quadratic tab) 3) with 0.
    change (aget (tx_intercepts tab) 0) with 0.
    change (aget (tx_intercepts tab) 1) with (0 + (t1 - t0) * r0 + (t1 - t0) * (t1 - t0) * q0).
    change (aget (tx_intercepts tab) 2) with
      (0 + (t1 - t0) * r0 + (t1 - t0) * (t1 - t0) * q0 + (t2 - t1) * r1 + (t2 - t1) * (t2 - t1) * q1).
    change (aget (tx_intercepts tab) 3) with
      (0 + (t1 - t0) * r0 + (t1 - t0) * (t1 - t0) * q0 + (t2 - t1) * r1 + (t2 - t1) * (t2 - t1) * q1
       + (t3 - t2) * r2 + (t3 - t2) * (t3 - t2) * 0).
    unfold tax_cases, F0, F1, F2, F3, i3, i2, i1. clearbody q0 q1. rnu.
    repeat match goal with |- context [Rltb ?a ?b] => destruct (Rltb_spec a b) end;
    repeat match goal with |- context [Rleb ?a ?b] => destruct (Rleb_spec a b) end;
    cbn [andb]; try lra; ring.
  Qed.

  (** marginal rate (right derivative) *)
  Definition marginal x :=
    if Rltb x t0 then 0 else if Rltb x t1 then r0 + 2 * q0 * (x - t0)
    else if Rltb x t2 then r1 + 2 * q1 * (x - t1) else if Rltb x t3 then r2 else r3.

  Lemma q0_eq : 2 * q0 * (t1 - t0) = r1 - r0. Proof. unfold q0. field. lra. Qed.
  Lemma q1_eq : 2 * q1 * (t2 - t1) = r2 - r1. Proof. unfold q1. field. lra. Qed.
  Lemma q0_pos : 0 <= q0. Proof. pose proof q0_eq. nra. Qed.
  Lemma q1_pos : 0 <= q1. Proof. pose proof q1_eq. nra. Qed.
  Lemma F01 : F0 t1 = F1 t1. Proof. unfold F0, F1, i1. ring. Qed.
  Lemma F12 : F1 t2 = F2 t2. Proof. unfold F1, F2, i2. ring. Qed.
  Lemma F23 : F2 t3 = F3 t3. Proof. unfold F2, F3, i3. ring. Qed.
  Lemma F00 : F0 t0 = 0. Proof. unfold F0. ring. Qed.

  Ltac zones := unfold tax_cases; repeat match goal with |- context [Rltb ?a ?b] => destruct (Rltb_spec a b) end.

  Lemma zone_none x : x <= t0 -> tax_cases x = 0.
  Proof. intros. zones; try lra. assert (x = t0) as -> by lra. apply F00. Qed.
  Lemma zone0 x : t0 <= x <= t1 -> tax_cases x = F0 x.
  Proof. intros. zones; try lra. assert (x = t1) as -> by lra. symmetry; apply F01. Qed.
  Lemma zone1 x : t1 <= x <= t2 -> tax_cases x = F1 x.
  Proof. intros. zones; try lra. assert (x = t2) as -> by lra. symmetry; apply F12. Qed.
  Lemma zone2 x : t2 <= x <= t3 -> tax_cases x = F2 x.
  Proof. intros. zones; try lra. assert (x = t3) as -> by lra. symmetry; apply F23. Qed.
  Lemma zone3 x : t3 <= x -> tax_cases x = F3 x.
  Proof. intros. zones; lra. Qed.

  Ltac mzones := unfold marginal; repeat match goal with |- context [Rltb ?a ?b] => destruct (Rltb_spec a b) end.

  Lemma q_le0 x : t0 <= x <= t1 -> 0 <= 2 * q0 * (x - t0) <= r1 - r0.
  Proof. intros. pose proof q0_eq. pose proof q0_pos. split; nra. Qed.
  Lemma q_le1 x : t1 <= x <= t2 -> 0 <= 2 * q1 * (x - t1) <= r2 - r1.
  Proof. intros. pose proof q1_eq. pose proof q1_pos. split; nra. Qed.

  Lemma marginal_mono x y : x <= y -> marginal x <= marginal y.
  Proof.
    intros H. pose proof q0_pos. pose proof q1_pos.
    pose proof (q_le0 x). pose proof (q_le0 y). pose proof (q_le1 x). pose proof (q_le1 y).
    mzones; try lra; nra.
  Qed.
  Lemma marginal_bounds x : 0 <= marginal x <= r3.
  Proof.
    pose proof (q_le0 x). pose proof (q_le1 x). mzones; lra.
  Qed.

  Definition between x y :=
    marginal x * (y - x) <= tax_cases y - tax_cases x <= marginal y * (y - x).

  Lemma between_trans x c y : x <= c <= y -> between x c -> between c y -> between x y.
  Proof.
    unfold between. intros H A B.
    pose proof (marginal_mono x c ltac:(lra)). pose proof (marginal_mono c y ltac:(lra)). split; nra.
  Qed.

  Lemma b_none x y : x <= y <= t0 -> between x y.
  Proof.
    intros. unfold between. rewrite !zone_none by lra. pose proof (marginal_bounds y).
    split; [|nra]. destruct (Req_dec x y) as [->|Hne].
    - replace (y - y) with 0 by ring. lra.
    - mzones; lra.
  Qed.
  Lemma m0 x : t0 <= x <= t1 -> r0 + 2 * q0 * (x - t0) <= marginal x /\ (x < t1 -> marginal x = r0 + 2 * q0 * (x - t0)).
  Proof. intros. pose proof (q_le0 x). pose proof (q_le1 x). mzones; split; intros; lra. Qed.
  Lemma m1 x : t1 <= x <= t2 -> r1 + 2 * q1 * (x - t1) <= marginal x /\ (x < t2 -> marginal x = r1 + 2 * q1 * (x - t1)).
  Proof. intros. pose proof (q_le1 x). mzones; split; intros; lra. Qed.
  Lemma m2 x : t2 <= x <= t3 -> r2 <= marginal x /\ (x < t3 -> marginal x = r2).
  Proof. intros. mzones; split; intros; lra. Qed.

  Lemma b0 x y : t0 <= x -> x <= y <= t1 -> between x y.
  Proof.
    intros Hx Hy. unfold between. rewrite !zone0 by lra.
    destruct (m0 x ltac:(lra)) as [_ A]. destruct (m0 y ltac:(lra)) as [B _].
    pose proof q0_pos. unfold F0. destruct (Req_dec x y) as [->|]; [lra|].
    rewrite A by lra.
    assert (0 <= q0 * ((y - x) * (y - x))) by (apply Rmult_le_pos; nra).
    apply (Rmult_le_compat_r (y - x)) in B; [|lra]. split; lra.
  Qed.
  Lemma b1 x y : t1 <= x -> x <= y <= t2 -> between x y.
  Proof.
    intros Hx Hy. unfold between. rewrite !zone1 by lra.
    destruct (m1 x ltac:(lra)) as [_ A]. destruct (m1 y ltac:(lra)) as [B _].
    pose proof q1_pos. unfold F1. destruct (Req_dec x y) as [->|]; [lra|].
    rewrite A by lra.
    assert (0 <= q1 * ((y - x) * (y - x))) by (apply Rmult_le_pos; nra).
    apply (Rmult_le_compat_r (y - x)) in B; [|lra]. split; lra.
  Qed.
  Lemma b2 x y : t2 <= x -> x <= y <= t3 -> between x y.
  Proof.
    intros Hx Hy. unfold between. rewrite !zone2 by lra.
    destruct (m2 x ltac:(lra)) as [_ A]. destruct (m2 y ltac:(lra)) as [B _].
    unfold F2. destruct (Req_dec x y) as [->|]; [lra|].
    rewrite A by lra. split; nra.
  Qed.
  Lemma b3 x y : t3 <= x -> x <= y -> between x y.
  Proof.
    intros Hx Hy. unfold between. rewrite !zone3 by lra.
    unfold F3. mzones; try lra.
  Qed.

  Lemma c2 x y : t2 <= x -> x <= y -> between x y.
  Proof.
    intros. destruct (Rle_lt_dec y t3); [apply b2; lra|].
    destruct (Rle_lt_dec t3 x); [apply b3; lra|].
    apply between_trans with t3; [lra|apply b2; lra|apply b3; lra].
  Qed.
  Lemma c1 x y : t1 <= x -> x <= y -> between x y.
  Proof.
    intros. destruct (Rle_lt_dec y t2); [apply b1; lra|].
    destruct (Rle_lt_dec t2 x); [apply c2; lra|].
    apply between_trans with t2; [lra|apply b1; lra|apply c2; lra].
  Qed.
  Lemma c0 x y : t0 <= x -> x <= y -> between x y.
  Proof.
    intros. destruct (Rle_lt_dec y t1); [apply b0; lra|].
    destruct (Rle_lt_dec t1 x); [apply c1; lra|].
    apply between_trans with t1; [lra|apply b0; lra|apply c1; lra].
  Qed.
  Lemma tax_between x y : x <= y -> between x y.
  Proof.
    intros. destruct (Rle_lt_dec y t0); [apply b_none; lra|].
    destruct (Rle_lt_dec t0 x); [apply c0; lra|].
    apply between_trans with t0; [lra|apply b_none; lra|apply c0; lra].
  Qed.

  Lemma tax_zero x : x <= t0 -> calculate_inc_tax tab x = 0.
  Proof. intros. rewrite tax_closed. apply zone_none. assumption. Qed.

  Lemma tax_lipschitz x y : x <= y ->
    0 <= calculate_inc_tax tab y - calculate_inc_tax tab x <= r3 * (y - x).
  Proof.
    intros H. rewrite !tax_closed. pose proof (tax_between x y H) as [A B].
    pose proof (marginal_bounds x). pose proof (marginal_bounds y). split; nra.
  Qed.

  Lemma tax_convex : convex (calculate_inc_tax tab).
  Proof.
    assert (Hgen : forall x y l, x <= y -> 0 <= l <= 1 ->
              tax_cases (l * x + (1 - l) * y) <= l * tax_cases x + (1 - l) * tax_cases y).
    { intros x y l Hxy Hl. set (z := l * x + (1 - l) * y).
      assert (Hz : x <= z <= y) by (unfold z; split; nra).
      pose proof (tax_between x z ltac:(lra)) as [_ A].
      pose proof (tax_between z y ltac:(lra)) as [B _].
      assert (E : l * (z - x) = (1 - l) * (y - z)) by (unfold z; ring).
      clearbody z.
      apply (Rmult_le_compat_l l) in A; [|lra]. apply (Rmult_le_compat_l (1 - l)) in B; [|lra].
      assert (E' : marginal z * (l * (z - x)) = marginal z * ((1 - l) * (y - z)))
        by (rewrite E; reflexivity).
      lra. }
    intros x y l Hl. rewrite !tax_closed. destruct (Rle_dec x y) as [H|H].
    - apply Hgen; assumption.
    - specialize (Hgen y x (1 - l) ltac:(lra) ltac:(lra)).
      replace (l * x + (1 - l) * y) with ((1 - l) * y + (1 - (1 - l)) * x) by ring. lra.
  Qed.
End Tariff.

(** ** The generated 2007 table *)
Notation tax07 := (calculate_inc_tax (create_tax_parameters (T := R))).

Definition Y : R := Y_FACTOR.
Lemma Y_val : Y = 516 / 10.
Proof. unfold Y, Y_FACTOR, M_FACTOR. rewrite nlit_R. rn. lra. Qed.
Lemma Y_weeks : weeks_per_year = Y.
Proof. rewrite Y_val. unfold weeks_per_year. lra. Qed.

Lemma table_2007 :
  create_tax_parameters
  = tariff (7664 / Y) (12739 / Y) (52151 / Y) (250000 / Y) (15/100) (2397/10000) (42/100) (45/100).
Proof. reflexivity. Qed.

Ltac dy := rewrite !Y_val; lra.

Lemma tax07_zero x : x * weeks_per_year <= 7664 -> tax07 x = 0.
Proof.
  rewrite Y_weeks. intros H. rewrite table_2007. apply tax_zero; try dy.
  rewrite Y_val in *. lra.
Qed.

Lemma tax07_lipschitz x y : x <= y -> 0 <= tax07 y - tax07 x <= 45/100 * (y - x).
Proof. intros H. rewrite table_2007. apply tax_lipschitz; try lra; dy. Qed.

Lemma tax07_convex : convex tax07.
Proof. rewrite table_2007. apply tax_convex; try lra; dy. Qed.

Lemma tax07_nonneg x : 0 <= tax07 x.
Proof.
  destruct (Rle_dec x 0).
  - rewrite tax07_zero; [lra|]. rewrite Y_weeks, Y_val. lra.
  - pose proof (tax07_lipschitz 0 x ltac:(lra)) as [H _].
    rewrite (tax07_zero 0) in H; [lra|]. rewrite Y_weeks, Y_val. lra.
Qed.

Lemma tax07_le x : 0 <= x -> tax07 x <= 45/100 * x.
Proof.
  intros. pose proof (tax07_lipschitz 0 x ltac:(lra)) as [_ H1].
  rewrite (tax07_zero 0) in H1; [lra|]. rewrite Y_weeks, Y_val. lra.
Qed.

Lemma tax07_continuous x : continuity_pt tax07 x.
Proof.
  unfold continuity_pt, continue_in, limit1_in, limit_in. intros eps Heps.
  exists eps. split; [assumption|]. intros y [_ Hy].
  change (Rabs (tax07 y - tax07 x) < eps). change (Rabs (y - x) < eps) in Hy.
  destruct (Rle_dec x y) as [H|H].
  - pose proof (tax07_lipschitz x y H) as [A B]. rewrite Rabs_right in Hy by lra. apply Rabs_def1; lra.
  - pose proof (tax07_lipschitz y x ltac:(lra)) as [A B].
    rewrite Rabs_left in Hy by lra. apply Rabs_def1; lra.
Qed.

Lemma tax07_statute x : Rabs (weeks_per_year * tax07 (x / weeks_per_year) - statute_2007 x) < 1.
Proof.
  rewrite Y_weeks, table_2007, tax_closed by (try lra; dy).
  unfold tax_cases, statute_2007.
  assert (E : forall z, Rltb (x / Y) (z / Y) = Rltb x z).
  { intros z. rewrite Y_val. destruct (Rltb_spec (x / (516/10)) (z / (516/10))), (Rltb_spec x z); lra. }
  rewrite !E. rewrite Y_val.
  destruct (Rle_dec x 7664) as [A|A]; [|destruct (Rle_dec x 12739) as [B|B];
    [|destruct (Rle_dec x 52151) as [C|C]; [|destruct (Rle_dec x 250000) as [D|D]]]];
  repeat match goal with |- context [Rltb ?a ?b] => destruct (Rltb_spec a b); try (exfalso; lra) end;
  apply Rabs_def1; nra.
Qed.

(** ** Contributions *)
Lemma ssc_R rate cap w : calculate_ssc_deductions (rate, cap) w = rate * Rmin w cap.
Proof. unfold calculate_ssc_deductions. rewrite nmin_R. reflexivity. Qed.

Lemma ssc_spec rate cap w : calculate_ssc_deductions (rate, cap) w = contribution rate cap w.
Proof. rewrite ssc_R. unfold contribution. destruct (Rle_dec w cap); rmm; try reflexivity; nra. Qed.

Lemma ssc_mono rate cap w w' : 0 <= rate -> w <= w' ->
  calculate_ssc_deductions (rate, cap) w <= calculate_ssc_deductions (rate, cap) w'.
Proof. intros. rewrite !ssc_R. rmm; nra. Qed.

Lemma ssc_bounds rate cap w : 0 <= rate <= 1 -> 0 <= cap -> 0 <= w ->
  0 <= calculate_ssc_deductions (rate, cap) w <= w.
Proof. intros. rewrite !ssc_R. rmm; split; nra. Qed.

(** ** Net income *)
Lemma net_couple tp d f m s : 0 < m ->
  calculate_net_income tp d f m s =
  let df := calculate_ssc_deductions d f in let dm := calculate_ssc_deductions d m in
  (f - df) + (m - dm)
  - (if s then 2 * calculate_inc_tax tp (((f - df) + (m - dm)) / 2)
     else calculate_inc_tax tp (f - df) + calculate_inc_tax tp (m - dm)) * (105/100).
Proof.
  intros H. unfold calculate_net_income. rewrite nlit_R, b2n_R. rn. cbv zeta.
  destruct (Rltb_spec 0 m); [|lra].
  replace (m + f - calculate_ssc_deductions d m - calculate_ssc_deductions d f)
    with (f - calculate_ssc_deductions d f + (m - calculate_ssc_deductions d m)) by ring.
  destruct s; ring.
Qed.

Lemma net_single tp d f m s : m <= 0 ->
  calculate_net_income tp d f m s =
  let df := calculate_ssc_deductions d f in
  (f - df) - calculate_inc_tax tp (f - df) * (105/100).
Proof.
  intros H. unfold calculate_net_income. rewrite nlit_R, b2n_R. rn. cbv zeta.
  destruct (Rltb_spec 0 m); [lra|]. destruct s; ring.
Qed.

Section Net.
  Variables rate cap : R.
  Hypothesis Hrate : 0 <= rate < 1.
  Hypothesis Hcap : 0 <= cap.
  Notation ssc := (calculate_ssc_deductions (rate, cap)).
  Notation net := (calculate_net_income create_tax_parameters (rate, cap)).

  Lemma taxable_strict w w' : w < w' -> w - ssc w < w' - ssc w'.
  Proof. intros. rewrite !ssc_R. rmm; nra. Qed.

  Lemma taxable_pos w : 0 < w -> 0 < w - ssc w <= w.
  Proof. intros. rewrite !ssc_R. rmm; nra. Qed.
  Lemma taxable_nonneg w : 0 <= w -> 0 <= w - ssc w <= w.
  Proof. intros. rewrite !ssc_R. rmm; nra. Qed.

  Lemma net_strict f f' m s : f < f' -> net f m s < net f' m s.
  Proof.
    intros H. pose proof (taxable_strict f f' H) as Ht.
    destruct (Rle_dec m 0) as [Hm|Hm].
    - rewrite !net_single by lra. cbv zeta.
      pose proof (tax07_lipschitz _ _ (Rlt_le _ _ Ht)). lra.
    - rewrite !net_couple by lra. cbv zeta. destruct s.
      + assert (Hh : (f - ssc f + (m - ssc m)) / 2 <= (f' - ssc f' + (m - ssc m)) / 2) by lra.
        apply tax07_lipschitz in Hh. lra.
      + pose proof (tax07_lipschitz _ _ (Rlt_le _ _ Ht)). lra.
  Qed.

  Lemma net_le_gross f m s : 0 <= f -> 0 <= m -> net f m s <= f + m.
  Proof.
    intros Hf Hm. pose proof (taxable_nonneg f Hf). pose proof (taxable_nonneg m Hm).
    destruct (Rle_dec m 0) as [Hm'|Hm'].
    - rewrite net_single by lra. cbv zeta. pose proof (tax07_nonneg (f - ssc f)). lra.
    - rewrite net_couple by lra. cbv zeta. destruct s.
      + pose proof (tax07_nonneg ((f - ssc f + (m - ssc m)) / 2)). lra.
      + pose proof (tax07_nonneg (f - ssc f)). pose proof (tax07_nonneg (m - ssc m)). lra.
  Qed.

  Lemma net_pos f m s : 0 <= f -> 0 <= m -> 0 < f + m -> 0 < net f m s.
  Proof.
    intros Hf Hm Hs. pose proof (taxable_nonneg f Hf). pose proof (taxable_nonneg m Hm).
    pose proof (taxable_pos f). pose proof (taxable_pos m).
    destruct (Rle_dec m 0) as [Hm'|Hm'].
    - rewrite net_single by lra. cbv zeta. assert (0 <= (f - ssc f)) by lra. pose proof (tax07_le (f - ssc f)). lra.
    - rewrite net_couple by lra. cbv zeta. destruct s.
      + assert (0 <= ((f - ssc f + (m - ssc m)) / 2)) by lra. pose proof (tax07_le ((f - ssc f + (m - ssc m)) / 2)). lra.
      + assert (0 <= (f - ssc f)) by lra. pose proof (tax07_le (f - ssc f)). assert (0 <= (m - ssc m)) by lra. pose proof (tax07_le (m - ssc m)). lra.
  Qed.

  (** partner income: net household income also rises with the partner's wage *)
  Lemma net_strict_male f m m' s : 0 < m -> m < m' -> net f m s < net f m' s.
  Proof.
    intros Hm H. pose proof (taxable_strict m m' H) as Ht.
    rewrite !net_couple by lra. cbv zeta. destruct s.
    - assert (Hh : (f - ssc f + (m - ssc m)) / 2 <= (f - ssc f + (m' - ssc m')) / 2) by lra.
      apply tax07_lipschitz in Hh. lra.
    - pose proof (tax07_lipschitz _ _ (Rlt_le _ _ Ht)). lra.
  Qed.
End Net.

Lemma convex_mid f x y : convex f -> 2 * f ((x + y) / 2) <= f x + f y.
Proof.
  intros H. specialize (H x y (1/2) ltac:(lra)).
  replace (1 / 2 * x + (1 - 1 / 2) * y) with ((x + y) / 2) in H by lra. lra.
Qed.

Lemma splitting_helps d f m :
  calculate_net_income create_tax_parameters d f m false
  <= calculate_net_income create_tax_parameters d f m true.
Proof.
  destruct (Rle_dec m 0) as [Hm|Hm].
  - rewrite !net_single by lra. lra.
  - rewrite !net_couple by lra. cbv zeta.
    pose proof (convex_mid _ (f - calculate_ssc_deductions d f) (m - calculate_ssc_deductions d m)
                  tax07_convex). lra.
Qed.

Lemma splitting_equal tp d w :
  calculate_net_income tp d w w true = calculate_net_income tp d w w false.
Proof.
  destruct (Rle_dec w 0) as [Hm|Hm].
  - rewrite !net_single by lra. reflexivity.
  - rewrite !net_couple by lra. cbv zeta.
    set (x := w - calculate_ssc_deductions d w). replace ((x + x) / 2) with x by lra. lra.
Qed.

Lemma splitting_single tp d f m s s' : m <= 0 ->
  calculate_net_income tp d f m s = calculate_net_income tp d f m s'.
Proof. intros. rewrite !net_single by lra. reflexivity. Qed.

(** ** Both implementations agree under any rounding *)
Section Agree.
  Variable rnd : R -> R.
  Hypothesis rnd_idem : forall x, rnd (rnd x) = rnd x.
  Hypothesis rnd0 : rnd 0 = 0.
  Hypothesis rnd1 : rnd 1 = 1.
  Notation NT := (RndNum rnd).

  Lemma agree_ssc d w :
    @calculate_ssc_deductions R NT d w = @calculate_ssc_deductions_py R NT d w.
  Proof.
    unfold calculate_ssc_deductions, calculate_ssc_deductions_py, nmin.
    cbn [nleb nltb RndNum]. f_equal.
    destruct (Rleb_spec w (snd d)), (Rltb_spec (snd d) w); try reflexivity; lra.
  Qed.

  Lemma agree_tax tp x : thresholds_sorted tp ->
    @calculate_inc_tax R NT tp x = @calculate_inc_tax_py R NT tp x.
  Proof.
    intros (t0 & t1 & t2 & t3 & Eth & H1 & H2 & H3). destruct tp as [th ic li qu].
    cbn [tx_thresholds tx_intercepts tx_linear tx_quadratic] in *. subst th.
    unfold calculate_inc_tax, calculate_inc_tax_py.
    cbn [tx_thresholds tx_intercepts tx_linear tx_quadratic].
    change (@aget R NT [t0;t1;t2;t3] 0) with t0. change (@aget R NT [t0;t1;t2;t3] 1) with t1.
    change (@aget R NT [t0;t1;t2;t3] 2) with t2. change (@aget R NT [t0;t1;t2;t3] 3) with t3.
    unfold b2n. cbn [nofZ nadd nsub nmul nleb nltb RndNum].
    rewrite ?rnd0, ?rnd1.
    repeat match goal with |- context [Rltb ?a ?b] => destruct (Rltb_spec a b) end;
    repeat match goal with |- context [Rleb ?a ?b] => destruct (Rleb_spec a b) end;
    cbn [andb]; try (exfalso; lra);
    repeat first [rewrite Rmult_0_l | rewrite Rmult_1_l | rewrite rnd0 | rewrite rnd_idem
                 | rewrite Rplus_0_l | rewrite Rplus_0_r];
    try reflexivity.
    all: change (@aget R NT [t0;t1;t2;t3] 0) with t0; change (@aget R NT [t0;t1;t2;t3] 1) with t1;
         change (@aget R NT [t0;t1;t2;t3] 2) with t2; change (@aget R NT [t0;t1;t2;t3] 3) with t3;
         match goal with |- rnd (?a + ?b) = _ => rewrite (Rplus_comm a b) end; reflexivity.
  Qed.

  Lemma tax_py_rounded tp x : rnd (@calculate_inc_tax_py R NT tp x) = @calculate_inc_tax_py R NT tp x.
  Proof.
    unfold calculate_inc_tax_py. cbn [nofZ nadd nsub nmul nleb nltb RndNum].
    destruct (Rltb x _); apply rnd_idem.
  Qed.

  Lemma agree_net tp d f m s : thresholds_sorted tp ->
    @calculate_net_income R NT tp d f m s = @calculate_net_income_py R NT tp d f m s.
  Proof.
    intros H. unfold calculate_net_income, calculate_net_income_py, b2n.
    rewrite !agree_ssc, !agree_tax by assumption.
    cbn [nofZ nadd nsub nmul ndiv nleb nltb RndNum]. rewrite ?rnd0, ?rnd1.
    destruct (Rltb 0 m).
    - rewrite !Rmult_1_l, !rnd_idem. replace (1 - 1) with 0 by ring. rewrite rnd0, !Rmult_0_l, rnd0, !Rplus_0_r, !rnd_idem.
      destruct s; rewrite ?rnd_idem; reflexivity.
    - rewrite !Rmult_0_l, !rnd0, !Rminus_0_r, rnd1, !Rmult_1_l, !Rplus_0_l, !rnd_idem, !tax_py_rounded. reflexivity.
  Qed.
End Agree.

Lemma RndNum_id : RndNum (fun x => x) = RNum.
Proof. reflexivity. Qed.

Lemma agree_exact (tp : tax_table R) (d : R * R) (f m x : R) (s : bool) : thresholds_sorted tp ->
  calculate_inc_tax tp x = calculate_inc_tax_py tp x /\
  calculate_ssc_deductions d x = calculate_ssc_deductions_py d x /\
  calculate_net_income tp d f m s = calculate_net_income_py tp d f m s.
Proof.
  intros H. rewrite <- RndNum_id. repeat split.
  - apply agree_tax; auto.
  - apply agree_ssc.
  - apply agree_net; auto.
Qed.

Lemma sorted_2007 : thresholds_sorted (create_tax_parameters (T := R)).
Proof.
  rewrite table_2007. exists (7664 / Y), (12739 / Y), (52151 / Y), (250000 / Y).
  rewrite Y_val. repeat split; lra.
Qed.

Lemma Int_part_IZR z : Int_part (IZR z) = z.
Proof. unfold Int_part. assert ((z + 1)%Z = up (IZR z)) by (apply tech_up; rewrite plus_IZR; lra). lia. Qed.

Lemma floor_rounding :
  let rnd := fun x : R => IZR (Int_part x) in
  (forall x, rnd (rnd x) = rnd x) /\ rnd 0 = 0 /\ rnd 1 = 1.
Proof. cbv zeta. repeat split; intros; rewrite Int_part_IZR; reflexivity. Qed.

Lemma tax07_pos x : 7664 < x * weeks_per_year -> 0 < tax07 x.
Proof.
  rewrite Y_weeks. intros H.
  (* just above the allowance the first zone applies *)
  set (y := Rmin x (10000 / Y)).
  assert (Hy : 7664 / Y < y <= x /\ y <= 10000 / Y).
  { unfold y. rewrite Y_val in *. rmm; lra. }
  pose proof (tax07_lipschitz y x ltac:(lra)) as [A _].
  assert (0 < tax07 y); [|lra].
  rewrite table_2007, tax_closed by (try lra; dy). unfold tax_cases. rewrite Y_val in *.
  repeat match goal with |- context [Rltb ?a ?b] => destruct (Rltb_spec a b); try (exfalso; lra) end.
  nra.
Qed.

Lemma splitting_equal_taxable tp d f m :
  f - calculate_ssc_deductions d f = m - calculate_ssc_deductions d m ->
  calculate_net_income tp d f m true = calculate_net_income tp d f m false.
Proof.
  intros E. destruct (Rle_dec m 0) as [Hm|Hm].
  - rewrite !net_single by lra. reflexivity.
  - rewrite !net_couple by lra. cbv zeta. rewrite E.
    set (x := m - calculate_ssc_deductions d m). replace ((x + x) / 2) with x by lra. lra.
Qed.

Lemma splitting_strict : exists d f m, 0 < m /\
  calculate_net_income create_tax_parameters d f m false
  < calculate_net_income create_tax_parameters d f m true.
Proof.
  exists (0, 0), (10000 / Y), (1000 / Y). split; [rewrite Y_val; lra|].
  rewrite !net_couple by (rewrite Y_val; lra). cbv zeta. rewrite !ssc_R, !Rmult_0_l, !Rminus_0_r.
  assert (Z0 : forall z, z <= 7664 / Y -> tax07 z = 0).
  { intros z Hz. apply tax07_zero. rewrite Y_weeks. rewrite Y_val in *. lra. }
  rewrite (Z0 ((10000 / Y + 1000 / Y) / 2)) by (rewrite Y_val; lra).
  rewrite (Z0 (1000 / Y)) by (rewrite Y_val; lra).
  assert (0 < tax07 (10000 / Y)); [|lra].
  apply tax07_pos. rewrite Y_weeks, Y_val. lra.
Qed.
