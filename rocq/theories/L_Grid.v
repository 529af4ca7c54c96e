(** The error made by the experience grid (C80 - C82). *)
From Coq Require Import Reals Lra Lia ZArith List Arith String.
From Verif Require Import Base Num M_Params M_Experience M_Tax L_Num S_Experience L_Experience S_Interp L_Interp S_Tax L_Tax
  S_Benefits L_Benefits S_StateSpace L_StateSpace S_Bellman L_Bellman S_Solver L_Value L_Solver L_Mono S_Reform S_Stability L_Stability S_Grid.
Import ListNotations.
Open Scope R_scope.

(** *** interpolation *)
Lemma unit_segment g x : increasing g -> spans_unit g -> 0 <= x <= 1 ->
  (S (seg g x) < List.length g)%nat /\ nth (seg g x) g 0 <= x <= nth (S (seg g x)) g 0.
Proof.
  intros Hi (Hn & H0 & H1) Hx. split; [apply seg_bound; assumption|]. split.
  - destruct (seg_low g x Hi Hn) as [-> | H]; [rewrite H0|]; lra.
  - destruct (seg_high g x Hi Hn) as [E | H]; [|lra].
    replace (S (seg g x)) with (List.length g - 1)%nat by (rewrite E; lia). rewrite H1. lra.
Qed.
Lemma chord_near x0 x1 f0 f1 x y r : x0 <= x <= x1 -> x0 < x1 -> near r y f0 -> near r y f1 -> near r y (chord x0 x1 f0 f1 x).
Proof.
  intros Hx H01 N0 N1. unfold near in *. apply Rabs_le_inv in N0. apply Rabs_le_inv in N1. unfold chord. apply Rabs_le.
  set (w := (x - x0) / (x1 - x0)).
  assert (Hw : 0 <= w <= 1).
  { unfold w. split; [apply Rmult_le_pos; [lra|left; apply Rinv_0_lt_compat; lra]|].
    apply Rmult_le_reg_r with (x1 - x0); [lra|]. unfold Rdiv. rewrite Rmult_assoc, Rinv_l by lra. lra. }
  assert (A : 0 <= w * (r - (f1 - y))) by (apply Rmult_le_pos; lra).
  assert (B : 0 <= (1 - w) * (r - (f0 - y))) by (apply Rmult_le_pos; lra).
  assert (C : 0 <= w * (r + (f1 - y))) by (apply Rmult_le_pos; lra).
  assert (D : 0 <= (1 - w) * (r + (f0 - y))) by (apply Rmult_le_pos; lra).
  split; lra.
Qed.
Lemma interpolate_near g f x L h : increasing g -> spans_unit g -> mesh g h -> 0 <= L -> 0 <= x <= 1 ->
  (forall u v, 0 <= u <= 1 -> 0 <= v <= 1 -> Rabs (f v - f u) <= L * Rabs (v - u)) ->
  near (L * h) (f x) (interpolate g (map f g) x).
Proof.
  intros Hi Hu Hm HL Hx Hf. destruct (unit_segment g x Hi Hu Hx) as [Hs Hb]. destruct Hu as (Hn & H0 & H1).
  rewrite interpolate_chord by (try assumption; apply map_length). unfold grid_chord. set (k := seg g x) in *.
  assert (Hlt : nth k g 0 < nth (S k) g 0) by (apply Hi; lia).
  assert (U : forall j, (j < List.length g)%nat -> 0 <= nth j g 0 <= 1).
  { intros j Hj. split.
    - destruct j; [rewrite H0; lra|]. rewrite <- H0 at 1. left. apply Hi. lia.
    - destruct (Nat.eq_dec j (List.length g - 1)) as [-> | ?]; [rewrite H1; lra|]. rewrite <- H1. left. apply Hi. lia. }
  assert (N : forall j, (j < List.length g)%nat -> nth j (map f g) 0 = f (nth j g 0)).
  { intros j Hj. rewrite (nth_indep _ 0 (f 0)) by (rewrite map_length; assumption). apply map_nth. }
  rewrite !N by lia. pose proof (Hm k Hs) as Hmk.
  apply chord_near; try assumption; unfold near.
  - eapply Rle_trans; [apply Hf; [lra|apply U; lia]|]. apply Rmult_le_compat_l; [assumption|]. apply Rabs_le. lra.
  - eapply Rle_trans; [apply Hf; [lra|apply U; lia]|]. apply Rmult_le_compat_l; [assumption|]. apply Rabs_le. lra.
Qed.

Lemma stock_next_lipschitz sp mp b t e a c x y : (0 <= init_exp_max sp)%Z -> (0 <= t)%Z ->
  Rabs (stock_next sp mp b t e a c y - stock_next sp mp b t e a c x) <= Rabs (y - x).
Proof.
  intros Hi Ht. unfold stock_next. set (p := pt_credit mp b e a).
  assert (M : 0 <= max_years (init_exp_max sp) t p <= max_years (init_exp_max sp) (t + 1) p /\ 0 < max_years (init_exp_max sp) (t + 1) p).
  { unfold max_years. rewrite plus_IZR. assert (0 <= IZR (init_exp_max sp)) by (apply IZR_le; lia). assert (0 <= IZR t) by (apply IZR_le; lia).
    pose proof (Rmax_l 1 p). assert (0 <= IZR t * Rmax 1 p) by (apply Rmult_le_pos; lra). lra. }
  set (m0 := max_years (init_exp_max sp) t p) in *. set (m1 := max_years (init_exp_max sp) (t + 1) p) in *.
  unfold years_of. fold m0. set (q := m0 / m1).
  assert (Hq : 0 <= q <= 1).
  { unfold q. split; [apply Rmult_le_pos; [lra|left; apply Rinv_0_lt_compat; lra]|].
    apply Rmult_le_reg_r with m1; [lra|]. unfold Rdiv. rewrite Rmult_assoc, Rinv_l by lra. lra. }
  replace ((x * m0 + credit c p) / m1) with (x * q + credit c p / m1) by (unfold q; field; lra).
  replace ((y * m0 + credit c p) / m1) with (y * q + credit c p / m1) by (unfold q; field; lra).
  set (r := credit c p / m1). clearbody q r. clear M p m0 m1.
  assert (K : - Rabs (y - x) <= (y - x) * q <= Rabs (y - x)).
  { apply Rabs_le_inv. rewrite Rabs_mult, (Rabs_right q) by lra.
    pose proof (Rabs_pos (y - x)). assert (Rabs (y - x) * q <= Rabs (y - x) * 1) by (apply Rmult_le_compat_l; lra). lra. }
  apply Rabs_le. rmm; lra.
Qed.

Lemma mix_near r pb ps pp a1 a2 a3 a4 b1 b2 b3 b4 : 0 <= pb <= 1 -> 0 <= ps -> 0 <= pp -> ps + pp = 1 ->
  near r a1 b1 -> near r a2 b2 -> near r a3 b3 -> near r a4 b4 ->
  near r ((1 - pb) * (ps * a1 + pp * a2) + pb * (ps * a3 + pp * a4)) ((1 - pb) * (ps * b1 + pp * b2) + pb * (ps * b3 + pp * b4)).
Proof.
  intros Hb Hs Hp Hsum. unfold near. intros N1 N2 N3 N4.
  assert (E : forall u v c d, near r u v -> near r c d -> near r (ps * u + pp * c) (ps * v + pp * d)).
  { intros u v c d A B. unfold near in *. apply Rabs_le_inv in A. apply Rabs_le_inv in B. apply Rabs_le.
    assert (0 <= ps * (r - (v - u))) by (apply Rmult_le_pos; lra). assert (0 <= pp * (r - (d - c))) by (apply Rmult_le_pos; lra).
    assert (0 <= ps * (r + (v - u))) by (apply Rmult_le_pos; lra). assert (0 <= pp * (r + (d - c))) by (apply Rmult_le_pos; lra).
    replace pp with (1 - ps) in * by lra. split; lra. }
  pose proof (E _ _ _ _ N1 N2) as A. pose proof (E _ _ _ _ N3 N4) as B. unfold near in A, B.
  apply Rabs_le_inv in A. apply Rabs_le_inv in B. apply Rabs_le.
  set (u := ps * a1 + pp * a2) in *. set (v := ps * b1 + pp * b2) in *. set (c := ps * a3 + pp * a4) in *. set (d := ps * b3 + pp * b4) in *.
  assert (0 <= (1 - pb) * (r - (v - u))) by (apply Rmult_le_pos; lra). assert (0 <= pb * (r - (d - c))) by (apply Rmult_le_pos; lra).
  assert (0 <= (1 - pb) * (r + (v - u))) by (apply Rmult_le_pos; lra). assert (0 <= pb * (r + (d - c))) by (apply Rmult_le_pos; lra).
  split; lra.
Qed.

(** *** the recursion *)
Section Grid.
  Variable sp : model_spec R.
  Variable mp : model_params R.
  Variable biased : bool.
  Variable draws : list (R * R).
  Variable pc : Z -> Z -> R.
  Variable pp : Z -> Z -> Z -> Z -> R.
  Variable L : R.
  Hypothesis Hca : (0 <= child_age_max sp)%Z.
  Hypothesis Hie : (0 <= init_exp_max sp)%Z.
  Hypothesis Hd : 0 <= delta mp.
  Hypothesis HL : 0 <= L.
  Hypothesis Hpc : births_ok sp pc.
  Hypothesis Hpp : partners_ok sp pp.
  Hypothesis Hw : forall z w, In (z, w) draws -> 0 <= w.
  Hypothesis Hw1 : average (fun _ => 1) draws = 1.
  Hypothesis Hf : flows_lipschitz L sp mp biased draws.
  Notation F := (flow sp mp (is_elterngeld sp) biased).
  Notation X := (exact_value sp mp (is_elterngeld sp) biased draws pc pp).
  Notation XC := (exact_continuation sp mp (is_elterngeld sp) biased draws pc pp).
  Notation XN := (exact_next sp mp biased pc pp).
  Notation V := (value sp mp (is_elterngeld sp) biased draws pc pp).
  Notation C := (continuation sp mp (is_elterngeld sp) biased draws pc pp).

  Lemma exact_eq n t e l ty a m x :
    X n t e l ty a m x = average (fun z => best3 (fun c => F t e l ty a m x c z + delta mp * XC n t e ty a m c x)) draws.
  Proof. destruct n; reflexivity. Qed.

  Lemma successors t e l ty a m c : in_space sp t e l ty a m -> (t < num_periods sp - 1)%Z -> (0 <= c < 3)%Z ->
    forall age m', (age = aged sp a \/ age = 0)%Z -> (0 <= m' < 2)%Z -> in_space sp (t + 1) e c ty age m'.
  Proof.
    intros Hin Ht Hc age m' Hage Hm'. unfold in_space in *.
    pose proof (aged_range sp Hca a ltac:(lia)). destruct Hage as [-> | ->]; lia.
  Qed.

  (** exact values are Lipschitz in the stock *)
  Definition cont_slope (n : nat) : R := match n with O => 0 | S n' => L * geometric (delta mp) n' end.
  Lemma slope_step n : L + delta mp * cont_slope n = L * geometric (delta mp) n.
  Proof. destruct n; cbn [cont_slope geometric]; ring. Qed.
  Lemma geom_pos n : 0 <= geometric (delta mp) n.
  Proof. apply geometric_pos. assumption. Qed.
  Lemma slope_pos n : 0 <= cont_slope n.
  Proof. destruct n; cbn [cont_slope]; [lra|]. apply Rmult_le_pos; [assumption|apply geom_pos]. Qed.

  Lemma exact_lipschitz n : forall t e l ty a m, in_space sp t e l ty a m -> (t + Z.of_nat n = num_periods sp - 1)%Z ->
    forall x y, 0 <= x <= 1 -> 0 <= y <= 1 ->
    Rabs (X n t e l ty a m y - X n t e l ty a m x) <= L * geometric (delta mp) n * Rabs (y - x) /\
    forall c, (0 <= c < 3)%Z -> Rabs (XC n t e ty a m c y - XC n t e ty a m c x) <= cont_slope n * Rabs (y - x).
  Proof.
    induction n as [|n IH]; intros t e l ty a m Hin Hn x y Hx Hy.
    - assert (HC : forall c, (0 <= c < 3)%Z -> Rabs (XC 0 t e ty a m c y - XC 0 t e ty a m c x) <= cont_slope 0 * Rabs (y - x)).
      { intros c Hc. cbn [exact_continuation cont_slope]. rewrite Rminus_diag_eq, Rabs_R0 by reflexivity. lra. }
      split; [|exact HC]. rewrite !exact_eq. apply average_near; try assumption. intros z w Hz. apply best3_near.
      intros c Hc. unfold near. cbn [exact_continuation geometric]. rewrite Rmult_0_r, !Rplus_0_r, Rmult_1_r.
      exact (Hf t e l ty a m c z w Hin Hc Hz x y Hx Hy).
    - assert (HC : forall c, (0 <= c < 3)%Z -> Rabs (XC (S n) t e ty a m c y - XC (S n) t e ty a m c x) <= cont_slope (S n) * Rabs (y - x)).
      { intros c Hc. cbn [exact_continuation cont_slope]. unfold exact_next. cbv zeta.
        pose proof Hin as Hin'. unfold in_space in Hin'.
        destruct (Hpp t e m ltac:(lia) ltac:(lia) ltac:(lia)) as (P1 & P2 & P3).
        assert (S : forall age m', (age = aged sp a \/ age = 0)%Z -> (0 <= m' < 2)%Z ->
          near (L * geometric (delta mp) n * Rabs (y - x)) (X n (t + 1)%Z e c ty age m' (stock_next sp mp biased t e a c x))
               (X n (t + 1)%Z e c ty age m' (stock_next sp mp biased t e a c y))).
        { intros age m' Hage Hm'. unfold near.
          eapply Rle_trans; [apply (IH (t + 1)%Z e c ty age m'); [eapply successors; eassumption || lia|lia|apply stock_next_unit|apply stock_next_unit]|].
          apply Rmult_le_compat_l; [apply Rmult_le_pos; [assumption|apply geom_pos]|]. apply stock_next_lipschitz; [assumption|lia]. }
        apply mix_near; try assumption; try (apply S; [auto|lia]). apply Hpc; lia. }
      split; [|exact HC]. rewrite !exact_eq. apply average_near; try assumption. intros z w Hz. apply best3_near.
      intros c Hc. unfold near. rewrite <- slope_step.
      replace (F t e l ty a m y c z + delta mp * XC (S n) t e ty a m c y - (F t e l ty a m x c z + delta mp * XC (S n) t e ty a m c x))
        with ((F t e l ty a m y c z - F t e l ty a m x c z) + delta mp * (XC (S n) t e ty a m c y - XC (S n) t e ty a m c x)) by ring.
      eapply Rle_trans; [apply Rabs_triang|]. rewrite Rmult_plus_distr_r. apply Rplus_le_compat.
      + exact (Hf t e l ty a m c z w Hin Hc Hz x y Hx Hy).
      + rewrite Rabs_mult, (Rabs_right (delta mp)), Rmult_assoc by lra. apply Rmult_le_compat_l; [assumption|]. apply HC. assumption.
  Qed.

  Variable h : R.
  Hypothesis Hgi : increasing (exp_grid sp).
  Hypothesis Hgu : spans_unit (exp_grid sp).
  Hypothesis Hme : mesh (exp_grid sp) h.

  Lemma error_step n : delta mp * cont_error (delta mp) n = grid_error (delta mp) n.
  Proof. destruct n; cbn [cont_error grid_error]; ring. Qed.

  Lemma grid_close n : forall t e l ty a m, in_space sp t e l ty a m -> (t + Z.of_nat n = num_periods sp - 1)%Z ->
    forall x, near (L * h * grid_error (delta mp) n) (X n t e l ty a m x) (V n t e l ty a m x) /\
    forall c, (0 <= c < 3)%Z -> near (L * h * cont_error (delta mp) n) (XC n t e ty a m c x) (C n t e ty a m c x).
  Proof.
    induction n as [|n IH]; intros t e l ty a m Hin Hn x.
    - split; [|intros c Hc; unfold near; cbn [exact_continuation continuation cont_error]; rewrite Rminus_0_r, Rabs_R0; lra].
      unfold near. cbn [exact_value value grid_error]. rewrite Rminus_diag_eq, Rabs_R0 by reflexivity. lra.
    - assert (HC : forall c, (0 <= c < 3)%Z -> near (L * h * cont_error (delta mp) (S n)) (XC (S n) t e ty a m c x) (C (S n) t e ty a m c x)).
      { intros c Hc. cbn [exact_continuation continuation cont_error]. pose proof Hin as Hin'. unfold in_space in Hin'.
        destruct (Hpp t e m ltac:(lia) ltac:(lia) ltac:(lia)) as (P1 & P2 & P3).
        assert (A : near (L * geometric (delta mp) n * h) (XN (X n) t e ty a m c x) (expected_next sp mp biased pc pp (X n) t e ty a m c x)).
        { unfold exact_next, expected_next. cbv zeta.
          assert (S : forall age m', (age = aged sp a \/ age = 0)%Z -> (0 <= m' < 2)%Z ->
            near (L * geometric (delta mp) n * h) (X n (t + 1)%Z e c ty age m' (stock_next sp mp biased t e a c x))
              (interpolate (exp_grid sp) (map (X n (t + 1)%Z e c ty age m') (exp_grid sp)) (stock_next sp mp biased t e a c x))).
          { intros age m' Hage Hm'. apply interpolate_near; try assumption; [apply Rmult_le_pos; [assumption|apply geom_pos]|apply stock_next_unit|].
            intros u v Hu Hv. apply (exact_lipschitz n (t + 1)%Z e c ty age m'); try assumption; [eapply successors; eassumption || lia|lia]. }
          apply mix_near; try assumption; try (apply S; [auto|lia]). apply Hpc; lia. }
        assert (B : near (L * h * grid_error (delta mp) n) (expected_next sp mp biased pc pp (X n) t e ty a m c x) (expected_next sp mp biased pc pp (V n) t e ty a m c x)).
        { apply expected_near; try assumption; try lia. intros age m' y Hage Hm' Hy.
          apply (IH (t + 1)%Z e c ty age m'); [eapply successors; eassumption || lia|lia]. }
        unfold near in *. apply Rabs_le_inv in A. apply Rabs_le_inv in B. apply Rabs_le. lra. }
      split; [|exact HC]. rewrite exact_eq, value_eq. apply average_near; try assumption. intros z w Hz. apply best3_near.
      intros c Hc. unfold near. rewrite <- error_step. pose proof (HC c Hc) as N. unfold near in N.
      match goal with |- Rabs (?f + ?d * ?u - (?f + ?d * ?v)) <= _ => replace (f + d * u - (f + d * v)) with (d * (u - v)) by ring end.
      rewrite Rabs_mult, (Rabs_right (delta mp)) by lra. replace (L * h * (delta mp * cont_error (delta mp) (S n))) with (delta mp * (L * h * cont_error (delta mp) (S n))) by ring.
      apply Rmult_le_compat_l; assumption.
  Qed.
End Grid.

(** *** flow utilities are Lipschitz under Elterngeld *)
Definition lip (f : R -> R) : Prop :=
  exists L, 0 <= L /\ forall x y, 0 <= x <= 1 -> 0 <= y <= 1 -> Rabs (f y - f x) <= L * Rabs (y - x).
Lemma lip_ext f f' : (forall x, 0 <= x <= 1 -> f x = f' x) -> lip f -> lip f'.
Proof. intros H (L & HL & HF). exists L. split; [assumption|]. intros x y Hx Hy. rewrite <- !H by assumption. apply HF; assumption. Qed.
Lemma lip_const c : lip (fun _ => c).
Proof. exists 0. split; [lra|]. intros x y _ _. rewrite Rminus_diag_eq, Rabs_R0 by reflexivity. lra. Qed.
Lemma lip_id : lip (fun x => x).
Proof. exists 1. split; [lra|]. intros x y _ _. lra. Qed.
Lemma lip_plus f g : lip f -> lip g -> lip (fun x => f x + g x).
Proof.
  intros (L & HL & HF) (K & HK & HG). exists (L + K). split; [lra|]. intros x y Hx Hy.
  replace (f y + g y - (f x + g x)) with ((f y - f x) + (g y - g x)) by ring.
  eapply Rle_trans; [apply Rabs_triang|]. rewrite Rmult_plus_distr_r. apply Rplus_le_compat; auto.
Qed.
Lemma lip_scal c f : lip f -> lip (fun x => c * f x).
Proof.
  intros (L & HL & HF). exists (Rabs c * L). split; [apply Rmult_le_pos; [apply Rabs_pos|assumption]|]. intros x y Hx Hy.
  rewrite <- Rmult_minus_distr_l, Rabs_mult, Rmult_assoc. apply Rmult_le_compat_l; [apply Rabs_pos|auto].
Qed.
Lemma lip_minus f g : lip f -> lip g -> lip (fun x => f x - g x).
Proof. intros Hf Hg. apply (lip_ext (fun x => f x + (-1) * g x)); [intros; ring|]. apply lip_plus; [assumption|apply lip_scal; assumption]. Qed.
Lemma lip_div c f : lip f -> lip (fun x => f x / c).
Proof. intros Hf. apply (lip_ext (fun x => / c * f x)); [intros; unfold Rdiv; ring|]. apply lip_scal. assumption. Qed.
Lemma lip_multr c f : lip f -> lip (fun x => f x * c).
Proof. intros Hf. apply (lip_ext (fun x => c * f x)); [intros; ring|]. apply lip_scal. assumption. Qed.
Lemma lip_post g K f : 0 <= K -> (forall u v, Rabs (g v - g u) <= K * Rabs (v - u)) -> lip f -> lip (fun x => g (f x)).
Proof.
  intros HK HG (L & HL & HF). exists (K * L). split; [apply Rmult_le_pos; assumption|]. intros x y Hx Hy.
  eapply Rle_trans; [apply HG|]. rewrite Rmult_assoc. apply Rmult_le_compat_l; auto.
Qed.
(** on the values the inner function takes *)
Lemma lip_post_on (P : R -> Prop) g K f : 0 <= K -> (forall u v, P u -> P v -> Rabs (g v - g u) <= K * Rabs (v - u)) ->
  (forall x, 0 <= x <= 1 -> P (f x)) -> lip f -> lip (fun x => g (f x)).
Proof.
  intros HK HG HP (L & HL & HF). exists (K * L). split; [apply Rmult_le_pos; assumption|]. intros x y Hx Hy.
  eapply Rle_trans; [apply HG; auto|]. rewrite Rmult_assoc. apply Rmult_le_compat_l; auto.
Qed.
Lemma lip_max f c : lip f -> lip (fun x => Rmax (f x) c).
Proof. intros Hf. apply (lip_post (fun u => Rmax u c) 1); [lra| |assumption]. intros u v. apply Rabs_le. pose proof (Rle_abs (v - u)). pose proof (Rle_abs (- (v - u))). rewrite Rabs_Ropp in *. rmm; lra. Qed.
Lemma lip_min f c : lip f -> lip (fun x => Rmin (f x) c).
Proof. intros Hf. apply (lip_post (fun u => Rmin u c) 1); [lra| |assumption]. intros u v. apply Rabs_le. pose proof (Rle_abs (v - u)). pose proof (Rle_abs (- (v - u))). rewrite Rabs_Ropp in *. rmm; lra. Qed.
Lemma lip_above f : lip f -> exists B, forall x, 0 <= x <= 1 -> f x <= B.
Proof.
  intros (L & HL & HF). exists (f 0 + L). intros x Hx. pose proof (HF 0 x ltac:(lra) Hx) as H. apply Rabs_le_inv in H.
  rewrite Rminus_0_r, Rabs_right in H by lra. assert (L * x <= L * 1) by (apply Rmult_le_compat_l; lra). lra.
Qed.
Lemma exp_slope u v : u <= v -> 0 <= exp v - exp u <= exp v * (v - u).
Proof.
  intros H. pose proof (exp_le' u v H). split; [lra|].
  pose proof (exp_ineq1_le (u - v)) as E. replace u with (v + (u - v)) at 1 by ring. rewrite exp_plus.
  pose proof (exp_pos v). assert (exp v * (1 + (u - v)) <= exp v * exp (u - v)) by (apply Rmult_le_compat_l; lra). lra.
Qed.
Lemma lip_exp f : lip f -> lip (fun x => exp (f x)).
Proof.
  intros Hf. destruct (lip_above f Hf) as [B HB]. pose proof (exp_pos B).
  apply (lip_post_on (fun u => u <= B) exp (exp B)); [lra| |assumption|assumption].
  assert (G : forall u v, u <= B -> v <= B -> u <= v -> Rabs (exp v - exp u) <= exp B * Rabs (v - u)).
  { intros u v Hu Hv Huv. pose proof (exp_slope u v Huv) as [A1 A2]. pose proof (exp_le' v B Hv).
    rewrite !Rabs_right by lra. eapply Rle_trans; [exact A2|]. apply Rmult_le_compat_r; lra. }
  intros u v Hu Hv. destruct (Rle_lt_dec u v) as [Huv | Huv]; [apply G; assumption|].
  rewrite Rabs_minus_sym, (Rabs_minus_sym v u). apply G; lra.
Qed.
Lemma ln_slope u v : 0 < u -> u <= v -> 0 <= ln v - ln u <= / u * (v - u).
Proof.
  intros Hu Huv. pose proof (ln_le' u v Hu Huv). split; [lra|].
  pose proof (exp_ineq1_le (ln v - ln u)) as E. unfold Rminus in E at 2. rewrite exp_plus, exp_Ropp, !exp_ln in E by lra.
  replace (/ u * (v - u)) with (v * / u - 1) by (field; lra). lra.
Qed.
Lemma lip_ln f c : 0 < c -> (forall x, 0 <= x <= 1 -> c <= f x) -> lip f -> lip (fun x => ln (f x)).
Proof.
  intros Hc Hl Hf. pose proof (Rinv_0_lt_compat c Hc).
  apply (lip_post_on (fun u => c <= u) ln (/ c)); [lra| |assumption|assumption].
  assert (G : forall u v, c <= u -> u <= v -> Rabs (ln v - ln u) <= / c * Rabs (v - u)).
  { intros u v Hu Huv. pose proof (ln_slope u v ltac:(lra) Huv) as [A1 A2]. rewrite !Rabs_right by lra.
    eapply Rle_trans; [exact A2|]. apply Rmult_le_compat_r; [lra|]. apply Rinv_le_contravar; lra. }
  intros u v Hu Hv. destruct (Rle_lt_dec u v) as [Huv | Huv]; [apply G; assumption|].
  rewrite Rabs_minus_sym, (Rabs_minus_sym v u). apply G; lra.
Qed.
Lemma lip_crra mu_ f c : 0 < c -> (forall x, 0 <= x <= 1 -> c <= f x) -> lip f -> lip (fun x => crra mu_ (f x)).
Proof.
  intros Hc Hl Hf. apply (lip_ext (fun x => exp (mu_ * ln (f x)) / mu_)).
  - intros x Hx. specialize (Hl x Hx). unfold crra. destruct (Rlt_dec 0 (f x)); [reflexivity|lra].
  - apply lip_div, lip_exp, lip_scal, (lip_ln f c); assumption.
Qed.

Section Flow.
  Variable sp : model_spec R.
  Variable mp : model_params R.
  Variable biased : bool.
  Variables rate cap : R.
  Hypothesis Hsp : spec_ok sp.
  Hypothesis Htp : tax_params sp = create_tax_parameters.
  Hypothesis Hss : ssc_deductions sp = (rate, cap).
  Hypothesis Hrate : 0 <= rate < 1.
  Hypothesis Hcap : 0 <= cap.
  Hypothesis Hfloor : forall a, 0 < basic_support sp a 0.

  Lemma lip_hourly t e a : (0 <= t)%Z -> lip (hourly_wage sp mp biased t e a).
  Proof.
    intros Ht. unfold hourly_wage. apply lip_exp, lip_plus; [|apply lip_const]. apply lip_plus; [apply lip_const|]. apply lip_scal.
    destruct Hsp as (_ & _ & _ & _ & Hi & _). pose proof (max_years_ge0 _ _ (pt_credit mp biased e a) Hi Ht) as M.
    apply (lip_ln _ 1); [lra| |].
    - intros x Hx. unfold years_of. assert (0 <= x * max_years (init_exp_max sp) t (pt_credit mp biased e a)) by (apply Rmult_le_pos; lra). lra.
    - apply lip_plus; [|apply lip_const]. unfold years_of. apply lip_multr, lip_id.
  Qed.
  Lemma lip_after f : lip f -> lip (fun x => after_contributions sp (f x)).
  Proof.
    intros Hf. unfold after_contributions. apply lip_minus; [assumption|].
    apply (lip_ext (fun x => fst (ssc_deductions sp) * Rmin (f x) (snd (ssc_deductions sp)))).
    - intros x _. unfold contribution. destruct (Rle_dec (f x) (snd (ssc_deductions sp))); rmm; try reflexivity; f_equal; lra.
    - apply lip_scal, lip_min. assumption.
  Qed.
  Lemma lip_tax f : lip f -> lip (fun x => tax_due (tax_params sp) (f x)).
  Proof.
    intros Hf. destruct Hsp as (_ & _ & _ & _ & _ & _ & _ & Ht & _).
    apply (lip_ext (fun x => tax07 (f x))); [intros x _; rewrite <- Htp; apply tax_spec; assumption|].
    apply (lip_post tax07 (45/100)); [lra| |assumption].
    intros u v. destruct (Rle_lt_dec u v) as [H | H].
    - pose proof (tax07_lipschitz u v H). rewrite !Rabs_right by lra. lra.
    - pose proof (tax07_lipschitz v u ltac:(lra)). rewrite Rabs_minus_sym, (Rabs_minus_sym v u), !Rabs_right by lra. lra.
  Qed.
  Lemma lip_net f male : lip f -> lip (fun x => household_net sp (f x) male).
  Proof.
    intros Hf. unfold household_net. cbv zeta. destruct (Rlt_dec 0 male).
    - apply lip_minus; [apply lip_plus; [apply lip_after; assumption|apply lip_const]|]. apply lip_scal.
      destruct (tax_splitting sp).
      + apply lip_scal, lip_tax, lip_div, lip_plus; [apply lip_after; assumption|apply lip_const].
      + apply lip_plus; [apply lip_tax, lip_after; assumption|apply lip_const].
    - apply lip_minus; [apply lip_after; assumption|]. apply lip_scal, lip_tax, lip_after. assumption.
  Qed.
  Lemma lip_benefits a l m cb mw w : lip w -> lip (fun x => benefits_spec sp a l m (w x) cb mw true).
  Proof.
    intros Hw. unfold benefits_spec. apply lip_max. unfold parental_benefit, unemployment_benefit.
    assert (K : forall r, lip (fun x => r * (65/100 * w x) * last_hours l)) by (intros r; apply lip_multr, lip_scal, lip_scal; assumption).
    destruct (a =? 0)%Z; destruct (worked l); try apply lip_const.
    - apply lip_plus; [|apply lip_const]. apply lip_min, lip_max, K.
    - destruct (a =? -1)%Z; [apply K|]. apply lip_plus; [apply K|apply lip_const].
  Qed.
  Lemma resources_floor t e a m : (0 <= m < 2)%Z -> 0 < household_net sp 0 (partner_wage sp t e m) + basic_support sp a m.
  Proof.
    intros Hm. destruct Hsp as (_ & _ & _ & _ & _ & _ & _ & Ht & _). rewrite <- net_spec by assumption. rewrite Htp, Hss.
    assert (m = 0 \/ m = 1)%Z as [-> | ->] by lia.
    - pose proof (Hfloor a). replace (partner_wage sp t e 0) with 0 by reflexivity. rewrite net_zero by assumption. lra.
    - destruct (partner_wage_sign sp t e 1 ltac:(right; reflexivity)) as [[Hs _] _]. specialize (Hs eq_refl).
      assert (0 < calculate_net_income create_tax_parameters (rate, cap) 0 (partner_wage sp t e 1) (tax_splitting sp))
        by (apply net_pos; lra || assumption).
      replace (basic_support sp a 1) with 0 by reflexivity. lra.
  Qed.
  Lemma lip_flow t e l ty a m c z : in_space sp t e l ty a m -> lip (fun x => flow sp mp true biased t e l ty a m x c z).
  Proof.
    intros (Ht & He & Hl & Hty & Ha & Hm). unfold flow. cbv zeta.
    pose proof (equivalence_pos a m) as Heq. pose proof (Rinv_0_lt_compat _ Heq) as Hi.
    destruct (c =? 0)%Z.
    - apply (lip_crra _ _ ((household_net sp 0 (partner_wage sp t e m) + basic_support sp a m) / equivalence a m)).
      + apply Rmult_lt_0_compat; [apply resources_floor|]; assumption.
      + intros x _. apply Rmult_le_compat_r; [lra|]. apply Rplus_le_compat_l. apply benefits_floor. discriminate.
      + apply lip_div, lip_plus; [apply lip_const|]. apply lip_benefits, lip_hourly. lia.
    - apply lip_multr. apply (lip_crra _ _ (1 / 100000000000000 / equivalence a m)).
      + apply Rmult_lt_0_compat; [lra|assumption].
      + intros x _. apply Rmult_le_compat_r; [lra|]. apply Rmax_r.
      + apply lip_div, lip_max, lip_minus; [|apply lip_const]. apply lip_plus; [|apply lip_const].
        unfold working_allowance. apply lip_plus; [|apply lip_const]. apply lip_net, lip_scal, lip_multr, lip_hourly. lia.
  Qed.

  Lemma finite_constant {A} (l : list A) (P : A -> R -> Prop) :
    (forall a, In a l -> exists L, 0 <= L /\ P a L) -> (forall a L L', P a L -> L <= L' -> P a L') ->
    exists L, 0 <= L /\ forall a, In a l -> P a L.
  Proof.
    intros H Hm. induction l as [|y l IH]; [exists 0; split; [lra|intros a []]|].
    destruct IH as (L & HL & IH); [intros; apply H; right; assumption|].
    destruct (H y) as (K & HK & Hy); [left; reflexivity|].
    exists (Rmax L K). split; [rmm; lra|]. intros a [<- | Ha].
    - apply (Hm y K); [assumption|apply Rmax_r].
    - apply (Hm a L); [apply IH; assumption|apply Rmax_l].
  Qed.

  Lemma elterngeld_lipschitz draws : is_elterngeld sp = true -> exists L, 0 <= L /\ flows_lipschitz L sp mp biased draws.
  Proof.
    intros Hr.
    set (rg := fun lo hi => map (fun k => (lo + Z.of_nat k)%Z) (seq 0 (Z.to_nat (hi - lo)))).
    set (tuples := list_prod (list_prod (list_prod (list_prod (rg 0 (num_periods sp)) (rg 0 (num_educ_levels sp)))
                      (list_prod (rg 0 3) (rg 0 (num_types sp))))
                    (list_prod (rg (-1) (child_age_max sp + 1)) (rg 0 2)))%Z
                   (list_prod (rg 0 3)%Z draws)).
    destruct (finite_constant tuples (fun '(t, e, (l, ty), (a, m), (c, (z, w))) L => in_space sp t e l ty a m ->
       forall x y, 0 <= x <= 1 -> 0 <= y <= 1 ->
       Rabs (flow sp mp true biased t e l ty a m y c z - flow sp mp true biased t e l ty a m x c z) <= L * Rabs (y - x))) as (L & HL & H).
    - intros [[[[t e] [l ty]] [a m]] [c [z w]]] _.
      destruct (Z_le_dec 0 t) as [?|?]; [|exists 0; split; [lra|intros (X & _); lia]].
      destruct (Z_lt_dec t (num_periods sp)) as [?|?]; [|exists 0; split; [lra|intros (X & _); lia]].
      destruct (Z_le_dec 0 m) as [?|?]; [|exists 0; split; [lra|intros (_ & _ & _ & _ & _ & X); lia]].
      destruct (Z_lt_dec m 2) as [?|?]; [|exists 0; split; [lra|intros (_ & _ & _ & _ & _ & X); lia]].
      destruct (Z_le_dec 0 e) as [?|?]; [|exists 0; split; [lra|intros (_ & X & _); lia]].
      destruct (Z_lt_dec e (num_educ_levels sp)) as [?|?]; [|exists 0; split; [lra|intros (_ & X & _); lia]].
      destruct (Z_le_dec 0 l) as [?|?]; [|exists 0; split; [lra|intros (_ & _ & X & _); lia]].
      destruct (Z_lt_dec l 3) as [?|?]; [|exists 0; split; [lra|intros (_ & _ & X & _); lia]].
      destruct (Z_le_dec 0 ty) as [?|?]; [|exists 0; split; [lra|intros (_ & _ & _ & X & _); lia]].
      destruct (Z_lt_dec ty (num_types sp)) as [?|?]; [|exists 0; split; [lra|intros (_ & _ & _ & X & _); lia]].
      destruct (Z_le_dec (-1) a) as [?|?]; [|exists 0; split; [lra|intros (_ & _ & _ & _ & X & _); lia]].
      destruct (Z_le_dec a (child_age_max sp)) as [?|?]; [|exists 0; split; [lra|intros (_ & _ & _ & _ & X & _); lia]].
      destruct (lip_flow t e l ty a m c z ltac:(unfold in_space; lia)) as (L & HL & HF).
      exists L. split; [assumption|]. intros _. exact HF.
    - intros [[[[t e] [l ty]] [a m]] [c [z w]]] L L' H HLL Hin x y Hx Hy. eapply Rle_trans; [apply H; assumption|].
      apply Rmult_le_compat_r; [apply Rabs_pos|assumption].
    - exists L. split; [assumption|]. unfold flows_lipschitz. rewrite Hr. intros t e l ty a m c z w Hin Hc Hz.
      pose proof Hin as (Ht & He & Hl & Hty & Ha & Hm).
      apply (H (t, e, (l, ty), (a, m), (c, (z, w)))); [|assumption]. unfold tuples.
      repeat (apply in_prod); try assumption; apply range_in; lia.
  Qed.
End Flow.

(** *** the solver *)
Lemma solver_grid_error sp mp biased zs ws pc pp L h :
  inputs_ok sp mp pc pp -> nonneg_weights zs ws -> average (fun _ => 1) (combine zs ws) = 1 ->
  probabilities sp pc pp -> spans_unit (exp_grid sp) -> mesh (exp_grid sp) h -> 0 <= delta mp -> 0 <= L ->
  flows_lipschitz L sp mp biased (combine zs ws) ->
  forall t e l ty a m g v, in_space sp t e l ty a m -> (g < List.length (exp_grid sp))%nat ->
  (solver_cell sp mp biased zs ws pc pp t e l ty a m g 3 = Ok v ->
   near (L * h * grid_error (delta mp) (remaining sp t))
     (exact_value sp mp (is_elterngeld sp) biased (combine zs ws) (child_fun pc) (partner_fun pp) (remaining sp t)
        t e l ty a m (nth g (exp_grid sp) 0)) v) /\
  (forall c, (0 <= c < 3)%Z -> solver_cell sp mp biased zs ws pc pp t e l ty a m g c = Ok v ->
   near (L * h * cont_error (delta mp) (remaining sp t))
     (exact_continuation sp mp (is_elterngeld sp) biased (combine zs ws) (child_fun pc) (partner_fun pp) (remaining sp t)
        t e ty a m c (nth g (exp_grid sp) 0)) v).
Proof.
  intros Hok Hw Hw1 Hp Hgu Hme Hd HL Hf t e l ty a m g v Hin Hg.
  assert (Hx : nth_error (exp_grid sp) g = Some (nth g (exp_grid sp) 0)) by (apply nth_error_nth'; lia).
  pose proof (remaining_eq _ _ _ _ _ _ _ Hin) as Hr.
  pose proof Hok as ((_ & _ & _ & Hca & Hie & Hgi & _) & _).
  assert (HB : births_ok sp (child_fun pc)) by (intros t' e' Ht' He'; apply (Hp t' e' Ht' He')).
  assert (HP : partners_ok sp (partner_fun pp)) by (intros t' e' m' Ht' He' Hm'; apply (Hp t' e' Ht' He'); assumption).
  destruct (grid_close sp mp biased (combine zs ws) (child_fun pc) (partner_fun pp) L Hca Hie Hd HL HB HP Hw Hw1 Hf h Hgi Hgu Hme
    (remaining sp t) t e l ty a m Hin Hr (nth g (exp_grid sp) 0)) as [A B].
  split.
  - intros Hv. rewrite (solver_emax _ _ _ _ _ _ _ Hok _ _ _ _ _ _ _ _ Hin Hx _ Hv). exact A.
  - intros c Hc Hv. rewrite (solver_cont _ _ _ _ _ _ _ Hok _ _ _ _ _ _ _ _ Hin Hx _ _ Hc Hv). apply B. assumption.
Qed.

Lemma geometric_nonneg d n : 0 <= d -> 0 <= geometric d n.
Proof. intros Hd. induction n as [|n IH]; cbn [geometric]; [lra|]. assert (0 <= d * geometric d n) by (apply Rmult_le_pos; lra). lra. Qed.
Lemma grid_error_pos d n : 0 <= d -> 0 <= grid_error d n.
Proof.
  intros Hd. induction n as [|n IH]; cbn [grid_error]; [lra|]. apply Rmult_le_pos; [assumption|].
  pose proof (geometric_nonneg d n Hd). lra.
Qed.
Lemma cont_error_pos d n : 0 <= d -> 0 <= cont_error d n.
Proof.
  intros Hd. destruct n; cbn [cont_error]; [lra|]. pose proof (geometric_nonneg d n Hd). pose proof (grid_error_pos d n Hd). lra.
Qed.

Lemma inputs_with_grid sp mp pc pp g : inputs_ok sp mp pc pp -> increasing g -> g <> [] -> inputs_ok (with_grid sp g) mp pc pp.
Proof.
  intros ((H1 & H2 & H3 & H4 & H5 & H6 & H7 & H8) & Hrest) Hg Hn.
  exact (conj (conj H1 (conj H2 (conj H3 (conj H4 (conj H5 (conj Hg (conj Hn H8))))))) Hrest).
Qed.
Lemma exact_with_grid sp mp el b draws pc pp g n t e l ty a m x :
  exact_value (with_grid sp g) mp el b draws pc pp n t e l ty a m x = exact_value sp mp el b draws pc pp n t e l ty a m x.
Proof. reflexivity. Qed.

(** finer grids: the tables approach the exact values *)
Lemma grids_converge sp mp biased zs ws pc pp L :
  inputs_ok sp mp pc pp -> nonneg_weights zs ws -> average (fun _ => 1) (combine zs ws) = 1 ->
  probabilities sp pc pp -> 0 <= delta mp -> 0 <= L -> flows_lipschitz L sp mp biased (combine zs ws) ->
  forall eps, 0 < eps -> exists h, 0 < h /\ forall g, increasing g -> spans_unit g -> mesh g h ->
  forall t e l ty a m k v, in_space sp t e l ty a m -> (k < List.length g)%nat ->
  (solver_cell (with_grid sp g) mp biased zs ws pc pp t e l ty a m k 3 = Ok v ->
   near eps (exact_value sp mp (is_elterngeld sp) biased (combine zs ws) (child_fun pc) (partner_fun pp) (remaining sp t)
      t e l ty a m (nth k g 0)) v) /\
  (forall c, (0 <= c < 3)%Z -> solver_cell (with_grid sp g) mp biased zs ws pc pp t e l ty a m k c = Ok v ->
   near eps (exact_continuation sp mp (is_elterngeld sp) biased (combine zs ws) (child_fun pc) (partner_fun pp) (remaining sp t)
      t e ty a m c (nth k g 0)) v).
Proof.
  intros Hok Hw Hw1 Hp Hd HL Hf eps Heps.
  destruct (max_over sp (grid_error (delta mp))) as (K & HK & HM).
  destruct (max_over sp (cont_error (delta mp))) as (K' & HK' & HM').
  set (Q := L * (K + K') + 1). assert (HQ : 0 <= L * (K + K')) by (apply Rmult_le_pos; lra).
  assert (HQ1 : 0 < Q) by (unfold Q; lra).
  exists (eps / Q). split; [apply Rdiv_lt_0_compat; lra|]. intros g Hgi Hgu Hme t e l ty a m k v Hin Hk.
  assert (Hn : g <> []) by (destruct Hgu as [Hn _]; intros ->; cbn in Hn; lia).
  destruct (solver_grid_error (with_grid sp g) mp biased zs ws pc pp L (eps / Q)
    (inputs_with_grid _ _ _ _ _ Hok Hgi Hn) Hw Hw1 Hp Hgu Hme Hd HL Hf t e l ty a m k v Hin Hk) as [A B].
  assert (S : forall E, 0 <= E <= K + K' -> L * (eps / Q) * E <= eps).
  { intros E HE. replace (L * (eps / Q) * E) with ((eps / Q) * (L * E)) by ring.
    apply Rle_trans with ((eps / Q) * Q); [|apply Req_le; field; lra].
    apply Rmult_le_compat_l; [left; apply Rdiv_lt_0_compat; lra|]. unfold Q.
    assert (L * E <= L * (K + K')) by (apply Rmult_le_compat_l; lra). lra. }
  specialize (HM t e l ty a m Hin). specialize (HM' t e l ty a m Hin).
  pose proof (grid_error_pos (delta mp) (remaining sp t) Hd). pose proof (cont_error_pos (delta mp) (remaining sp t) Hd).
  split.
  - intros Hv. eapply Rle_trans; [exact (A Hv)|]. apply S. change (remaining (with_grid sp g) t) with (remaining sp t). lra.
  - intros c Hc Hv. eapply Rle_trans; [exact (B c Hc Hv)|]. apply S. change (remaining (with_grid sp g) t) with (remaining sp t). lra.
Qed.

Lemma uniform_mesh n : (2 <= n)%nat -> mesh (uniform_grid n) (1 / INR (n - 1)).
Proof.
  intros Hn k Hk. rewrite uniform_grid_length in Hk. rewrite !uniform_grid_nth by lia. rewrite S_INR.
  apply Req_le. field. apply not_0_INR. lia.
Qed.
Lemma uniform_spans n : (2 <= n)%nat -> spans_unit (uniform_grid n).
Proof. intros Hn. unfold spans_unit. rewrite uniform_grid_length. split; [assumption|]. apply uniform_ends. assumption. Qed.
