(** Nearby economies have nearby values (C74 - C76). *)
From Coq Require Import Reals Lra Lia ZArith List Arith String.
From Verif Require Import Base Num M_Params L_Num S_Interp L_Interp S_StateSpace L_StateSpace
  S_Benefits S_Bellman L_Bellman S_Solver L_Value L_Solver S_Reform L_Mono L_Reform S_Stability.
Import ListNotations.
Open Scope R_scope.

Lemma chord_affine x0 x1 v0 v1 x k c : chord x0 x1 (k * v0 + c) (k * v1 + c) x = k * chord x0 x1 v0 v1 x + c.
Proof. unfold chord. ring. Qed.

Lemma interpolate_affine k c f x : forall g, g <> [] ->
  interpolate g (map (fun y => k * f y + c) g) x = k * interpolate g (map f g) x + c.
Proof.
  induction g as [|x0 g IH]; [congruence|]. intros _. destruct g as [|x1 g]; [reflexivity|].
  destruct g as [|x2 g]; [cbn [map interpolate]; apply chord_affine|].
  cbn [map] in IH |- *.
  change (interpolate (x0 :: x1 :: x2 :: g) (k * f x0 + c :: k * f x1 + c :: k * f x2 + c :: map (fun y => k * f y + c) g) x)
    with (if Rlt_dec x x1 then chord x0 x1 (k * f x0 + c) (k * f x1 + c) x
          else interpolate (x1 :: x2 :: g) (k * f x1 + c :: k * f x2 + c :: map (fun y => k * f y + c) g) x).
  change (interpolate (x0 :: x1 :: x2 :: g) (f x0 :: f x1 :: f x2 :: map f g) x)
    with (if Rlt_dec x x1 then chord x0 x1 (f x0) (f x1) x
          else interpolate (x1 :: x2 :: g) (f x1 :: f x2 :: map f g) x).
  destruct (Rlt_dec x x1); [apply chord_affine|]. apply IH. discriminate.
Qed.

Lemma average_affine k c f l : average (fun _ => 1) l = 1 ->
  average (fun z => k * f z + c) l = k * average f l + c.
Proof.
  intros H. assert (E : average (fun z => k * f z + c) l = k * average f l + c * average (fun _ => 1) l).
  { clear H. induction l as [|[z w] l IH]; cbn [average]; [ring|]. rewrite IH. ring. }
  rewrite E, H. ring.
Qed.



(** *** flows below an affine function of the other's flows *)
Section Affine.
  Variables sp sp' : model_spec R.
  Variables mp mp' : model_params R.
  Variables eg eg' b : bool.
  Variable draws : list (R * R).
  Variable pc : Z -> Z -> R.
  Variable pp : Z -> Z -> Z -> Z -> R.
  Hypothesis Hfr : same_frame sp sp' mp mp'.
  Hypothesis Hdelta : delta mp' = delta mp.
  Hypothesis Hca : (0 <= child_age_max sp)%Z.
  Hypothesis Hgi : S_Interp.increasing (exp_grid sp).
  Hypothesis Hgu : spans_unit (exp_grid sp).
  Hypothesis Hpc : forall t e, (0 <= t < num_periods sp - 1)%Z -> (0 <= e < num_educ_levels sp)%Z -> 0 <= pc t e <= 1.
  Hypothesis Hpp : forall t e m, (0 <= t < num_periods sp - 1)%Z -> (0 <= e < num_educ_levels sp)%Z ->
    (0 <= m < 2)%Z -> 0 <= pp t e m 0 /\ 0 <= pp t e m 1 /\ pp t e m 0 + pp t e m 1 = 1.
  Hypothesis Hd : 0 <= delta mp.
  Hypothesis Hw : forall z w, In (z, w) draws -> 0 <= w.
  Hypothesis Hw1 : average (fun _ => 1) draws = 1.
  Variables k c0 : R.
  Hypothesis Hk : 0 <= k.
  Hypothesis Hflow : forall t e l ty a m x c z w, in_space sp t e l ty a m -> In x (exp_grid sp) -> (0 <= c < 3)%Z ->
    In (z, w) draws ->
    flow sp mp eg b t e l ty a m x c z <= k * flow sp' mp' eg' b t e l ty a m x c z + c0.
  Notation V := (value sp mp eg b draws pc pp).
  Notation V' := (value sp' mp' eg' b draws pc pp).
  Notation C := (continuation sp mp eg b draws pc pp).
  Notation C' := (continuation sp' mp' eg' b draws pc pp).

  Lemma stock_frame t e a c x : stock_next sp' mp' b t e a c x = stock_next sp mp b t e a c x.
  Proof.
    unfold stock_next, pt_credit. rewrite (fr_init _ _ _ _ Hfr), (fr_credit _ _ _ _ Hfr), (fr_credit_mom _ _ _ _ Hfr).
    reflexivity.
  Qed.

  Lemma pp_nonneg t e m m' : (0 <= t < num_periods sp - 1)%Z -> (0 <= e < num_educ_levels sp)%Z ->
    (0 <= m < 2)%Z -> (0 <= m' < 2)%Z -> 0 <= pp t e m m'.
  Proof.
    intros Ht He Hm Hm'. destruct (Hpp t e m Ht He Hm) as (A & B & _).
    assert (m' = 0 \/ m' = 1)%Z as [-> | ->] by lia; assumption.
  Qed.

  Lemma expected_frame v t e ty a m c x :
    expected_next sp' mp' b pc pp v t e ty a m c x = expected_next sp mp b pc pp v t e ty a m c x.
  Proof.
    unfold expected_next. cbv zeta. rewrite stock_frame, (fr_grid _ _ _ _ Hfr).
    unfold aged. rewrite (fr_age_max _ _ _ _ Hfr). reflexivity.
  Qed.

  Lemma expected_affine q v t e ty a m c x : (0 <= t < num_periods sp - 1)%Z ->
    (0 <= e < num_educ_levels sp)%Z -> (0 <= m < 2)%Z ->
    expected_next sp mp b pc pp (fun t e l ty a m x => k * v t e l ty a m x + q) t e ty a m c x
    = k * expected_next sp mp b pc pp v t e ty a m c x + q.
  Proof.
    intros Ht He Hm. unfold expected_next. cbv zeta. rewrite !interpolate_affine by (apply Hgn; assumption).
    destruct (Hpp t e m Ht He Hm) as (_ & _ & E). replace (pp t e m 1) with (1 - pp t e m 0) by lra. ring.
  Qed.

  Lemma affine_step t e l ty a m x z w (j j' : Z -> R) h : in_space sp t e l ty a m -> In x (exp_grid sp) ->
    In (z, w) draws -> (forall c, (0 <= c < 3)%Z -> j c <= k * j' c + h) ->
    best3 (fun c => flow sp mp eg b t e l ty a m x c z + delta mp * j c)
    <= k * best3 (fun c => flow sp' mp' eg' b t e l ty a m x c z + delta mp' * j' c) + (c0 + delta mp * h).
  Proof.
    intros Hin Hx Hz Hj. apply best3_le. intros c Hc.
    pose proof (Hflow t e l ty a m x c z w Hin Hx Hc Hz) as Hf. pose proof (Hj c Hc) as Hjc.
    pose proof (best3_ge (fun c => flow sp' mp' eg' b t e l ty a m x c z + delta mp' * j' c) c Hc) as Hb. cbv beta in Hb.
    rewrite Hdelta in *.
    assert (delta mp * j c <= delta mp * (k * j' c + h)) by (apply Rmult_le_compat_l; assumption).
    pose proof (Rmult_le_compat_l k _ _ Hk Hb). nra.
  Qed.

  Lemma affine_values n : forall t e l ty a m x, in_space sp t e l ty a m ->
    (t + Z.of_nat n = num_periods sp - 1)%Z -> In x (exp_grid sp) ->
    V n t e l ty a m x <= k * V' n t e l ty a m x + c0 * geometric (delta mp) n
    /\ forall c, (0 <= c < 3)%Z ->
       C n t e ty a m c x <= k * C' n t e ty a m c x
         + match n with O => 0 | S n' => c0 * geometric (delta mp) n' end.
  Proof.
    induction n as [|n IH]; intros t e l ty a m x Hin Hn Hx.
    - split; [|intros c Hc; cbn [continuation]; lra].
      rewrite !value_eq. rewrite <- average_affine by assumption.
      apply average_le_in; [assumption|]. intros z w Hz. cbn [geometric continuation].
      eapply Rle_trans; [apply (affine_step t e l ty a m x z w (fun _ => 0) (fun _ => 0) 0); try eassumption; intros; lra|].
      apply Req_le. ring.
    - assert (K : forall c, (0 <= c < 3)%Z ->
        C (S n) t e ty a m c x <= k * C' (S n) t e ty a m c x + c0 * geometric (delta mp) n).
      { intros c Hc. cbn [continuation]. rewrite expected_frame.
        destruct Hin as (Ht & He & Hl & Hty & Ha & Hm).
        rewrite <- expected_affine by (assumption || lia).
        apply expected_mono; try assumption; try lia.
        - intros. apply pp_nonneg; assumption.
        - intros age m' y Hag Hm' Hy. apply IH; [|lia|assumption].
          pose proof (aged_range sp Hca a Ha). unfold in_space. repeat split; lia. }
      split; [|exact K].
      rewrite !value_eq. rewrite <- average_affine by assumption.
      apply average_le_in; [assumption|]. intros z w Hz.
      eapply Rle_trans; [apply (affine_step t e l ty a m x z w _ _ _ Hin Hx Hz K)|].
      apply Req_le. cbn [geometric]. ring.
  Qed.
End Affine.

Lemma frame_sym sp sp' mp mp' : same_frame sp sp' mp mp' -> same_frame sp' sp mp' mp.
Proof. intros []. split; congruence. Qed.
Lemma in_space_frame sp sp' mp mp' t e l ty a m : same_frame sp sp' mp mp' ->
  in_space sp t e l ty a m -> in_space sp' t e l ty a m.
Proof.
  intros H. unfold in_space.
  rewrite (fr_periods _ _ _ _ H), (fr_educ _ _ _ _ H), (fr_types _ _ _ _ H), (fr_age_max _ _ _ _ H). auto.
Qed.
Lemma remaining_frame sp sp' mp mp' t : same_frame sp sp' mp mp' -> remaining sp' t = remaining sp t.
Proof. intros H. unfold remaining. rewrite (fr_periods _ _ _ _ H). reflexivity. Qed.
Lemma probabilities_frame sp sp' mp mp' pc pp : same_frame sp sp' mp mp' ->
  probabilities sp pc pp -> probabilities sp' pc pp.
Proof. intros H. unfold probabilities. rewrite (fr_periods _ _ _ _ H), (fr_educ _ _ _ _ H). auto. Qed.

Lemma Rabs_le_inv x r : Rabs x <= r -> - r <= x <= r.
Proof. unfold Rabs. destruct (Rcase_abs x); lra. Qed.

Section Tables.
  Variables sp sp' : model_spec R.
  Variables mp mp' : model_params R.
  Variable biased : bool.
  Variables zs ws : list R.
  Variable pc : list (list R).
  Variable pp : list (list (list (R * R))).
  Hypothesis Hok : inputs_ok sp mp pc pp.
  Hypothesis Hok' : inputs_ok sp' mp' pc pp.
  Hypothesis Hfr : same_frame sp sp' mp mp'.
  Hypothesis Hdelta : delta mp' = delta mp.
  Hypothesis Hw : nonneg_weights zs ws.
  Hypothesis Hw1 : average (fun _ => 1) (combine zs ws) = 1.
  Hypothesis Hp : probabilities sp pc pp.
  Hypothesis Hgu : spans_unit (exp_grid sp).
  Hypothesis Hd : 0 <= delta mp.

  Lemma table_affine k c0 : 0 <= k ->
    (forall t e l ty a m x c z w, in_space sp t e l ty a m -> In x (exp_grid sp) -> (0 <= c < 3)%Z ->
       In (z, w) (combine zs ws) ->
       flow sp mp (is_elterngeld sp) biased t e l ty a m x c z
       <= k * flow sp' mp' (is_elterngeld sp') biased t e l ty a m x c z + c0) ->
    forall t e l ty a m g, in_space sp t e l ty a m -> (g < List.length (exp_grid sp))%nat ->
    (forall v v', solver_cell sp mp biased zs ws pc pp t e l ty a m g 3 = Ok v ->
       solver_cell sp' mp' biased zs ws pc pp t e l ty a m g 3 = Ok v' ->
       v <= k * v' + c0 * geometric (delta mp) (remaining sp t)) /\
    (forall c v v', (0 <= c < 3)%Z -> solver_cell sp mp biased zs ws pc pp t e l ty a m g c = Ok v ->
       solver_cell sp' mp' biased zs ws pc pp t e l ty a m g c = Ok v' ->
       v <= k * v' + match remaining sp t with O => 0 | S n => c0 * geometric (delta mp) n end).
  Proof.
    intros Hk Hf t e l ty a m g Hin Hg.
    assert (Hx : nth_error (exp_grid sp) g = Some (nth g (exp_grid sp) 0)) by (apply nth_error_nth'; lia).
    assert (Hx' : nth_error (exp_grid sp') g = Some (nth g (exp_grid sp) 0)) by (rewrite (fr_grid _ _ _ _ Hfr); assumption).
    pose proof (in_space_frame _ _ _ _ _ _ _ _ _ _ Hfr Hin) as Hin'.
    pose proof (solver_emax _ _ biased zs ws _ _ Hok _ _ _ _ _ _ _ _ Hin Hx) as A.
    pose proof (solver_emax _ _ biased zs ws _ _ Hok' _ _ _ _ _ _ _ _ Hin' Hx') as A'.
    pose proof (solver_cont _ _ biased zs ws _ _ Hok _ _ _ _ _ _ _ _ Hin Hx) as B.
    pose proof (solver_cont _ _ biased zs ws _ _ Hok' _ _ _ _ _ _ _ _ Hin' Hx') as B'.
    rewrite (remaining_frame _ _ _ _ t Hfr) in A', B'.
    pose proof (remaining_eq _ _ _ _ _ _ _ Hin) as Hr.
    destruct Hok as ((_ & _ & _ & Hca & _ & Hgi & _) & _).
    destruct (affine_values sp sp' mp mp' (is_elterngeld sp) (is_elterngeld sp') biased (combine zs ws)
      (child_fun pc) (partner_fun pp) Hfr Hdelta Hca Hgi Hgu
      (fun t e Ht He => proj1 (Hp t e Ht He)) (fun t e m Ht He Hm => proj2 (Hp t e Ht He) m Hm)
      Hd Hw Hw1 k c0 Hk Hf (remaining sp t) t e l ty a m (nth g (exp_grid sp) 0) Hin Hr
      (nth_error_In _ _ Hx)) as [I J].
    split.
    - intros v v' Hv Hv'. rewrite (A v Hv), (A' v' Hv'). exact I.
    - intros c v v' Hc Hv Hv'. rewrite (B c v Hc Hv), (B' c v' Hc Hv'). exact (J c Hc).
  Qed.
End Tables.

(** *** C74 *)
Lemma solver_stability sp sp' mp mp' biased zs ws pc pp eps :
  inputs_ok sp mp pc pp -> inputs_ok sp' mp' pc pp -> same_frame sp sp' mp mp' -> delta mp' = delta mp ->
  nonneg_weights zs ws -> average (fun _ => 1) (combine zs ws) = 1 ->
  probabilities sp pc pp -> spans_unit (exp_grid sp) -> 0 <= delta mp ->
  (forall t e l ty a m x c z w, in_space sp t e l ty a m -> In x (exp_grid sp) -> (0 <= c < 3)%Z ->
     In (z, w) (combine zs ws) ->
     near eps (flow sp mp (is_elterngeld sp) biased t e l ty a m x c z)
              (flow sp' mp' (is_elterngeld sp') biased t e l ty a m x c z)) ->
  forall t e l ty a m g, in_space sp t e l ty a m -> (g < List.length (exp_grid sp))%nat ->
  (forall v v', solver_cell sp mp biased zs ws pc pp t e l ty a m g 3 = Ok v ->
     solver_cell sp' mp' biased zs ws pc pp t e l ty a m g 3 = Ok v' ->
     near (eps * geometric (delta mp) (remaining sp t)) v v') /\
  (forall c v v', (0 <= c < 3)%Z -> solver_cell sp mp biased zs ws pc pp t e l ty a m g c = Ok v ->
     solver_cell sp' mp' biased zs ws pc pp t e l ty a m g c = Ok v' ->
     near (match remaining sp t with O => 0 | S n => eps * geometric (delta mp) n end) v v').
Proof.
  intros Hok Hok' Hfr Hde Hw Hw1 Hp Hgu Hd Hf t e l ty a m g Hin Hg.
  destruct (table_affine sp sp' mp mp' biased zs ws pc pp Hok Hok' Hfr Hde Hw Hw1 Hp Hgu Hd 1 eps ltac:(lra))
    with (t := t) (e := e) (l := l) (ty := ty) (a := a) (m := m) (g := g) as [A B]; try assumption.
  { intros. pose proof (Hf t0 e0 l0 ty0 a0 m0 x c z w H H0 H1 H2) as N. unfold near in N.
    apply Rabs_le_inv in N. lra. }
  pose proof (frame_sym _ _ _ _ Hfr) as Hfr'.
  destruct (table_affine sp' sp mp' mp biased zs ws pc pp Hok' Hok Hfr' (eq_sym Hde) Hw Hw1
     (probabilities_frame _ _ _ _ _ _ Hfr Hp)) with (k := 1) (c0 := eps) (t := t) (e := e) (l := l) (ty := ty) (a := a) (m := m) (g := g)
     as [A' B']; try assumption.
  { rewrite (fr_grid _ _ _ _ Hfr). assumption. }
  { rewrite Hde. assumption. }
  { lra. }
  { intros. apply (in_space_frame _ _ _ _ _ _ _ _ _ _ Hfr') in H. rewrite (fr_grid _ _ _ _ Hfr) in H0.
    pose proof (Hf t0 e0 l0 ty0 a0 m0 x c z w H H0 H1 H2) as N. unfold near in N.
    apply Rabs_le_inv in N. lra. }
  { eapply in_space_frame; eassumption. }
  { rewrite (fr_grid _ _ _ _ Hfr). assumption. }
  rewrite (remaining_frame _ _ _ _ t Hfr), Hde in A', B'. split.
  - intros v v' Hv Hv'. pose proof (A v v' Hv Hv'). pose proof (A' v' v Hv' Hv). unfold near. apply Rabs_le. lra.
  - intros c v v' Hc Hv Hv'. pose proof (B c v v' Hc Hv Hv'). pose proof (B' c v' v Hc Hv' Hv).
    unfold near. apply Rabs_le. lra.
Qed.

(** *** C75 *)
Lemma near_sym r x y : near r x y -> near r y x.
Proof. unfold near. rewrite Rabs_minus_sym. auto. Qed.
Lemma near_tastes_sym r sp mp mp' : near_tastes r sp mp mp' -> near_tastes r sp mp' mp.
Proof. intros []. split; intros; try (apply near_sym; auto; fail); auto; congruence. Qed.
Lemma tastes_frame r sp mp mp' : near_tastes r sp mp mp' -> same_frame sp sp mp mp'.
Proof. intros []. split; auto. Qed.

Lemma leisure_near r sp mp mp' e ty a c : near_tastes r sp mp mp' ->
  (0 <= e < num_educ_levels sp)%Z -> (0 <= ty < num_types sp)%Z ->
  leisure mp' e ty a c <= exp (5 * r) * leisure mp e ty a c.
Proof.
  intros Hn He Hty.
  pose proof (nt_theta_p _ _ _ _ Hn ty Hty) as N1. pose proof (nt_theta_f _ _ _ _ Hn ty Hty) as N2.
  pose proof (nt_no_kids_f _ _ _ _ Hn e He) as N3. pose proof (nt_no_kids_p _ _ _ _ Hn e He) as N4.
  pose proof (nt_yes_kids_f _ _ _ _ Hn e He) as N5. pose proof (nt_yes_kids_p _ _ _ _ Hn e He) as N6.
  destruct Hn as [_ _ _ _ _ _ N7 N8 N9 N10 N11 N12 _ _ _ _ _ _ _].
  unfold near, at_ in *.
  repeat match goal with H : Rabs _ <= r |- _ => apply Rabs_le_inv in H end.
  assert (0 <= r) by lra.
  unfold leisure, part_time_term, full_time_term, at_. cbv zeta.
  repeat match goal with |- context [if ?c then _ else _] => destruct c end;
    rewrite <- exp_plus; apply exp_le'; lra.
Qed.

Lemma flow_near r sp mp mp' eg b t e l ty a m x c z : near_tastes r sp mp mp' ->
  in_space sp t e l ty a m -> 0 <= r ->
  (0 < mu mp -> flow sp mp' eg b t e l ty a m x c z <= exp (5 * r) * flow sp mp eg b t e l ty a m x c z) /\
  (mu mp < 0 -> exp (5 * r) * flow sp mp eg b t e l ty a m x c z <= flow sp mp' eg b t e l ty a m x c z).
Proof.
  intros Hn (Ht & He & Hl & Hty & Ha & Hm) Hr.
  pose proof (leisure_near r sp mp mp' e ty a c Hn He Hty) as L.
  assert (E1 : 1 <= exp (5 * r)) by (rewrite <- exp_0; apply exp_le'; lra).
  assert (W : hourly_wage sp mp' b t e a x = hourly_wage sp mp b t e a x).
  { unfold hourly_wage, pt_credit. rewrite (nt_gamma_0 _ _ _ _ Hn), (nt_gamma_1 _ _ _ _ Hn),
      (nt_gamma_p _ _ _ _ Hn), (nt_gamma_p_mom _ _ _ _ Hn). reflexivity. }
  unfold flow. cbv zeta. rewrite W, (nt_mu _ _ _ _ Hn), (nt_sd _ _ _ _ Hn).
  destruct (c =? 0)%Z.
  - match goal with |- context [crra ?u ?v] => set (y := v) end. split; intros Hmu.
    + pose proof (crra_nonneg (mu mp) y Hmu). nra.
    + pose proof (crra_nonpos (mu mp) y Hmu). nra.
  - match goal with |- context [crra ?u ?v] => set (y := v) end. split; intros Hmu.
    + pose proof (crra_nonneg (mu mp) y Hmu). nra.
    + pose proof (crra_nonpos (mu mp) y Hmu). nra.
Qed.

Lemma factor_of_bounds k x y : 1 <= k -> y <= k * x -> x <= k * y -> within_factor k x y.
Proof.
  intros Hk H1 H2. assert (Hi : 0 < / k) by (apply Rinv_0_lt_compat; lra).
  assert (Ik : k * / k = 1) by (field; lra).
  destruct (Req_dec k 1) as [-> | Nk].
  { exists 1. rewrite Rinv_1. split; [lra|]. lra. }
  assert (K : x <= k * (k * x)).
  { eapply Rle_trans; [apply H2|]. apply Rmult_le_compat_l; lra. }
  assert (0 <= x).
  { destruct (Rle_lt_dec 0 x) as [|Hx]; [assumption|exfalso].
    assert (k * x < x) by nra. assert (k * (k * x) < k * x) by (apply Rmult_lt_compat_l; lra). lra. }
  destruct (Req_dec x 0) as [-> | Nx].
  { exists 1. split; [split; [nra|lra]|]. nra. }
  exists (y / x). split; [split|field; lra].
  - apply Rmult_le_reg_r with x; [lra|]. replace (y / x * x) with y by (field; lra). nra.
  - apply Rmult_le_reg_r with x; [lra|]. replace (y / x * x) with y by (field; lra). lra.
Qed.

Lemma solver_tastes r sp mp mp' biased zs ws pc pp :
  inputs_ok sp mp pc pp -> inputs_ok sp mp' pc pp -> near_tastes r sp mp mp' -> mu mp <> 0 ->
  nonneg_weights zs ws -> average (fun _ => 1) (combine zs ws) = 1 ->
  probabilities sp pc pp -> spans_unit (exp_grid sp) -> 0 <= delta mp ->
  forall t e l ty a m g c v v', in_space sp t e l ty a m -> (g < List.length (exp_grid sp))%nat -> (0 <= c < 4)%Z ->
  solver_cell sp mp biased zs ws pc pp t e l ty a m g c = Ok v ->
  solver_cell sp mp' biased zs ws pc pp t e l ty a m g c = Ok v' -> within_factor (exp (5 * r)) v v'.
Proof.
  intros Hok Hok' Hn Hmu Hw Hw1 Hp Hgu Hd t e l ty a m g c v v' Hin Hg Hc Hv Hv'.
  assert (Hr : 0 <= r).
  { pose proof (nt_child_0_2_f _ _ _ _ Hn) as N. unfold near in N. pose proof (Rabs_pos (child_0_2_f mp' - child_0_2_f mp)). lra. }
  pose proof (exp_pos (5 * r)) as Ep. set (k := exp (5 * r)) in *.
  assert (E1 : 1 <= k) by (subst k; rewrite <- exp_0; apply exp_le'; lra).
  assert (Hki : 0 < / k) by (apply Rinv_0_lt_compat; assumption).
  pose proof (near_tastes_sym _ _ _ _ Hn) as Hn'.
  assert (G : forall q mp1 mp2, 0 <= q -> near_tastes r sp mp1 mp2 -> inputs_ok sp mp1 pc pp -> inputs_ok sp mp2 pc pp ->
    0 <= delta mp1 ->
    (forall t e l ty a m x c z, in_space sp t e l ty a m ->
       flow sp mp1 (is_elterngeld sp) biased t e l ty a m x c z
       <= q * flow sp mp2 (is_elterngeld sp) biased t e l ty a m x c z) ->
    forall u u', solver_cell sp mp1 biased zs ws pc pp t e l ty a m g c = Ok u ->
    solver_cell sp mp2 biased zs ws pc pp t e l ty a m g c = Ok u' -> u <= q * u').
  { intros q mp1 mp2 Hq N O1 O2 D1 F u u' Hu Hu'.
    destruct (table_affine sp sp mp1 mp2 biased zs ws pc pp O1 O2 (tastes_frame _ _ _ _ N)
      (nt_delta _ _ _ _ N) Hw Hw1 Hp Hgu D1 q 0 Hq) with (t := t) (e := e) (l := l) (ty := ty) (a := a) (m := m) (g := g)
      as [A B]; try assumption.
    { intros. rewrite Rplus_0_r. apply F. assumption. }
    destruct (Z.eq_dec c 3) as [-> | Nc]; [pose proof (A u u' Hu Hu'); lra|].
    pose proof (B c u u' ltac:(lia) Hu Hu') as H1. destruct (remaining sp t); lra. }
  assert (D : delta mp' = delta mp) by (apply Hn).
  assert (M : mu mp' = mu mp) by (apply Hn).
  assert (Q : forall x y, k * x <= y -> x <= / k * y).
  { intros x y H. apply Rmult_le_reg_l with k; [assumption|]. replace (k * (/ k * y)) with y by (field; lra). assumption. }
  assert (Q' : forall x y, x <= / k * y -> k * x <= y).
  { intros x y H. apply Rmult_le_compat_l with (r := k) in H; [|lra]. replace (k * (/ k * y)) with y in H by (field; lra). assumption. }
  destruct (Rlt_dec 0 (mu mp)) as [Hpos | Hneg].
  - apply factor_of_bounds; [assumption| |].
    + apply (G k mp' mp); try assumption; try lra. intros. apply flow_near; assumption.
    + apply (G k mp mp'); try assumption; try lra. intros. eapply flow_near; try eassumption. lra.
  - assert (Hneg' : mu mp < 0) by lra.
    assert (A : k * v <= v').
    { apply Q'. apply (G (/ k) mp mp'); try assumption; try lra. intros. apply Q. eapply flow_near; eassumption. }
    assert (B : k * v' <= v).
    { apply Q'. apply (G (/ k) mp' mp); try assumption; try lra. intros. apply Q. eapply flow_near; try eassumption. lra. }
    destruct (factor_of_bounds k (- v) (- v') E1) as (f & Hf & E); [lra|lra|]. exists f. split; [assumption|lra].
Qed.

(** *** C76 *)
Lemma geometric_sum d n : geometric d n = sum_f_R0 (fun i => d ^ i) n.
Proof.
  induction n as [|n IH]; [cbn; ring|].
  cbn [geometric]. rewrite IH. clear IH.
  rewrite (decomp_sum (fun i => d ^ i) (S n)) by lia. cbn [Nat.pred pow]. rewrite scal_sum. f_equal.
  apply sum_eq. intros i _. ring.
Qed.

Lemma best3_near r q q' : (forall c, (0 <= c < 3)%Z -> near r (q c) (q' c)) -> near r (best3 q) (best3 q').
Proof.
  intros H. unfold near in *. apply Rabs_le.
  assert (best3 q' <= best3 q + r).
  { apply best3_le. intros c Hc. pose proof (Rabs_le_inv _ _ (H c Hc)). pose proof (best3_ge q c Hc). lra. }
  assert (best3 q <= best3 q' + r).
  { apply best3_le. intros c Hc. pose proof (Rabs_le_inv _ _ (H c Hc)). pose proof (best3_ge q' c Hc). lra. }
  lra.
Qed.

Lemma average_near r f f' l : (forall z w, In (z, w) l -> 0 <= w) -> average (fun _ => 1) l = 1 ->
  (forall z w, In (z, w) l -> near r (f z) (f' z)) -> near r (average f l) (average f' l).
Proof.
  intros Hw H1 H. unfold near in *. apply Rabs_le.
  assert (average f' l <= 1 * average f l + r).
  { rewrite <- average_affine by assumption. apply average_le_in; [assumption|].
    intros z w Hz. pose proof (Rabs_le_inv _ _ (H z w Hz)). lra. }
  assert (average f l <= 1 * average f' l + r).
  { rewrite <- average_affine by assumption. apply average_le_in; [assumption|].
    intros z w Hz. pose proof (Rabs_le_inv _ _ (H z w Hz)). lra. }
  lra.
Qed.

Section Others.
  Variable sp : model_spec R.
  Variable mp : model_params R.
  Variables eg b : bool.
  Variable draws : list (R * R).
  Variables pc pc' : Z -> Z -> R.
  Variables pp pp' : Z -> Z -> Z -> Z -> R.
  Definition births_ok (pc : Z -> Z -> R) : Prop :=
    forall t e, (0 <= t < num_periods sp - 1)%Z -> (0 <= e < num_educ_levels sp)%Z -> 0 <= pc t e <= 1.
  Definition partners_ok (pp : Z -> Z -> Z -> Z -> R) : Prop :=
    forall t e m, (0 <= t < num_periods sp - 1)%Z -> (0 <= e < num_educ_levels sp)%Z ->
    (0 <= m < 2)%Z -> 0 <= pp t e m 0%Z /\ 0 <= pp t e m 1%Z /\ pp t e m 0%Z + pp t e m 1%Z = 1.
  Hypothesis Hca : (0 <= child_age_max sp)%Z.
  Hypothesis Hgi : S_Interp.increasing (exp_grid sp).
  Hypothesis Hgu : spans_unit (exp_grid sp).
  Hypothesis Hpc : births_ok pc.
  Hypothesis Hpp : partners_ok pp.
  Hypothesis Hpc' : births_ok pc'.
  Hypothesis Hpp' : partners_ok pp'.
  Hypothesis Hw : forall z w, In (z, w) draws -> 0 <= w.
  Hypothesis Hw1 : average (fun _ => 1) draws = 1.
  Variable B : R.
  Hypothesis Hf : forall t e l ty a m x c z w, in_space sp t e l ty a m -> In x (exp_grid sp) -> (0 <= c < 3)%Z ->
    In (z, w) draws -> - B <= flow sp mp eg b t e l ty a m x c z <= B.

  Lemma expected_near r v v' t e ty a m c x : (0 <= t < num_periods sp - 1)%Z ->
    (0 <= e < num_educ_levels sp)%Z -> (0 <= m < 2)%Z ->
    (forall age m' y, (age = aged sp a \/ age = 0)%Z -> (0 <= m' < 2)%Z -> In y (exp_grid sp) ->
       near r (v (t + 1)%Z e c ty age m' y) (v' (t + 1)%Z e c ty age m' y)) ->
    near r (expected_next sp mp b pc pp v t e ty a m c x) (expected_next sp mp b pc pp v' t e ty a m c x).
  Proof.
    intros Ht He Hm H.
    assert (M : forall m', (0 <= m' < 2)%Z -> 0 <= pp t e m m') by (intros; apply (pp_nonneg sp pp Hpp); assumption).
    assert (X : forall u u', (forall age m' y, (age = aged sp a \/ age = 0)%Z -> (0 <= m' < 2)%Z -> In y (exp_grid sp) ->
       u (t + 1)%Z e c ty age m' y <= u' (t + 1)%Z e c ty age m' y + r) ->
       expected_next sp mp b pc pp u t e ty a m c x <= expected_next sp mp b pc pp u' t e ty a m c x + r).
    { intros u u' Hu.
      pose proof (expected_affine sp mp b pc pp Hgu Hpp 1 r u' t e ty a m c x Ht He Hm) as E. rewrite Rmult_1_l in E.
      rewrite <- E. apply expected_mono; try assumption.
      - intros. apply (pp_nonneg sp pp Hpp); assumption.
      - intros age m' y Hag Hm' Hy. rewrite Rmult_1_l. apply Hu; assumption. }
    unfold near. apply Rabs_le.
    assert (expected_next sp mp b pc pp v t e ty a m c x <= expected_next sp mp b pc pp v' t e ty a m c x + r).
    { apply X. intros age m' y Hag Hm' Hy. pose proof (Rabs_le_inv _ _ (H age m' y Hag Hm' Hy)). lra. }
    assert (expected_next sp mp b pc pp v' t e ty a m c x <= expected_next sp mp b pc pp v t e ty a m c x + r).
    { apply X. intros age m' y Hag Hm' Hy. pose proof (Rabs_le_inv _ _ (H age m' y Hag Hm' Hy)). lra. }
    lra.
  Qed.

  Lemma expected_within r v t e ty a m c x : (0 <= t < num_periods sp - 1)%Z ->
    (0 <= e < num_educ_levels sp)%Z -> (0 <= m < 2)%Z ->
    (forall age m' y, (age = aged sp a \/ age = 0)%Z -> (0 <= m' < 2)%Z -> In y (exp_grid sp) ->
       - r <= v (t + 1)%Z e c ty age m' y <= r) ->
    - r <= expected_next sp mp b pc pp v t e ty a m c x <= r.
  Proof.
    intros Ht He Hm H.
    pose proof (expected_near r (fun _ _ _ _ _ _ _ => 0) v t e ty a m c x Ht He Hm) as N.
    rewrite (expected_zero sp mp b pc pp Hgi Hgu) in N.
    assert (Q : near r 0 (expected_next sp mp b pc pp v t e ty a m c x)).
    { apply N. intros age m' y Hag Hm' Hy. unfold near. apply Rabs_le. pose proof (H age m' y Hag Hm' Hy). lra. }
    apply Rabs_le_inv in Q. lra.
  Qed.

  (** another discount factor *)
  Variable d' : R.
  Hypothesis Hd : 0 <= delta mp <= d'.
  Notation V := (value sp mp eg b draws pc pp).
  Notation Vd := (value sp (with_delta mp d') eg b draws pc pp).

  Lemma B_nonneg t e l ty a m x : in_space sp t e l ty a m -> In x (exp_grid sp) -> 0 <= B.
  Proof.
    intros Hin Hx. destruct draws as [|[z w] l0] eqn:E; [cbn in Hw1; lra|].
    pose proof (Hf t e l ty a m x 0%Z z w Hin Hx ltac:(lia) (or_introl eq_refl)). lra.
  Qed.

  Lemma patient_values n : forall t e l ty a m x, in_space sp t e l ty a m ->
    (t + Z.of_nat n = num_periods sp - 1)%Z -> In x (exp_grid sp) ->
    near (B * (geometric d' n - geometric (delta mp) n)) (V n t e l ty a m x) (Vd n t e l ty a m x).
  Proof.
    induction n as [|n IH]; intros t e l ty a m x Hin Hn Hx; rewrite !value_eq;
      (apply average_near; [assumption|assumption|]); intros z w Hz; apply best3_near; intros c Hc;
      change (flow sp (with_delta mp d') eg b t e l ty a m x c z) with (flow sp mp eg b t e l ty a m x c z);
      cbn [geometric continuation delta with_delta].
    - unfold near. match goal with |- Rabs ?u <= _ => replace u with 0 by ring end. rewrite Rabs_R0. lra.
    - pose proof Hin as (Ht & He & Hl & Hty & Ha & Hm).
      assert (S : forall age m', (age = aged sp a \/ age = 0)%Z -> (0 <= m' < 2)%Z -> in_space sp (t + 1) e c ty age m').
      { intros age m' Hag Hm'. pose proof (aged_range sp Hca a Ha). unfold in_space. repeat split; lia. }
      change (expected_next sp (with_delta mp d') b pc pp (Vd n) t e ty a m c x)
        with (expected_next sp mp b pc pp (Vd n) t e ty a m c x).
      assert (N : near (B * (geometric d' n - geometric (delta mp) n))
        (expected_next sp mp b pc pp (V n) t e ty a m c x) (expected_next sp mp b pc pp (Vd n) t e ty a m c x)).
      { apply expected_near; try assumption; [lia|]. intros age m' y Hag Hm' Hy. apply IH; [auto|lia|assumption]. }
      assert (W : - (B * geometric d' n) <= expected_next sp mp b pc pp (Vd n) t e ty a m c x <= B * geometric d' n).
      { apply expected_within; try assumption; [lia|]. intros age m' y Hag Hm' Hy.
        pose proof (value_bounds sp (with_delta mp d') eg b draws pc pp (- B) B Hgi Hgu Hca Hpc Hpp
          ltac:(cbn [delta with_delta]; lra) Hw Hw1 Hf n (t + 1)%Z e c ty age m' y (S age m' Hag Hm') ltac:(lia) Hy) as Q.
        cbn [delta with_delta] in Q. lra. }
      unfold near in *. apply Rabs_le_inv in N. apply Rabs_le.
      pose proof (B_nonneg t e l ty a m x Hin Hx).
      set (E1 := expected_next sp mp b pc pp (V n) t e ty a m c x) in *.
      set (E2 := expected_next sp mp b pc pp (Vd n) t e ty a m c x) in *.
      set (g1 := geometric (delta mp) n) in *. set (g2 := geometric d' n) in *. clearbody E1 E2 g1 g2.
      match goal with |- _ <= ?u <= _ => replace u with (delta mp * (E2 - E1) + (d' - delta mp) * E2) by ring end.
      replace (B * (1 + d' * g2 - (1 + delta mp * g1)))
        with (delta mp * (B * (g2 - g1)) + (d' - delta mp) * (B * g2)) by ring.
      assert (delta mp * - (B * (g2 - g1)) <= delta mp * (E2 - E1) <= delta mp * (B * (g2 - g1)))
        by (split; apply Rmult_le_compat_l; lra).
      assert ((d' - delta mp) * - (B * g2) <= (d' - delta mp) * E2 <= (d' - delta mp) * (B * g2))
        by (split; apply Rmult_le_compat_l; lra).
      lra.
  Qed.

  (** other probabilities *)
  Variable q : R.
  Hypothesis Hnb : near_births q sp pc pc'.
  Hypothesis Hnp : near_partners q sp pp pp'.
  Notation Vp := (value sp mp eg b draws pc' pp').

  Lemma expected_other_probs M v t e ty a m c x : (0 <= t < num_periods sp - 1)%Z ->
    (0 <= e < num_educ_levels sp)%Z -> (0 <= m < 2)%Z ->
    (forall age m' y, (age = aged sp a \/ age = 0)%Z -> (0 <= m' < 2)%Z -> In y (exp_grid sp) ->
       - M <= v (t + 1)%Z e c ty age m' y <= M) ->
    near (4 * q * M) (expected_next sp mp b pc pp v t e ty a m c x)
                     (expected_next sp mp b pc' pp' v t e ty a m c x).
  Proof.
    intros Ht He Hm H. unfold expected_next. cbv zeta.
    assert (I : forall age m', (age = aged sp a \/ age = 0)%Z -> (0 <= m' < 2)%Z ->
      - M <= interpolate (exp_grid sp) (map (v (t + 1)%Z e c ty age m') (exp_grid sp)) (stock_next sp mp b t e a c x) <= M).
    { intros age m' Hag Hm'. apply interpolate_bounds; try assumption;
        [apply Hgn; assumption|apply stock_in_grid; assumption|]. intros y Hy. apply H; assumption. }
    pose proof (I (aged sp a) 0%Z (or_introl eq_refl) ltac:(lia)) as I1.
    pose proof (I (aged sp a) 1%Z (or_introl eq_refl) ltac:(lia)) as I2.
    pose proof (I 0%Z 0%Z (or_intror eq_refl) ltac:(lia)) as I3.
    pose proof (I 0%Z 1%Z (or_intror eq_refl) ltac:(lia)) as I4. clear I.
    destruct (Hpp t e m Ht He Hm) as (P0 & P1 & Ps). destruct (Hpp' t e m Ht He Hm) as (P0' & P1' & Ps').
    pose proof (Hpc t e Ht He) as Pb. pose proof (Hpc' t e Ht He) as Pb'.
    pose proof (Hnb t e Ht He) as Nb. pose proof (Hnp t e m 0%Z Ht He Hm ltac:(lia)) as Np.
    unfold near in *. apply Rabs_le_inv in Nb. apply Rabs_le_inv in Np. apply Rabs_le.
    replace (pp t e m 1) with (1 - pp t e m 0) in * by lra. replace (pp' t e m 1) with (1 - pp' t e m 0) in * by lra.
    generalize dependent (pp t e m 0%Z). generalize dependent (pp' t e m 0%Z).
    generalize dependent (pc t e). generalize dependent (pc' t e).
    repeat match goal with |- context [interpolate ?g ?v ?q] => generalize dependent (interpolate g v q); intros end.
    clear - I1 I2 I3 I4 Pb Pb' Nb P0 P1 P0' P1' Np.
    match goal with |- _ <= (1 - ?b') * (?p' * ?A0 + (1 - ?p') * ?A1) + ?b' * (?p' * ?C0 + (1 - ?p') * ?C1)
        - ((1 - ?b) * (?p * _ + _) + _) <= _ =>
      replace ((1 - b') * (p' * A0 + (1 - p') * A1) + b' * (p' * C0 + (1 - p') * C1)
        - ((1 - b) * (p * A0 + (1 - p) * A1) + b * (p * C0 + (1 - p) * C1)))
      with ((p' - p) * ((1 - b') * (A0 - A1) + b' * (C0 - C1))
            + (b' - b) * (p * (C0 - A0) + (1 - p) * (C1 - A1))) by ring;
      set (Y1 := (1 - b') * (A0 - A1) + b' * (C0 - C1)); set (Y2 := p * (C0 - A0) + (1 - p) * (C1 - A1));
      assert (- (2 * M) <= Y1 <= 2 * M) by (unfold Y1; split; nra);
      assert (- (2 * M) <= Y2 <= 2 * M) by (unfold Y2; split; nra);
      set (u := p' - p) in *; set (h := b' - b) in *
    end.
    clearbody Y1 Y2 u h.
    assert (K : forall s y, - q <= s <= q -> - (2 * M) <= y <= 2 * M -> - (2 * q * M) <= s * y <= 2 * q * M).
    { clear. intros s y Hs Hy. split; nra. }
    pose proof (K u Y1 Np H). pose proof (K h Y2 Nb H0). lra.
  Qed.

  Lemma drifting_values n : forall t e l ty a m x, in_space sp t e l ty a m ->
    (t + Z.of_nat n = num_periods sp - 1)%Z -> In x (exp_grid sp) ->
    near (drift (delta mp) q B n) (V n t e l ty a m x) (Vp n t e l ty a m x).
  Proof.
    induction n as [|n IH]; intros t e l ty a m x Hin Hn Hx; rewrite !value_eq;
      (apply average_near; [assumption|assumption|]); intros z w Hz; apply best3_near; intros c Hc;
      cbn [drift continuation].
    - unfold near. match goal with |- Rabs ?u <= _ => replace u with 0 by ring end. rewrite Rabs_R0. lra.
    - pose proof Hin as (Ht & He & Hl & Hty & Ha & Hm).
      assert (S : forall age m', (age = aged sp a \/ age = 0)%Z -> (0 <= m' < 2)%Z -> in_space sp (t + 1) e c ty age m').
      { intros age m' Hag Hm'. pose proof (aged_range sp Hca a Ha). unfold in_space. repeat split; lia. }
      assert (N : near (drift (delta mp) q B n)
        (expected_next sp mp b pc pp (V n) t e ty a m c x) (expected_next sp mp b pc pp (Vp n) t e ty a m c x)).
      { apply expected_near; try assumption; [lia|]. intros age m' y Hag Hm' Hy. apply IH; [auto|lia|assumption]. }
      assert (W : near (4 * q * (B * geometric (delta mp) n))
        (expected_next sp mp b pc pp (Vp n) t e ty a m c x) (expected_next sp mp b pc' pp' (Vp n) t e ty a m c x)).
      { apply expected_other_probs; try assumption; [lia|]. intros age m' y Hag Hm' Hy.
        pose proof (value_bounds sp mp eg b draws pc' pp' (- B) B Hgi Hgu Hca Hpc' Hpp'
          ltac:(lra) Hw Hw1 Hf n (t + 1)%Z e c ty age m' y (S age m' Hag Hm') ltac:(lia) Hy) as Q. lra. }
      unfold near in *. apply Rabs_le_inv in N. apply Rabs_le_inv in W. apply Rabs_le.
      rewrite <- geometric_sum.
      set (E1 := expected_next sp mp b pc pp (V n) t e ty a m c x) in *.
      set (E2 := expected_next sp mp b pc pp (Vp n) t e ty a m c x) in *.
      set (E3 := expected_next sp mp b pc' pp' (Vp n) t e ty a m c x) in *.
      set (D := drift (delta mp) q B n) in *. set (g1 := geometric (delta mp) n) in *. clearbody E1 E2 E3 D g1.
      match goal with |- _ <= ?u <= _ => replace u with (delta mp * (E3 - E1)) by ring end.
      assert (delta mp * - (D + 4 * q * (B * g1)) <= delta mp * (E3 - E1) <= delta mp * (D + 4 * q * (B * g1)))
        by (split; apply Rmult_le_compat_l; lra).
      lra.
  Qed.
End Others.

Lemma solver_patience_near sp mp biased zs ws pc pp d' B :
  inputs_ok sp mp pc pp -> nonneg_weights zs ws -> average (fun _ => 1) (combine zs ws) = 1 ->
  probabilities sp pc pp -> spans_unit (exp_grid sp) -> 0 <= delta mp <= d' ->
  flows_within B sp mp biased (combine zs ws) ->
  forall t e l ty a m g v v', in_space sp t e l ty a m -> (g < List.length (exp_grid sp))%nat ->
  solver_cell sp mp biased zs ws pc pp t e l ty a m g 3 = Ok v ->
  solver_cell sp (with_delta mp d') biased zs ws pc pp t e l ty a m g 3 = Ok v' ->
  near (B * (geometric d' (remaining sp t) - geometric (delta mp) (remaining sp t))) v v'.
Proof.
  intros Hok Hw Hw1 Hp Hgu Hd Hf t e l ty a m g v v' Hin Hg Hv Hv'.
  assert (Hok' : inputs_ok sp (with_delta mp d') pc pp) by exact Hok.
  assert (Hx : nth_error (exp_grid sp) g = Some (nth g (exp_grid sp) 0)) by (apply nth_error_nth'; lia).
  rewrite (solver_emax _ _ _ _ _ _ _ Hok _ _ _ _ _ _ _ _ Hin Hx _ Hv).
  rewrite (solver_emax _ _ _ _ _ _ _ Hok' _ _ _ _ _ _ _ _ Hin Hx _ Hv').
  pose proof (remaining_eq _ _ _ _ _ _ _ Hin) as Hr.
  destruct Hok as ((_ & _ & _ & Hca & _ & Hgi & _) & _).
  apply patient_values; try assumption.
  - intros t' e' Ht' He'. apply (Hp t' e' Ht' He').
  - intros t' e' m' Ht' He' Hm'. apply (Hp t' e' Ht' He'). assumption.
  - eapply nth_error_In; eassumption.
Qed.

Lemma solver_demography_near sp mp biased zs ws pc pc' pp pp' q B :
  inputs_ok sp mp pc pp -> inputs_ok sp mp pc' pp' ->
  nonneg_weights zs ws -> average (fun _ => 1) (combine zs ws) = 1 ->
  probabilities sp pc pp -> probabilities sp pc' pp' ->
  near_births q sp (child_fun pc) (child_fun pc') -> near_partners q sp (partner_fun pp) (partner_fun pp') ->
  spans_unit (exp_grid sp) -> 0 <= delta mp ->
  flows_within B sp mp biased (combine zs ws) ->
  forall t e l ty a m g v v', in_space sp t e l ty a m -> (g < List.length (exp_grid sp))%nat ->
  solver_cell sp mp biased zs ws pc pp t e l ty a m g 3 = Ok v ->
  solver_cell sp mp biased zs ws pc' pp' t e l ty a m g 3 = Ok v' ->
  near (drift (delta mp) q B (remaining sp t)) v v'.
Proof.
  intros Hok Hok' Hw Hw1 Hp Hp' Hnb Hnp Hgu Hd Hf t e l ty a m g v v' Hin Hg Hv Hv'.
  assert (Hx : nth_error (exp_grid sp) g = Some (nth g (exp_grid sp) 0)) by (apply nth_error_nth'; lia).
  rewrite (solver_emax _ _ _ _ _ _ _ Hok _ _ _ _ _ _ _ _ Hin Hx _ Hv).
  rewrite (solver_emax _ _ _ _ _ _ _ Hok' _ _ _ _ _ _ _ _ Hin Hx _ Hv').
  pose proof (remaining_eq _ _ _ _ _ _ _ Hin) as Hr.
  destruct Hok as ((_ & _ & _ & Hca & _ & Hgi & _) & _).
  apply (drifting_values sp mp _ biased (combine zs ws) (child_fun pc) (child_fun pc') (partner_fun pp) (partner_fun pp'))
    with (d' := delta mp); try assumption; try lra.
  - intros t' e' Ht' He'. apply (Hp t' e' Ht' He').
  - intros t' e' m' Ht' He' Hm'. apply (Hp t' e' Ht' He'). assumption.
  - intros t' e' Ht' He'. apply (Hp' t' e' Ht' He').
  - intros t' e' m' Ht' He' Hm'. apply (Hp' t' e' Ht' He'). assumption.
  - eapply nth_error_In; eassumption.
Qed.

(** *** Continuity: the bounds hold for some B because everything is finite *)
Lemma finite_abs_bound {A} (l : list A) (f : A -> R) : exists B, 0 <= B /\ forall x, In x l -> - B <= f x <= B.
Proof.
  induction l as [|y l (B & HB & IH)]; [exists 0; split; [lra|intros x []]|].
  exists (Rmax B (Rabs (f y))). split; [rmm; lra|].
  assert (Y : - Rabs (f y) <= f y <= Rabs (f y)) by (apply Rabs_le_inv; lra).
  intros x [-> | Hx]; [rmm; lra|specialize (IH x Hx); rmm; lra].
Qed.
Lemma range_in (lo hi x : Z) : (lo <= x < hi)%Z -> In x (map (fun k => (lo + Z.of_nat k)%Z) (seq 0 (Z.to_nat (hi - lo)))).
Proof.
  intros H. apply in_map_iff. exists (Z.to_nat (x - lo)). split; [lia|]. apply in_seq. lia.
Qed.
Lemma flows_bounded sp mp biased draws : exists B, 0 <= B /\ flows_within B sp mp biased draws.
Proof.
  set (rg := fun lo hi => map (fun k => (lo + Z.of_nat k)%Z) (seq 0 (Z.to_nat (hi - lo)))).
  set (tuples := list_prod (list_prod (list_prod (list_prod (rg 0 (num_periods sp)) (rg 0 (num_educ_levels sp)))
                    (list_prod (rg 0 3) (rg 0 (num_types sp))))
                  (list_prod (rg (-1) (child_age_max sp + 1)) (rg 0 2)))%Z
                 (list_prod (list_prod (exp_grid sp) (rg 0 3)%Z) draws)).
  destruct (finite_abs_bound tuples (fun '(t, e, (l, ty), (a, m), (x, c, (z, w))) =>
     flow sp mp (is_elterngeld sp) biased t e l ty a m x c z)) as (B & HB & H).
  exists B. split; [assumption|]. intros t e l ty a m x c z w (Ht & He & Hl & Hty & Ha & Hm) Hx Hc Hz.
  apply (H (t, e, (l, ty), (a, m), (x, c, (z, w)))). unfold tuples.
  repeat (apply in_prod); try assumption; apply range_in; lia.
Qed.

Fixpoint geometric_slope (D : R) (n : nat) : R :=
  match n with O => 0 | S n' => D * geometric_slope D n' + geometric D n' end.
Lemma geometric_mono d d' n : 0 <= d <= d' -> 0 <= geometric d n <= geometric d' n.
Proof.
  intros Hd. induction n as [|n IH]; cbn [geometric]; [lra|].
  assert (d * geometric d n <= d' * geometric d' n) by (apply Rmult_le_compat; lra).
  assert (0 <= d * geometric d n) by (apply Rmult_le_pos; lra). lra.
Qed.
Lemma geometric_lip d d' D n : 0 <= d <= d' -> d' <= D ->
  0 <= geometric_slope D n /\ 0 <= geometric d' n - geometric d n <= (d' - d) * geometric_slope D n.
Proof.
  intros Hd HD. induction n as [|n [IS IH]]; cbn [geometric geometric_slope]; [split; lra|].
  pose proof (geometric_mono d d' n Hd) as M. pose proof (geometric_mono d' D n ltac:(lra)) as M'.
  split; [assert (0 <= D * geometric_slope D n) by (apply Rmult_le_pos; lra); lra|].
  split; [assert (d * geometric d n <= d' * geometric d' n) by (apply Rmult_le_compat; lra); lra|].
  replace (1 + d' * geometric d' n - (1 + d * geometric d n))
    with (d * (geometric d' n - geometric d n) + (d' - d) * geometric d' n) by ring.
  assert (d * (geometric d' n - geometric d n) <= D * ((d' - d) * geometric_slope D n))
    by (apply Rmult_le_compat; lra).
  assert ((d' - d) * geometric d' n <= (d' - d) * geometric D n) by (apply Rmult_le_compat_l; lra).
  lra.
Qed.
Lemma drift_scale d q B n : drift d q B n = q * (B * drift d 1 1 n).
Proof. induction n as [|n IH]; cbn [drift]; [ring|]. rewrite IH. ring. Qed.

Lemma remaining_in sp t e l ty a m : in_space sp t e l ty a m -> In (remaining sp t) (seq 0 (Z.to_nat (num_periods sp))).
Proof. intros (Ht & _). apply in_seq. unfold remaining. lia. Qed.
Lemma max_over sp (f : nat -> R) : exists M, 0 <= M /\
  forall t e l ty a m, in_space sp t e l ty a m -> f (remaining sp t) <= M.
Proof.
  destruct (finite_abs_bound (seq 0 (Z.to_nat (num_periods sp))) f) as (M & HM & H).
  exists M. split; [assumption|]. intros t e l ty a m Hin. apply H. eapply remaining_in; eassumption.
Qed.

Lemma with_delta_back mp d : with_delta (with_delta mp d) (delta mp) = mp.
Proof. destruct mp. reflexivity. Qed.

Lemma solver_continuous_delta sp mp biased zs ws pc pp :
  inputs_ok sp mp pc pp -> nonneg_weights zs ws -> average (fun _ => 1) (combine zs ws) = 1 ->
  probabilities sp pc pp -> spans_unit (exp_grid sp) -> 0 <= delta mp ->
  forall eps, 0 < eps -> exists r, 0 < r /\
  forall d', 0 <= d' -> near r (delta mp) d' ->
  forall t e l ty a m g v v', in_space sp t e l ty a m -> (g < List.length (exp_grid sp))%nat ->
  solver_cell sp mp biased zs ws pc pp t e l ty a m g 3 = Ok v ->
  solver_cell sp (with_delta mp d') biased zs ws pc pp t e l ty a m g 3 = Ok v' -> near eps v v'.
Proof.
  intros Hok Hw Hw1 Hp Hgu Hd eps Heps.
  destruct (flows_bounded sp mp biased (combine zs ws)) as (B & HB & Hf).
  destruct (max_over sp (geometric_slope (delta mp + 1))) as (K & HK & HM).
  assert (HBK : 0 <= B * K) by (apply Rmult_le_pos; assumption).
  assert (Hr : 0 < eps / (B * K + 1)) by (apply Rdiv_lt_0_compat; lra).
  exists (Rmin 1 (eps / (B * K + 1))). split; [rmm; lra|].
  intros d' Hd' Hn t e l ty a m g v v' Hin Hg Hv Hv'.
  unfold near in Hn. apply Rabs_le_inv in Hn.
  assert (Hn1 : - 1 <= d' - delta mp <= 1) by (revert Hn; rmm; lra).
  assert (Hn2 : - (eps / (B * K + 1)) <= d' - delta mp <= eps / (B * K + 1)) by (revert Hn; rmm; lra).
  specialize (HM t e l ty a m Hin). clear Hn.
  assert (Q : forall s S, 0 <= s -> s <= eps / (B * K + 1) -> 0 <= S <= K -> B * (s * S) <= eps).
  { intros s S Hs1 Hs2 HS. apply Rle_trans with ((eps / (B * K + 1)) * (B * K)).
    - replace (B * (s * S)) with (s * (B * S)) by ring. apply Rmult_le_compat; try lra.
      + apply Rmult_le_pos; lra.
      + apply Rmult_le_compat_l; lra.
    - apply Rle_trans with ((eps / (B * K + 1)) * (B * K + 1)); [apply Rmult_le_compat_l; lra|].
      apply Req_le. field. lra. }
  destruct (Rle_lt_dec (delta mp) d') as [Hle | Hlt].
  - pose proof (solver_patience_near sp mp biased zs ws pc pp d' B Hok Hw Hw1 Hp Hgu ltac:(lra) Hf
      t e l ty a m g v v' Hin Hg Hv Hv') as N.
    pose proof (geometric_lip (delta mp) d' (delta mp + 1) (remaining sp t) ltac:(lra) ltac:(lra)) as [S0 L].
    eapply Rle_trans; [exact N|].
    eapply Rle_trans; [|apply (Q (d' - delta mp) (geometric_slope (delta mp + 1) (remaining sp t))); lra].
    apply Rmult_le_compat_l; lra.
  - assert (Hok' : inputs_ok sp (with_delta mp d') pc pp) by exact Hok.
    pose proof (solver_patience_near sp (with_delta mp d') biased zs ws pc pp (delta mp) B Hok' Hw Hw1 Hp Hgu
      ltac:(cbn [delta with_delta]; lra) Hf t e l ty a m g v' v Hin Hg Hv') as N.
    rewrite with_delta_back in N. specialize (N Hv). cbn [delta with_delta] in N.
    pose proof (geometric_lip d' (delta mp) (delta mp + 1) (remaining sp t) ltac:(lra) ltac:(lra)) as [S0 L].
    apply near_sym. eapply Rle_trans; [exact N|].
    eapply Rle_trans; [|apply (Q (delta mp - d') (geometric_slope (delta mp + 1) (remaining sp t))); lra].
    apply Rmult_le_compat_l; lra.
Qed.

Lemma solver_continuous_demography sp mp biased zs ws pc pp :
  inputs_ok sp mp pc pp -> nonneg_weights zs ws -> average (fun _ => 1) (combine zs ws) = 1 ->
  probabilities sp pc pp -> spans_unit (exp_grid sp) -> 0 <= delta mp ->
  forall eps, 0 < eps -> exists r, 0 < r /\
  forall pc' pp', inputs_ok sp mp pc' pp' -> probabilities sp pc' pp' ->
  near_births r sp (child_fun pc) (child_fun pc') -> near_partners r sp (partner_fun pp) (partner_fun pp') ->
  forall t e l ty a m g v v', in_space sp t e l ty a m -> (g < List.length (exp_grid sp))%nat ->
  solver_cell sp mp biased zs ws pc pp t e l ty a m g 3 = Ok v ->
  solver_cell sp mp biased zs ws pc' pp' t e l ty a m g 3 = Ok v' -> near eps v v'.
Proof.
  intros Hok Hw Hw1 Hp Hgu Hd eps Heps.
  destruct (flows_bounded sp mp biased (combine zs ws)) as (B & HB & Hf).
  destruct (max_over sp (drift (delta mp) 1 1)) as (K & HK & HM).
  assert (HBK : 0 <= B * K) by (apply Rmult_le_pos; assumption).
  assert (Hr : 0 < eps / (B * K + 1)) by (apply Rdiv_lt_0_compat; lra).
  exists (eps / (B * K + 1)). split; [assumption|].
  intros pc' pp' Hok' Hp' Nb Np t e l ty a m g v v' Hin Hg Hv Hv'.
  pose proof (solver_demography_near sp mp biased zs ws pc pc' pp pp' _ B Hok Hok' Hw Hw1 Hp Hp' Nb Np Hgu Hd Hf
    t e l ty a m g v v' Hin Hg Hv Hv') as N.
  eapply Rle_trans; [exact N|]. rewrite drift_scale. specialize (HM t e l ty a m Hin).
  apply Rle_trans with ((eps / (B * K + 1)) * (B * K + 1)); [|apply Req_le; field; lra].
  apply Rmult_le_compat_l; [lra|].
  assert (B * drift (delta mp) 1 1 (remaining sp t) <= B * K) by (apply Rmult_le_compat_l; assumption). lra.
Qed.

Lemma solver_continuous_tastes sp mp biased zs ws pc pp :
  inputs_ok sp mp pc pp -> nonneg_weights zs ws -> average (fun _ => 1) (combine zs ws) = 1 ->
  probabilities sp pc pp -> spans_unit (exp_grid sp) -> 0 <= delta mp -> mu mp <> 0 ->
  forall eps, 0 < eps -> exists r, 0 < r /\
  forall mp', inputs_ok sp mp' pc pp -> near_tastes r sp mp mp' ->
  forall t e l ty a m g v v', in_space sp t e l ty a m -> (g < List.length (exp_grid sp))%nat ->
  solver_cell sp mp biased zs ws pc pp t e l ty a m g 3 = Ok v ->
  solver_cell sp mp' biased zs ws pc pp t e l ty a m g 3 = Ok v' -> near eps v v'.
Proof.
  intros Hok Hw Hw1 Hp Hgu Hd Hmu eps Heps.
  destruct (flows_bounded sp mp biased (combine zs ws)) as (B & HB & Hf).
  destruct (max_over sp (geometric (delta mp))) as (K & HK & HM).
  assert (HBK : 0 <= B * K) by (apply Rmult_le_pos; assumption).
  set (h := eps / (B * K + 1)).
  assert (Hh : 0 < h) by (apply Rdiv_lt_0_compat; lra).
  exists (ln (1 + h) / 5).
  assert (Hl : 0 < ln (1 + h)) by (rewrite <- ln_1; apply ln_increasing; lra).
  split; [lra|].
  intros mp' Hok' Hn t e l ty a m g v v' Hin Hg Hv Hv'.
  destruct (solver_tastes _ sp mp mp' biased zs ws pc pp Hok Hok' Hn Hmu Hw Hw1 Hp Hgu Hd t e l ty a m g 3%Z v v'
    Hin Hg ltac:(lia) Hv Hv') as (f & Hfk & ->).
  replace (5 * (ln (1 + h) / 5)) with (ln (1 + h)) in Hfk by field. rewrite exp_ln in Hfk by lra.
  assert (Hx : nth_error (exp_grid sp) g = Some (nth g (exp_grid sp) 0)) by (apply nth_error_nth'; lia).
  pose proof (solver_bounds sp mp biased zs ws pc pp (- B) B Hok Hw Hw1 Hp Hgu Hd Hf t e l ty a m g _ Hin Hx v Hv) as Hb.
  specialize (HM t e l ty a m Hin).
  assert (Hv1 : - (B * K) <= v <= B * K).
  { assert (B * geometric (delta mp) (remaining sp t) <= B * K) by (apply Rmult_le_compat_l; assumption). lra. }
  assert (Hf1 : - h <= f - 1 <= h).
  { split; [|lra]. assert (1 - h <= / (1 + h)); [|lra].
    apply Rmult_le_reg_l with (1 + h); [lra|]. rewrite Rinv_r by lra. nra. }
  unfold near. replace (f * v - v) with ((f - 1) * v) by ring. rewrite Rabs_mult.
  apply Rle_trans with (h * (B * K)).
  - apply Rmult_le_compat; try apply Rabs_pos; apply Rabs_le; assumption.
  - unfold h. apply Rle_trans with ((eps / (B * K + 1)) * (B * K + 1)); [|apply Req_le; field; lra].
    apply Rmult_le_compat_l; fold h; lra.
Qed.
