(** Properties of the Bellman recursion of S_Bellman.v, by induction over the number
    of remaining periods. *)
From Coq Require Import Reals Lra Lia ZArith List Arith.
From Verif Require Import Base Num M_Params M_Experience M_Tax L_Num S_Experience L_Experience
  S_Interp L_Interp S_Tax L_Tax S_Benefits L_Benefits S_StateSpace L_StateSpace S_Bellman L_Bellman S_Solver.
Import ListNotations.
Open Scope R_scope.

(** ** averages over draws *)
Lemma average_le f g l : (forall z w, In (z, w) l -> 0 <= w) -> (forall z, f z <= g z) ->
  average f l <= average g l.
Proof.
  intros Hw Hf. induction l as [|[z w] l IH]; cbn [average]; [lra|].
  assert (0 <= w) by (apply (Hw z); left; reflexivity).
  assert (average f l <= average g l) by (apply IH; intros; eapply Hw; right; eassumption).
  pose proof (Hf z). nra.
Qed.
Lemma average_le_in f g l : (forall z w, In (z, w) l -> 0 <= w) ->
  (forall z w, In (z, w) l -> f z <= g z) -> average f l <= average g l.
Proof.
  intros Hw Hf. induction l as [|[z w] l IH]; cbn [average]; [lra|].
  assert (0 <= w) by (apply (Hw z); left; reflexivity).
  assert (average f l <= average g l)
    by (apply IH; intros; [eapply Hw; right; eassumption | eapply Hf; right; eassumption]).
  pose proof (Hf z w (or_introl eq_refl)). nra.
Qed.
Lemma average_ext' f g l : (forall z, f z = g z) -> average f l = average g l.
Proof. intros H. induction l as [|[z w] l IH]; cbn [average]; [reflexivity|]. rewrite IH, H. reflexivity. Qed.
Lemma average_const c l : average (fun _ => c) l = c * average (fun _ => 1) l.
Proof. induction l as [|[z w] l IH]; cbn [average]; [ring|]. rewrite IH. ring. Qed.

Lemma best3_ge q c : (0 <= c < 3)%Z -> q c <= best3 q.
Proof.
  intros Hc. assert (c = 0 \/ c = 1 \/ c = 2)%Z as [-> | [-> | ->]] by lia; unfold best3; rmm; lra.
Qed.
Lemma best3_le q y : (forall c, (0 <= c < 3)%Z -> q c <= y) -> best3 q <= y.
Proof.
  intros H. pose proof (H 0%Z ltac:(lia)). pose proof (H 1%Z ltac:(lia)). pose proof (H 2%Z ltac:(lia)).
  unfold best3. rmm; lra.
Qed.
Lemma best3_mono q q' : (forall c, (0 <= c < 3)%Z -> q c <= q' c) -> best3 q <= best3 q'.
Proof. intros H. apply best3_le. intros c Hc. eapply Rle_trans; [apply H|apply best3_ge]; assumption. Qed.
Lemma best3_ext q q' : (forall c, (0 <= c < 3)%Z -> q c = q' c) -> best3 q = best3 q'.
Proof. intros H. apply Rle_antisym; apply best3_mono; intros c Hc; rewrite H by assumption; lra. Qed.

(** ** interpolation on a grid from 0 to 1 *)
Lemma interpolate_mono g f f' x : increasing g -> g <> [] -> in_grid g x ->
  (forall y, In y g -> f y <= f' y) ->
  interpolate g (map f g) x <= interpolate g (map f' g) x.
Proof.
  intros Hi Hne Hx H. rewrite <- !interp_spec by (try assumption; apply map_length).
  assert (Hn : (1 <= List.length g)%nat) by (destruct g; [contradiction|simpl; lia]).
  apply interp_mono_values; try assumption; try apply map_length.
  intros k Hk. rewrite (nth_indep _ 0 (f 0)) by (rewrite map_length; assumption).
  rewrite (nth_indep (map f' g) 0 (f' 0)) by (rewrite map_length; assumption).
  rewrite !map_nth. apply H, nth_In. assumption.
Qed.
Lemma interpolate_bounds g f x lo hi : increasing g -> g <> [] -> in_grid g x ->
  (forall y, In y g -> lo <= f y <= hi) ->
  lo <= interpolate g (map f g) x <= hi.
Proof.
  intros Hi Hne Hx H. rewrite <- !interp_spec by (try assumption; apply map_length).
  assert (Hn : (1 <= List.length g)%nat) by (destruct g; [contradiction|simpl; lia]).
  apply interp_bounds; try assumption; try apply map_length.
  intros y Hy. apply in_map_iff in Hy. destruct Hy as (y' & <- & Hy). apply H. assumption.
Qed.
Lemma interpolate_ext g f f' x : (forall y, In y g -> f y = f' y) ->
  interpolate g (map f g) x = interpolate g (map f' g) x.
Proof. intros H. f_equal. apply map_ext_in. assumption. Qed.
Lemma interpolate_mono_query g f x y : increasing g -> g <> [] ->
  (forall u v, In u g -> In v g -> u <= v -> f u <= f v) -> x <= y ->
  interpolate g (map f g) x <= interpolate g (map f g) y.
Proof.
  intros Hi Hne H Hxy. rewrite <- !interp_spec by (try assumption; apply map_length).
  assert (Hn : (1 <= List.length g)%nat) by (destruct g; [contradiction|simpl; lia]).
  apply interp_mono_query; try assumption; try apply map_length.
  intros i j Hij. rewrite map_length in Hij.
  rewrite (nth_indep _ 0 (f 0)) by (rewrite map_length; lia).
  rewrite (nth_indep (map f g) 0 (f 0)) by (rewrite map_length; lia). rewrite !map_nth.
  apply H; try (apply nth_In; lia).
  destruct (Nat.eq_dec i j) as [->|]; [lra|]. left. apply Hi. lia.
Qed.

Lemma stock_next_unit sp mp b t e a c x : 0 <= stock_next sp mp b t e a c x <= 1.
Proof. unfold stock_next. rmm; lra. Qed.
Lemma stock_in_grid sp mp b t e a c x : spans_unit (exp_grid sp) ->
  in_grid (exp_grid sp) (stock_next sp mp b t e a c x).
Proof.
  intros (Hn & H0 & H1). right. rewrite H0, H1. apply stock_next_unit.
Qed.

Section Value.
  Variable sp : model_spec R.
  Variable mp : model_params R.
  Variables eg biased : bool.
  Variable draws : list (R * R).
  Variable pc : Z -> Z -> R.
  Variable pp : Z -> Z -> Z -> Z -> R.
  Notation V := (value sp mp eg biased draws pc pp).
  Notation C := (continuation sp mp eg biased draws pc pp).
  Notation RV := (rule_value sp mp eg biased draws pc pp).
  Notation F := (flow sp mp eg biased).
  Notation EN := (expected_next sp mp biased pc pp).
  Notation P := (num_periods sp).

  Lemma value_eq n t e l ty a m x :
    V n t e l ty a m x
    = average (fun z => best3 (fun c => F t e l ty a m x c z + delta mp * C n t e ty a m c x)) draws.
  Proof. destruct n; reflexivity. Qed.

  (** *** C26 *)
  Lemma value_option n t e l ty a m x c :
    (forall z w, In (z, w) draws -> 0 <= w) -> (0 <= c < 3)%Z ->
    average (fun z => F t e l ty a m x c z + delta mp * C n t e ty a m c x) draws <= V n t e l ty a m x.
  Proof.
    intros Hw Hc. rewrite value_eq. apply average_le; [assumption|]. intros z.
    apply (best3_ge (fun c => F t e l ty a m x c z + delta mp * C n t e ty a m c x)). assumption.
  Qed.

  Section Expectation.
    Hypothesis Hgi : increasing (exp_grid sp).
    Hypothesis Hgu : spans_unit (exp_grid sp).
    Hypothesis Hpc : forall t e, (0 <= t < P - 1)%Z -> (0 <= e < num_educ_levels sp)%Z -> 0 <= pc t e <= 1.
    Hypothesis Hpp : forall t e m m', (0 <= t < P - 1)%Z -> (0 <= e < num_educ_levels sp)%Z ->
      (0 <= m < 2)%Z -> (0 <= m' < 2)%Z -> 0 <= pp t e m m'.

    Lemma Hgn : exp_grid sp <> [].
    Proof. destruct Hgu as [H _]. intros E. rewrite E in H. simpl in H. lia. Qed.

    Lemma expected_mono v v' t e ty a m c x :
      (0 <= t < P - 1)%Z -> (0 <= e < num_educ_levels sp)%Z -> (0 <= m < 2)%Z ->
      (forall age m' y, (age = aged sp a \/ age = 0)%Z -> (0 <= m' < 2)%Z -> In y (exp_grid sp) ->
         v (t + 1)%Z e c ty age m' y <= v' (t + 1)%Z e c ty age m' y) ->
      EN v t e ty a m c x <= EN v' t e ty a m c x.
    Proof.
      intros Ht He Hm H. unfold expected_next. cbv zeta.
      pose proof (Hpc t e Ht He) as Hb.
      pose proof (Hpp t e m 0%Z Ht He Hm ltac:(lia)) as H0.
      pose proof (Hpp t e m 1%Z Ht He Hm ltac:(lia)) as H1.
      assert (I : forall age m', (age = aged sp a \/ age = 0)%Z -> (0 <= m' < 2)%Z ->
         interpolate (exp_grid sp) (map (v (t + 1)%Z e c ty age m') (exp_grid sp)) (stock_next sp mp biased t e a c x)
         <= interpolate (exp_grid sp) (map (v' (t + 1)%Z e c ty age m') (exp_grid sp)) (stock_next sp mp biased t e a c x)).
      { intros age m' Ha Hm'. apply interpolate_mono; try assumption; [apply Hgn|apply stock_in_grid; assumption|].
        intros y Hy. apply H; assumption. }
      pose proof (I (aged sp a) 0%Z (or_introl eq_refl) ltac:(lia)).
      pose proof (I (aged sp a) 1%Z (or_introl eq_refl) ltac:(lia)).
      pose proof (I 0%Z 0%Z (or_intror eq_refl) ltac:(lia)).
      pose proof (I 0%Z 1%Z (or_intror eq_refl) ltac:(lia)).
      apply Rplus_le_compat; (apply Rmult_le_compat_l; [lra|]);
        apply Rplus_le_compat; apply Rmult_le_compat_l; assumption.
    Qed.

    (** *** C27: no rule does better *)
    Hypothesis Hd : 0 <= delta mp.
    Hypothesis Hw : forall z w, In (z, w) draws -> 0 <= w.

    Lemma rule_below d (Had : admissible d) n : forall t e l ty a m x,
      (0 <= t)%Z -> (t + Z.of_nat n = P - 1)%Z -> (0 <= e < num_educ_levels sp)%Z -> (0 <= m < 2)%Z ->
      RV d n t e l ty a m x <= V n t e l ty a m x.
    Proof.
      induction n as [|n IH]; intros t e l ty a m x Ht Hn He Hm.
      - rewrite value_eq. cbn [rule_value]. apply average_le; [assumption|]. intros z. cbv zeta.
        pose proof (Had t e l ty a m x z) as Hc. set (c := d t e l ty a m x z) in *.
        apply (best3_ge (fun c => F t e l ty a m x c z + delta mp * C 0 t e ty a m c x) c Hc).
      - rewrite value_eq. cbn [rule_value]. apply average_le; [assumption|]. intros z. cbv zeta.
        pose proof (Had t e l ty a m x z) as Hc. set (c := d t e l ty a m x z) in *.
        eapply Rle_trans;
          [|apply (best3_ge (fun c => F t e l ty a m x c z + delta mp * C (S n) t e ty a m c x) c Hc)].
        apply Rplus_le_compat_l, Rmult_le_compat_l; [assumption|].
        cbn [continuation]. apply expected_mono; try assumption; [lia|].
        intros. apply IH; try assumption; lia.
    Qed.
  End Expectation.

  (** the rule that picks the best alternative *)
  Definition greedy : rule := fun t e l ty a m x z =>
    let q c := F t e l ty a m x c z + delta mp * C (Z.to_nat (P - 1 - t)) t e ty a m c x in
    if Rle_dec (q 1%Z) (q 0%Z) then (if Rle_dec (q 2%Z) (q 0%Z) then 0%Z else 2%Z)
    else (if Rle_dec (q 2%Z) (q 1%Z) then 1%Z else 2%Z).

  Lemma greedy_admissible : admissible greedy.
  Proof. intros t e l ty a m x z. unfold greedy. repeat destruct (Rle_dec _ _); lia. Qed.

  Lemma expected_ext v v' t e ty a m c x :
    (forall age m' y, In y (exp_grid sp) -> v (t + 1)%Z e c ty age m' y = v' (t + 1)%Z e c ty age m' y) ->
    EN v t e ty a m c x = EN v' t e ty a m c x.
  Proof.
    intros H. unfold expected_next. cbv zeta.
    rewrite (interpolate_ext _ _ _ _ (H (aged sp a) 0%Z)), (interpolate_ext _ _ _ _ (H (aged sp a) 1%Z)),
      (interpolate_ext _ _ _ _ (H 0%Z 0%Z)), (interpolate_ext _ _ _ _ (H 0%Z 1%Z)). reflexivity.
  Qed.

  Lemma greedy_attains n : forall t e l ty a m x, (t + Z.of_nat n = P - 1)%Z ->
    RV greedy n t e l ty a m x = V n t e l ty a m x.
  Proof.
    induction n as [|n IH]; intros t e l ty a m x Hn.
    - rewrite value_eq. cbn [rule_value]. apply average_ext'. intros z. cbv zeta.
      unfold greedy. replace (Z.to_nat (P - 1 - t)) with 0%nat by lia. cbn [continuation]. unfold best3.
      repeat destruct (Rle_dec _ _); rmm; lra.
    - rewrite value_eq. cbn [rule_value]. apply average_ext'. intros z. cbv zeta.
      rewrite (expected_ext _ (V n)) by (intros; apply IH; lia).
      unfold greedy. replace (Z.to_nat (P - 1 - t)) with (S n) by lia. cbn [continuation]. unfold best3.
      repeat destruct (Rle_dec _ _); rmm; lra.
  Qed.

  (** *** C28 *)
  Section Bounds.
    Variables lo hi : R.
    Hypothesis Hgi : increasing (exp_grid sp).
    Hypothesis Hgu : spans_unit (exp_grid sp).
    Hypothesis Hca : (0 <= child_age_max sp)%Z.
    Hypothesis Hpc : forall t e, (0 <= t < P - 1)%Z -> (0 <= e < num_educ_levels sp)%Z -> 0 <= pc t e <= 1.
    Hypothesis Hpp : forall t e m, (0 <= t < P - 1)%Z -> (0 <= e < num_educ_levels sp)%Z ->
      (0 <= m < 2)%Z -> 0 <= pp t e m 0 /\ 0 <= pp t e m 1 /\ pp t e m 0 + pp t e m 1 = 1.
    Hypothesis Hd : 0 <= delta mp.
    Hypothesis Hw : forall z w, In (z, w) draws -> 0 <= w.
    Hypothesis Hw1 : average (fun _ => 1) draws = 1.
    Hypothesis Hf : forall t e l ty a m x c z w, in_space sp t e l ty a m -> In x (exp_grid sp) ->
      (0 <= c < 3)%Z -> In (z, w) draws -> lo <= F t e l ty a m x c z <= hi.

    Lemma geometric_pos n : 0 <= geometric (delta mp) n.
    Proof. induction n; cbn [geometric]; [lra|]. nra. Qed.

    Lemma aged_range a : (-1 <= a <= child_age_max sp)%Z -> (-1 <= aged sp a <= child_age_max sp)%Z.
    Proof. intros H. unfold aged. destruct (a =? -1)%Z; [lia|]. destruct (Z.ltb_spec a (child_age_max sp)); lia. Qed.

    Lemma value_bounds n : forall t e l ty a m x, in_space sp t e l ty a m ->
      (t + Z.of_nat n = P - 1)%Z -> In x (exp_grid sp) ->
      lo * geometric (delta mp) n <= V n t e l ty a m x <= hi * geometric (delta mp) n.
    Proof.
      induction n as [|n IH]; intros t e l ty a m x Hin Hn Hx.
      - rewrite value_eq. cbn [geometric continuation].
        assert (A : forall z w, In (z, w) draws ->
           lo <= best3 (fun c => F t e l ty a m x c z + delta mp * 0) <= hi).
        { intros z w Hz. split.
          - pose proof (Hf t e l ty a m x 0%Z z w Hin Hx ltac:(lia) Hz).
            eapply Rle_trans; [|apply (best3_ge _ 0%Z); lia]. lra.
          - apply best3_le. intros c Hc. pose proof (Hf t e l ty a m x c z w Hin Hx Hc Hz). lra. }
        split.
        + replace (lo * 1) with (average (fun _ => lo) draws) by (rewrite average_const, Hw1; ring).
          apply average_le_in; [assumption|]. intros z w Hz. apply (A z w Hz).
        + replace (hi * 1) with (average (fun _ => hi) draws) by (rewrite average_const, Hw1; ring).
          apply average_le_in; [assumption|]. intros z w Hz. apply (A z w Hz).
      - rewrite value_eq.
        pose proof Hin as (Ht & He & Hl & Hty & Ha & Hm).
        assert (K : forall c, (0 <= c < 3)%Z ->
           lo * geometric (delta mp) n <= C (S n) t e ty a m c x <= hi * geometric (delta mp) n).
        { intros c Hc. cbn [continuation]. unfold expected_next. cbv zeta.
          assert (I : forall age m', (-1 <= age <= child_age_max sp)%Z -> (0 <= m' < 2)%Z ->
             lo * geometric (delta mp) n
             <= interpolate (exp_grid sp) (map (V n (t + 1)%Z e c ty age m') (exp_grid sp)) (stock_next sp mp biased t e a c x)
             <= hi * geometric (delta mp) n).
          { intros age m' Hage Hm'. apply interpolate_bounds; try assumption;
              [apply Hgn; assumption|apply stock_in_grid; assumption|].
            intros y Hy. apply IH; [unfold in_space; repeat split; lia | lia | assumption]. }
          pose proof (Hpc t e ltac:(lia) He) as Hb.
          destruct (Hpp t e m ltac:(lia) He Hm) as (H0 & H1 & Hs).
          pose proof (I (aged sp a) 0%Z (aged_range a Ha) ltac:(lia)) as I1.
          pose proof (I (aged sp a) 1%Z (aged_range a Ha) ltac:(lia)) as I2.
          pose proof (I 0%Z 0%Z ltac:(lia) ltac:(lia)) as I3.
          pose proof (I 0%Z 1%Z ltac:(lia) ltac:(lia)) as I4.
          set (L := lo * geometric (delta mp) n) in *. set (U := hi * geometric (delta mp) n) in *.
          clearbody L U. clear I IH.
          repeat match goal with |- context [interpolate ?g ?v ?q] => generalize dependent (interpolate g v q); intros end.
          set (p0 := pp t e m 0) in *. set (p1 := pp t e m 1) in *. set (b := pc t e) in *.
          clearbody p0 p1 b.
          assert (forall u v, L <= u <= U -> L <= v <= U -> L <= p0 * u + p1 * v <= U).
          { intros u v Hu Hv. replace p1 with (1 - p0) by lra.
            assert (0 <= 1 - p0) by lra. split; nra. }
          match goal with |- L <= (1 - b) * ?A + b * ?B <= U =>
            assert (L <= A <= U) by auto; assert (L <= B <= U) by auto;
            generalize dependent A; generalize dependent B; intros end.
          split; nra. }
        cbn [geometric].
        assert (A : forall z w, In (z, w) draws ->
           lo * (1 + delta mp * geometric (delta mp) n)
           <= best3 (fun c => F t e l ty a m x c z + delta mp * C (S n) t e ty a m c x)
           <= hi * (1 + delta mp * geometric (delta mp) n)).
        { intros z w Hz. split.
          - pose proof (Hf t e l ty a m x 0%Z z w Hin Hx ltac:(lia) Hz). pose proof (K 0%Z ltac:(lia)).
            eapply Rle_trans; [|apply (best3_ge _ 0%Z); lia]. nra.
          - apply best3_le. intros c Hc. pose proof (Hf t e l ty a m x c z w Hin Hx Hc Hz).
            pose proof (K c Hc). nra. }
        split.
        + replace (lo * (1 + delta mp * geometric (delta mp) n))
            with (average (fun _ => lo * (1 + delta mp * geometric (delta mp) n)) draws)
            by (rewrite average_const, Hw1; ring).
          apply average_le_in; [assumption|]. intros z w Hz. apply (A z w Hz).
        + replace (hi * (1 + delta mp * geometric (delta mp) n))
            with (average (fun _ => hi * (1 + delta mp * geometric (delta mp) n)) draws)
            by (rewrite average_const, Hw1; ring).
          apply average_le_in; [assumption|]. intros z w Hz. apply (A z w Hz).
    Qed.
  End Bounds.
End Value.
