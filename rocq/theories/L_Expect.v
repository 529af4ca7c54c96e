(** Lives in expectation (C100). *)
From Coq Require Import Reals Lra Lia ZArith List Arith String.
From Verif Require Import Base Num M_Params M_Experience M_Tax M_StateSpace M_Exog M_Sim L_Num S_Experience L_Experience S_Interp L_Interp
  S_Tax L_Tax S_Benefits L_Benefits S_StateSpace L_StateSpace S_Bellman L_Bellman S_Solver L_Value L_Solver L_Mono S_Rng S_Sim L_SimUpdate L_SimProps
  S_SimInputs L_SimFlow L_SimCompare S_Reform S_Stability L_Stability S_Grid L_Grid S_GridSim L_GridSim S_Expect.
Import ListNotations.
Open Scope R_scope.

Lemma rule_first_best sp mp K t e l ty a m x s :
  first_best (worth sp mp K t e l ty a m x s) (rule sp mp K t e l ty a m x s).
Proof.
  unfold rule. cbv zeta. set (w := worth sp mp K t e l ty a m x s).
  assert (T : forall c : Z, (0 <= c < 3)%Z -> c = 0%Z \/ c = 1%Z \/ c = 2%Z) by (intros; lia).
  destruct (Rle_dec (w 1%Z) (w 0%Z)); [destruct (Rle_dec (w 2%Z) (w 0%Z))|destruct (Rle_dec (w 2%Z) (w 1%Z))];
  (split; [lia|split; intros c Hc; destruct (T c ltac:(lia)) as [-> | [-> | ->]]; try lra; try lia]).
Qed.
Lemma first_best_unique v c c' : first_best v c -> first_best v c' -> c = c'.
Proof.
  intros (A1 & A2 & A3) (B1 & B2 & B3). destruct (Z.lt_trichotomy c c') as [H | [H | H]]; [|exact H|].
  - pose proof (B3 c ltac:(lia)). pose proof (A2 c' B1). lra.
  - pose proof (A3 c' ltac:(lia)). pose proof (B2 c A1). lra.
Qed.
Lemma first_best_ext v v' c : (forall k, (0 <= k < 3)%Z -> v k = v' k) -> first_best v c -> first_best v' c.
Proof.
  intros E (A1 & A2 & A3). refine (conj A1 (conj _ _)).
  - intros k Hk. rewrite <- !E by assumption. apply A2. assumption.
  - intros k Hk. rewrite <- !E by lia. apply A3. assumption.
Qed.
Lemma first_best_best3 v c : first_best v c -> v c = best3 v.
Proof.
  intros (A1 & A2 & _). pose proof (A2 0%Z ltac:(lia)). pose proof (A2 1%Z ltac:(lia)). pose proof (A2 2%Z ltac:(lia)).
  unfold best3. assert (c = 0 \/ c = 1 \/ c = 2)%Z as [E | [E | E]] by lia; rewrite E in *; rmm; lra.
Qed.
Lemma near_trans r r' x y z : near r x y -> near r' y z -> near (r + r') x z.
Proof. unfold near. intros A B. apply Rabs_le_inv in A. apply Rabs_le_inv in B. apply Rabs_le. lra. Qed.
Lemma near_scaled d r c x y : 0 <= d -> near r x y -> near (d * r) (c + d * x) (c + d * y).
Proof.
  unfold near. intros Hd H. replace (c + d * y - (c + d * x)) with (d * (y - x)) by ring.
  rewrite Rabs_mult, (Rabs_right d) by lra. apply Rmult_le_compat_l; assumption.
Qed.

Lemma three_values f v (l l' : list R) (d : R) : v = map2 (fun a b => a + d * b) l l' -> l = map f [0; 1; 2]%Z -> (exists g, l' = map g [0; 1; 2]%Z) ->
  forall c, (0 <= c < 3)%Z -> at_ v c = f c + d * at_ l' c.
Proof. intros -> -> (g & ->) c Hc. assert (c = 0 \/ c = 1 \/ c = 2)%Z as [-> | [-> | ->]] by lia; reflexivity. Qed.

Lemma interpolate_zero g vs x : g <> [] -> List.length vs = List.length g -> (forall v, In v vs -> v = 0) -> interpolate g vs x = 0.
Proof.
  intros Hg Hl H. replace vs with (map (fun y : R => 0 * y + 0) g).
  - rewrite (interpolate_affine 0 0 (fun y => y) x g Hg). ring.
  - clear Hg. revert vs Hl H. induction g as [|y g IH]; intros [|v vs] Hl H; try discriminate; [reflexivity|].
    cbn [map]. rewrite (H v (or_introl eq_refl)). rewrite (IH vs); [f_equal; ring|injection Hl; auto|intros; apply H; right; assumption].
Qed.

Section Run.
  Variable sp : model_spec R.
  Variable mp : model_params R.
  Variable biased : bool.
  Variables zs ws : list R.
  Variable pc : list (list R).
  Variable pp : list (list (list (R * R))).
  Variable sol : solution R.
  Variable rg : rng R.
  Variable ip : init_probs R.
  Variable data : list (out_row R).
  Hypothesis Hok : inputs_ok sp mp pc pp.
  Hypothesis Hs : solved sp mp biased zs ws pc pp sol.
  Hypothesis Hset : sim_setting rg sp sol.
  Hypothesis Hsim : simulation rg mp sp sol ip pc pp data.

  Lemma row_columns r : In r data -> exists f, let a := o_state r in o_full r = Some f /\ (0 <= o_choice r < 3)%Z /\
    (forall c, (0 <= c < 3)%Z -> at_ (f_value f) c = at_ (f_flow f) c + delta mp * at_ (f_cont f) c) /\
    (a_period a = (num_periods sp - 1)%Z -> forall c, (0 <= c < 3)%Z -> at_ (f_cont f) c = 0).
  Proof.
    intros Hr. destruct (rows_of_simulation rg mp sp biased zs ws pc pp sol Hok Hs ip data Hset Hsim) as (col & _ & H).
    destruct (H r Hr) as (z & f & _ & _ & Hfull & _ & _ & Ef & Ec & Ev & Hb). exists f. cbv zeta.
    refine (conj Hfull (conj (proj1 Hb) (conj _ _))).
    - intros c Hc. rewrite Ev, Ef, Ec. assert (c = 0 \/ c = 1 \/ c = 2)%Z as [-> | [-> | ->]] by lia; reflexivity.
    - intros Hl c Hc. rewrite Ec, three by assumption. rewrite Hl. replace (remaining sp (num_periods sp - 1)) with 0%nat by (unfold remaining; lia).
      pose proof Hok as ((_ & _ & _ & _ & _ & _ & Hg & _) & _).
      apply interpolate_zero.
      + destruct (exp_grid sp); [congruence|]. intros E. apply (f_equal (@List.length R)) in E. revert E. rewrite uniform_grid_length. discriminate.
      + rewrite map_length, uniform_grid_length. reflexivity.
      + intros v Hv. apply in_map_iff in Hv. destruct Hv as (y & <- & _). reflexivity.
  Qed.

  Lemma surprise_sum rs : career (num_periods sp - 1) data rs -> forall r rs', rs = r :: rs' ->
    forall us v ss, Forall2 chosen_flow rs us -> chosen_value r v -> surprises rs ss ->
    discounted (delta mp) us = v + delta mp * discounted (delta mp) ss.
  Proof.
    induction 1 as [r0 Hr0 Hlast | r0 r1 rs Hfo Hca IH]; intros r rs' E us v ss Hus Hv Hss.
    - injection E as <- <-. inversion Hss. subst. destruct (forall2_cons_inv _ _ _ _ Hus) as (u & us' & -> & Hu & Hnil). apply forall2_nil_inv in Hnil. rewrite Hnil.
      destruct (row_columns r0 Hr0) as (f & Hfull & Hc & Hval & Hz). destruct Hu as (f1 & F1 & ->). destruct Hv as (f2 & F2 & ->).
      assert (f1 = f) by congruence. assert (f2 = f) by congruence. subst f1 f2. cbn [discounted]. rewrite Hval by exact Hc.
      unfold row_period in Hlast. rewrite (Hz Hlast _ Hc). ring.
    - injection E as <- <-. destruct (forall2_cons_inv _ _ _ _ Hus) as (u & us' & -> & Hu & Hrest).
      inversion Hss as [|q q' qs s ss' Hs1 Hss' Q1 Q2]. subst. destruct Hs1 as (f0 & v1 & F0 & Hv1 & ->).
      destruct (row_columns r0 (proj1 Hfo)) as (f & Hfull & Hc & Hval & _). destruct Hu as (f1 & F1 & ->). destruct Hv as (f2 & F2 & ->).
      assert (f0 = f) by congruence. assert (f1 = f) by congruence. assert (f2 = f) by congruence. subst f0 f1 f2.
      cbn [discounted]. rewrite (IH r1 rs eq_refl us' v1 ss' Hrest Hv1 Hss'). rewrite (Hval _ Hc). ring.
  Qed.
End Run.

Section Life.
  Variable sp : model_spec R.
  Variable mp : model_params R.
  Variables zs ws : list R.
  Variable pc : list (list R).
  Variable pp : list (list (list (R * R))).
  Variable L : R.
  Variable k : nat.
  Hypothesis Hok : inputs_ok sp mp pc pp.
  Hypothesis Hw : nonneg_weights zs ws.
  Hypothesis Hw1 : average (fun _ => 1) (combine zs ws) = 1.
  Hypothesis Hp : probabilities sp pc pp.
  Hypothesis Hk : (2 <= k)%nat.
  Hypothesis Hg : exp_grid sp = uniform_grid k.
  Hypothesis Hd : 0 <= delta mp.
  Hypothesis HL : 0 <= L.
  Hypothesis Hf : flows_lipschitz L sp mp false (combine zs ws).
  Hypothesis Hu1 : unscaled sp.
  Hypothesis Hu2 : no_costs_for_older sp.
  Hypothesis Hu3 : benefits_paid sp.
  Hypothesis Hfl : floors_clear sp mp (combine zs ws).
  Notation h := (1 / INR (k - 1)).
  Notation XC := (exact_continuation sp mp (is_elterngeld sp) false (combine zs ws) (child_fun pc) (partner_fun pp)).
  Notation X := (exact_value sp mp (is_elterngeld sp) false (combine zs ws) (child_fun pc) (partner_fun pp)).
  Notation C := (continuation sp mp (is_elterngeld sp) false (combine zs ws) (child_fun pc) (partner_fun pp)).

  Definition read (t e ty a m c : Z) (x : R) : R :=
    interpolate (uniform_grid (List.length (exp_grid sp))) (map (C (remaining sp t) t e ty a m c) (exp_grid sp)) (clip01 x).
  Notation W := (mean_worth sp mp read (combine zs ws)).
  Notation LF := (life sp mp read (combine zs ws) (child_fun pc) (partner_fun pp)).
  Notation LA := (life_after sp mp read (combine zs ws) (child_fun pc) (partner_fun pp)).

  Lemma read_near t e l ty a m c x : in_space sp t e l ty a m -> (0 <= c < 3)%Z -> 0 <= x <= 1 ->
    near (L * h * report_error (delta mp) (remaining sp t)) (XC (remaining sp t) t e ty a m c x) (read t e ty a m c x).
  Proof.
    intros Hin Hc Hx. unfold read. rewrite (clip01_id _ Hx).
    exact (read_table sp mp false zs ws pc pp L k Hok Hw Hw1 Hp Hk Hg Hd HL Hf t e l ty a m c x Hin Hc Hx).
  Qed.

  (** what is decided is nearly optimal: average value *)
  Lemma worth_near t e l ty a m x n : in_space sp t e l ty a m -> remaining sp t = n -> 0 <= x <= 1 ->
    near (L * h * (delta mp * report_error (delta mp) n)) (X n t e l ty a m x) (W t e l ty a m x).
  Proof.
    intros Hin Hn Hx. rewrite exact_eq. unfold mean_worth. apply average_near; try assumption. intros z w Hz. cbv zeta.
    rewrite (first_best_best3 _ _ (rule_first_best _ _ _ _ _ _ _ _ _ _ _)). apply best3_near. intros c Hc. unfold worth.
    rewrite same_flow; try assumption; [|exact (Hfl _ _ _ _ _ _ _ _ _ _ Hin Hx Hz Hc)].
    replace (L * h * (delta mp * report_error (delta mp) n)) with (delta mp * (L * h * report_error (delta mp) n)) by ring.
    apply near_scaled; [assumption|]. subst n. eapply read_near; eassumption.
  Qed.

  Lemma next_near v v' r t e l ty a m c x : in_space sp t e l ty a m -> (t < num_periods sp - 1)%Z -> (0 <= c < 3)%Z ->
    (forall age m' y, in_space sp (t + 1) e c ty age m' -> 0 <= y <= 1 -> near r (v (t + 1)%Z e c ty age m' y) (v' (t + 1)%Z e c ty age m' y)) ->
    near r (exact_next sp mp false (child_fun pc) (partner_fun pp) v t e ty a m c x)
           (exact_next sp mp false (child_fun pc) (partner_fun pp) v' t e ty a m c x).
  Proof.
    intros Hin Ht Hc H. unfold exact_next. cbv zeta. pose proof Hok as ((_ & _ & _ & Hca & Hie & _) & _).
    pose proof Hin as Hin'. unfold in_space in Hin'. destruct (Hp t e ltac:(lia) ltac:(lia)) as (PB & PM). destruct (PM m ltac:(lia)) as (P1 & P2 & P3).
    assert (S : forall age m', (age = aged sp a \/ age = 0)%Z -> (0 <= m' < 2)%Z ->
       near r (v (t + 1)%Z e c ty age m' (stock_next sp mp false t e a c x)) (v' (t + 1)%Z e c ty age m' (stock_next sp mp false t e a c x))).
    { intros age m' Hage Hm'. apply H; [|apply stock_next_unit]. eapply successors; try eassumption; lia. }
    apply mix_near; try assumption; apply S; auto; lia.
  Qed.

  (** averaged over what may happen, nothing is gained or lost *)
  Lemma surprises_near t e l ty a m c x n : in_space sp t e l ty a m -> remaining sp t = S n -> (0 <= c < 3)%Z -> 0 <= x <= 1 ->
    near (L * h * (report_error (delta mp) (S n) + delta mp * report_error (delta mp) n))
      (exact_next sp mp false (child_fun pc) (partner_fun pp) W t e ty a m c x) (read t e ty a m c x).
  Proof.
    intros Hin Hn Hc Hx. rewrite Rmult_plus_distr_l, Rplus_comm. pose proof Hin as Hin'. unfold in_space in Hin'. unfold remaining in Hn.
    eapply near_trans; [|pose proof (read_near t e l ty a m c x Hin Hc Hx) as A; unfold remaining in A; rewrite Hn in A; exact A].
    cbn [exact_continuation]. apply next_near with (l := l); try assumption; [lia|]. intros age m' y Hi Hy. apply near_sym. apply worth_near; try assumption.
    unfold remaining. lia.
  Qed.

  Lemma life_eq n t e l ty a m x : LF n t e l ty a m x
    = average (fun z => let s := z * shock_sd mp in let c := rule sp mp read t e l ty a m x s in
        sim_flow sp mp t e l ty a m x s c + delta mp * LA n t e ty a m c x) (combine zs ws).
  Proof. destruct n; reflexivity. Qed.

  Lemma life_near n : forall t e l ty a m, in_space sp t e l ty a m -> remaining sp t = n -> forall c x, (0 <= c < 3)%Z -> 0 <= x <= 1 ->
    near (L * h * life_error (delta mp) n) (LA n t e ty a m c x) (read t e ty a m c x).
  Proof.
    induction n as [|n IH]; intros t e l ty a m Hin Hn c x Hc Hx.
    - pose proof (read_near t e l ty a m c x Hin Hc Hx) as A. rewrite Hn in A. exact A.
    - cbn [life_after life_error]. pose proof Hin as Hin'. unfold in_space in Hin'. pose proof Hn as Hn'. unfold remaining in Hn'.
      replace (L * h * (report_error (delta mp) (S n) + delta mp * (report_error (delta mp) n + life_error (delta mp) n)))
        with (L * h * (delta mp * life_error (delta mp) n) + L * h * (report_error (delta mp) (S n) + delta mp * report_error (delta mp) n)) by ring.
      eapply near_trans; [|eapply surprises_near; eassumption].
      apply next_near with (l := l); try assumption; [lia|]. intros age m' y Hi Hy. rewrite life_eq. unfold mean_worth.
      apply average_near; try assumption. intros z w Hz. cbv zeta. unfold worth.
      replace (L * h * (delta mp * life_error (delta mp) n)) with (delta mp * (L * h * life_error (delta mp) n)) by ring.
      apply near_scaled; [assumption|]. eapply IH; try eassumption; [unfold remaining; lia|]. apply rule_first_best.
  Qed.

  Lemma read_acted sol : solved sp mp false zs ws pc pp sol -> acted_upon sp mp zs ws pc pp sol read.
  Proof.
    intros Hs. split.
    - intros t e l ty a m g c v Hin Hgl Hc Hv.
      assert (Hx : nth_error (exp_grid sp) g = Some (nth g (exp_grid sp) 0)) by (apply nth_error_nth'; lia).
      rewrite (solver_cont _ _ _ _ _ _ _ Hok _ _ _ _ _ _ _ _ Hin Hx _ _ Hc Hv).
      assert (Hgl' : (g < k)%nat) by (rewrite Hg, uniform_grid_length in Hgl; exact Hgl).
      assert (Hu : 0 <= nth g (exp_grid sp) 0 <= 1).
      { rewrite Hg, uniform_grid_nth by assumption. assert (P : 0 < INR (k - 1)) by (apply lt_0_INR; lia).
        assert (Q : INR g <= INR (k - 1)) by (apply le_INR; lia). pose proof (pos_INR g). split.
        - apply Rmult_le_pos; [assumption|]. left. apply Rinv_0_lt_compat. assumption.
        - apply Rmult_le_reg_r with (INR (k - 1)); [assumption|]. unfold Rdiv. rewrite Rmult_assoc, Rinv_l by lra. lra. }
      unfold read. rewrite (clip01_id _ Hu).
      replace (uniform_grid (List.length (exp_grid sp))) with (exp_grid sp) by (rewrite Hg at 2; rewrite uniform_grid_length; exact Hg).
      assert (Hi : increasing (exp_grid sp)) by (rewrite Hg; apply uniform_increasing).
      rewrite <- interp_spec; [|exact Hi|intros E; rewrite E in Hgl; cbn in Hgl; lia|apply map_length].
      rewrite interp_at_grid; [|exact Hi|apply map_length|assumption].
      rewrite (nth_indep _ 0 (C (remaining sp t) t e ty a m c 0)) by (rewrite map_length; assumption). apply map_nth.
    - intros rg ip data Hset Hsim r Hr.
      destruct (rows_of_simulation rg mp sp false zs ws pc pp sol Hok Hs ip data Hset Hsim) as (col & _ & H).
      destruct (H r Hr) as (z & f & _ & Hsh & Hfull & _ & _ & Ef & Ec & Ev & Hb). exists f, z. cbv zeta.
      assert (EC : forall c, (0 <= c < 3)%Z -> at_ (f_cont f) c
        = read (a_period (o_state r)) (a_educ (o_state r)) (a_type (o_state r)) (a_age (o_state r)) (a_partner (o_state r)) c (a_stock (o_state r))).
      { intros c Hc. rewrite Ec, three by assumption. reflexivity. }
      refine (conj Hfull (conj Hsh (conj EC _))).
      eapply first_best_unique; [|apply rule_first_best]. eapply first_best_ext; [|exact Hb]. intros c Hc. unfold worth.
      change (nth (Z.to_nat c) (f_value f) 0) with (at_ (f_value f) c). rewrite <- EC by assumption.
      rewrite Ev, Ef, Ec. assert (c = 0 \/ c = 1 \/ c = 2)%Z as [-> | [-> | ->]] by lia; reflexivity.
  Qed.
End Life.

(** births enter only through their probabilities *)
Lemma life_births sp mp K draws pb pb' pp : (0 <= child_age_max sp)%Z ->
  (forall t e, (0 <= t < num_periods sp - 1)%Z -> (0 <= e < num_educ_levels sp)%Z -> pb t e = pb' t e) ->
  forall n t e l ty a m c x, in_space sp t e l ty a m -> (t + Z.of_nat n = num_periods sp - 1)%Z -> (0 <= c < 3)%Z ->
  life_after sp mp K draws pb pp n t e ty a m c x = life_after sp mp K draws pb' pp n t e ty a m c x.
Proof.
  intros Hca E n. induction n as [|n IH]; intros t e l ty a m c x Hin Hn Hc; [reflexivity|].
  cbn [life_after]. unfold exact_next. cbv zeta. pose proof Hin as Hin'. unfold in_space in Hin'. rewrite (E t e) by lia.
  assert (S : forall age m' y, (age = aged sp a \/ age = 0)%Z -> (0 <= m' < 2)%Z ->
    life sp mp K draws pb pp n (t + 1) e c ty age m' y = life sp mp K draws pb' pp n (t + 1) e c ty age m' y).
  { intros age m' y Hage Hm'. assert (Hi : in_space sp (t + 1) e c ty age m').
    { apply (successors sp Hca t e l ty a m c Hin ltac:(lia) Hc); assumption. }
    assert (G : forall q, life sp mp K draws q pp n (t + 1) e c ty age m' y
      = average (fun z => let s := z * shock_sd mp in let c' := rule sp mp K (t + 1) e c ty age m' y s in
          sim_flow sp mp (t + 1) e c ty age m' y s c' + delta mp * life_after sp mp K draws q pp n (t + 1) e ty age m' c' y) draws)
      by (intros q; destruct n; reflexivity).
    rewrite !G. apply average_ext'. intros z. cbv zeta. do 2 f_equal.
    apply (IH (t + 1)%Z e c ty age m'); [exact Hi|lia|]. apply rule_first_best. }
  rewrite !S by (auto; lia). reflexivity.
Qed.
