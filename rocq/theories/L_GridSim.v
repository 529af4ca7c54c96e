(** Reported continuation values against the model with a continuous stock (C81); careers
    in a world without risk (C82). *)
From Coq Require Import Reals Lra Lia ZArith List Arith String.
From Verif Require Import Base Num M_Params M_Experience M_Tax M_StateSpace M_Exog M_Sim L_Num S_Experience L_Experience S_Interp L_Interp
  S_Tax L_Tax S_Benefits L_Benefits S_StateSpace L_StateSpace S_Bellman L_Bellman S_Solver L_Value L_Solver L_Mono S_Rng S_Sim L_SimUpdate L_SimProps
  S_SimInputs L_SimFlow L_SimCompare S_Reform S_Stability L_Stability S_Grid L_Grid S_GridSim.
Import ListNotations.
Open Scope R_scope.

Lemma interpolate_near_values g f f' x r : increasing g -> spans_unit g -> 0 <= x <= 1 ->
  (forall y, In y g -> near r (f y) (f' y)) -> near r (interpolate g (map f g) x) (interpolate g (map f' g) x).
Proof.
  intros Hi Hu Hx H. destruct (unit_segment g x Hi Hu Hx) as [Hs Hb]. destruct Hu as (Hn & _ & _).
  rewrite !interpolate_chord by (try assumption; apply map_length). unfold grid_chord. set (k := seg g x) in *.
  assert (Hlt : nth k g 0 < nth (S k) g 0) by (apply Hi; lia).
  assert (N : forall h j, (j < List.length g)%nat -> nth j (map h g) 0 = h (nth j g 0)).
  { intros h j Hj. rewrite (nth_indep _ 0 (h 0)) by (rewrite map_length; assumption). apply map_nth. }
  rewrite !N by lia.
  assert (H0 := H _ (nth_In g 0 (n := k) ltac:(lia))). assert (H1 := H _ (nth_In g 0 (n := S k) ltac:(lia))).
  unfold near in *. apply Rabs_le_inv in H0. apply Rabs_le_inv in H1. apply Rabs_le. unfold chord.
  set (w := (x - nth k g 0) / (nth (S k) g 0 - nth k g 0)).
  assert (Hw : 0 <= w <= 1).
  { unfold w. split; [apply Rmult_le_pos; [lra|left; apply Rinv_0_lt_compat; lra]|].
    apply Rmult_le_reg_r with (nth (S k) g 0 - nth k g 0); [lra|]. unfold Rdiv. rewrite Rmult_assoc, Rinv_l by lra. lra. }
  set (a0 := f (nth k g 0)) in *. set (a1 := f (nth (S k) g 0)) in *. set (b0 := f' (nth k g 0)) in *. set (b1 := f' (nth (S k) g 0)) in *.
  assert (0 <= w * (r - (b1 - a1))) by (apply Rmult_le_pos; lra). assert (0 <= (1 - w) * (r - (b0 - a0))) by (apply Rmult_le_pos; lra).
  assert (0 <= w * (r + (b1 - a1))) by (apply Rmult_le_pos; lra). assert (0 <= (1 - w) * (r + (b0 - a0))) by (apply Rmult_le_pos; lra).
  split; lra.
Qed.

Lemma clip01_unit x : 0 <= clip01 x <= 1.
Proof. unfold clip01. rmm; lra. Qed.
Lemma clip01_id x : 0 <= x <= 1 -> clip01 x = x.
Proof. intros. unfold clip01. rmm; lra. Qed.

Lemma three c : (0 <= c < 3)%Z -> forall f : Z -> R, at_ (map f [0; 1; 2]%Z) c = f c.
Proof. intros Hc f. assert (c = 0 \/ c = 1 \/ c = 2)%Z as [-> | [-> | ->]] by lia; reflexivity. Qed.

Lemma forall2_cons_inv {A B} (P : A -> B -> Prop) x l us : Forall2 P (x :: l) us -> exists u us', us = u :: us' /\ P x u /\ Forall2 P l us'.
Proof. intros H. inversion H. eauto. Qed.
Lemma forall2_nil_inv {A B} (P : A -> B -> Prop) us : Forall2 P [] us -> us = [].
Proof. intros H. inversion H. reflexivity. Qed.

Section Run.
  Variable sp : model_spec R.
  Variable mp : model_params R.
  Variable biased : bool.
  Variables zs ws : list R.
  Variable pc : list (list R).
  Variable pp : list (list (list (R * R))).
  Variable sol : solution R.
  Variable rg : rng R.
  Variable ip : init_probs R.
  Variable data : list (out_row R).
  Variables L : R.
  Variable k : nat.
  Hypothesis Hok : inputs_ok sp mp pc pp.
  Hypothesis Hs : solved sp mp biased zs ws pc pp sol.
  Hypothesis Hset : sim_setting rg sp sol.
  Hypothesis Hsim : simulation rg mp sp sol ip pc pp data.
  Hypothesis Hw : nonneg_weights zs ws.
  Hypothesis Hw1 : average (fun _ => 1) (combine zs ws) = 1.
  Hypothesis Hp : probabilities sp pc pp.
  Hypothesis Hk : (2 <= k)%nat.
  Hypothesis Hg : exp_grid sp = uniform_grid k.
  Hypothesis Hd : 0 <= delta mp.
  Hypothesis HL : 0 <= L.
  Hypothesis Hf : flows_lipschitz L sp mp biased (combine zs ws).
  Notation h := (1 / INR (k - 1)).
  Notation XC := (exact_continuation sp mp (is_elterngeld sp) biased (combine zs ws) (child_fun pc) (partner_fun pp)).
  Notation X := (exact_value sp mp (is_elterngeld sp) biased (combine zs ws) (child_fun pc) (partner_fun pp)).
  Notation C := (continuation sp mp (is_elterngeld sp) biased (combine zs ws) (child_fun pc) (partner_fun pp)).

  Lemma h_pos : 0 <= h.
  Proof. apply Rmult_le_pos; [lra|]. left. apply Rinv_0_lt_compat. apply lt_0_INR. lia. Qed.

  Lemma read_table t e l ty a m c x : in_space sp t e l ty a m -> (0 <= c < 3)%Z -> 0 <= x <= 1 ->
    near (L * h * report_error (delta mp) (remaining sp t)) (XC (remaining sp t) t e ty a m c x)
      (interpolate (uniform_grid (List.length (exp_grid sp))) (map (C (remaining sp t) t e ty a m c) (exp_grid sp)) x).
  Proof.
    intros Hin Hc Hx. pose proof (remaining_eq _ _ _ _ _ _ _ Hin) as Hr.
    pose proof Hok as ((_ & _ & _ & Hca & Hie & _) & _).
    assert (HB : births_ok sp (child_fun pc)) by (intros t' e' Ht' He'; apply (Hp t' e' Ht' He')).
    assert (HP : partners_ok sp (partner_fun pp)) by (intros t' e' m' Ht' He' Hm'; apply (Hp t' e' Ht' He'); assumption).
    assert (Hi : increasing (exp_grid sp)) by (rewrite Hg; apply uniform_increasing).
    assert (Hu : spans_unit (exp_grid sp)) by (rewrite Hg; apply uniform_spans; assumption).
    assert (Hm : mesh (exp_grid sp) h) by (rewrite Hg; apply uniform_mesh; assumption).
    replace (uniform_grid (List.length (exp_grid sp))) with (exp_grid sp) by (rewrite Hg at 2; rewrite uniform_grid_length; assumption).
    set (n := remaining sp t) in *.
    assert (A : near (cont_slope mp L n * h) (XC n t e ty a m c x) (interpolate (exp_grid sp) (map (XC n t e ty a m c) (exp_grid sp)) x)).
    { apply interpolate_near; try assumption; [apply slope_pos; assumption|]. intros u v Hu' Hv'.
      apply (exact_lipschitz sp mp biased (combine zs ws) (child_fun pc) (partner_fun pp) L Hca Hie Hd HL HB HP Hw Hw1 Hf n t e l ty a m Hin Hr); assumption. }
    assert (B : near (L * h * cont_error (delta mp) n) (interpolate (exp_grid sp) (map (XC n t e ty a m c) (exp_grid sp)) x)
                  (interpolate (exp_grid sp) (map (C n t e ty a m c) (exp_grid sp)) x)).
    { apply interpolate_near_values; try assumption. intros y Hy.
      apply (grid_close sp mp biased (combine zs ws) (child_fun pc) (partner_fun pp) L Hca Hie Hd HL HB HP Hw Hw1 Hf h Hi Hu Hm n t e l ty a m Hin Hr y). assumption. }
    unfold near in *. apply Rabs_le_inv in A. apply Rabs_le_inv in B. apply Rabs_le.
    assert (E : L * h * report_error (delta mp) n = cont_slope mp L n * h + L * h * cont_error (delta mp) n)
      by (destruct n; cbn [report_error cont_slope cont_error]; ring).
    rewrite E. lra.
  Qed.

  Lemma reported_rows r : In r data -> exists f z, let a := o_state r in
    o_full r = Some f /\
    (forall c, (0 <= c < 3)%Z ->
       at_ (f_flow f) c = sim_flow sp mp (a_period a) (a_educ a) (a_lagged a) (a_type a) (a_age a) (a_partner a) (a_stock a) (z * shock_sd mp) c) /\
    (forall c, (0 <= c < 3)%Z ->
       near (L * h * report_error (delta mp) (remaining sp (a_period a)))
         (XC (remaining sp (a_period a)) (a_period a) (a_educ a) (a_type a) (a_age a) (a_partner a) c (clip01 (a_stock a)))
         (at_ (f_cont f) c)) /\
    (forall c, (0 <= c < 3)%Z -> at_ (f_value f) c = at_ (f_flow f) c + delta mp * at_ (f_cont f) c) /\
    first_best (at_ (f_value f)) (o_choice r) /\ agent_in_space sp a.
  Proof.
    intros Hr. destruct (rows_of_simulation rg mp sp biased zs ws pc pp sol Hok Hs ip data Hset Hsim) as (col & _ & H).
    destruct (H r Hr) as (z & f & _ & _ & Hfull & _ & _ & Ef & Ec & Ev & Hb). exists f, z. cbv zeta.
    assert (Hin : agent_in_space sp (o_state r)).
    { destruct Hset as (S1 & S2 & S3). destruct Hsim as (g & g' & Hd'). exact (proj1 (listed _ _ _ _ _ _ _ _ S1 S2 S3 g g' data Hd' r Hr)). }
    refine (conj Hfull (conj _ (conj _ (conj _ (conj Hb Hin))))).
    - intros c Hc. rewrite Ef. rewrite three by assumption. reflexivity.
    - intros c Hc. rewrite Ec, three by assumption. eapply read_table; [exact Hin|assumption|apply clip01_unit].
    - intros c Hc. rewrite Ev, Ef, Ec. assert (c = 0 \/ c = 1 \/ c = 2)%Z as [-> | [-> | ->]] by lia; reflexivity.
  Qed.

  Lemma nearly_optimal r : In r data -> exists f, let a := o_state r in
    o_full r = Some f /\ (0 <= o_choice r < 3)%Z /\
    forall c, (0 <= c < 3)%Z ->
      let exact c := at_ (f_flow f) c + delta mp * XC (remaining sp (a_period a)) (a_period a) (a_educ a) (a_type a) (a_age a) (a_partner a) c
                                                      (clip01 (a_stock a)) in
      exact c <= exact (o_choice r) + 2 * delta mp * (L * h * report_error (delta mp) (remaining sp (a_period a))).
  Proof.
    intros Hr. destruct (reported_rows r Hr) as (f & z & Hfull & _ & Hc & Hv & (Hb0 & Hb & _) & _). exists f. cbv zeta in *.
    refine (conj Hfull (conj Hb0 _)). intros c Hcc. pose proof (Hb c Hcc) as Hle. rewrite !Hv in Hle by assumption.
    pose proof (Hc c Hcc) as N1. pose proof (Hc _ Hb0) as N2. unfold near in N1, N2. apply Rabs_le_inv in N1. apply Rabs_le_inv in N2.
    set (e := L * h * _) in *.
    assert (M1 := Rmult_le_compat_l _ _ _ Hd (proj1 N1)). assert (M2 := Rmult_le_compat_l _ _ _ Hd (proj2 N2)).
    set (x1 := XC _ _ _ _ _ _ c _) in *. set (x2 := XC _ _ _ _ _ _ (o_choice r) _) in *. lra.
  Qed.

  (** *** a world without risk *)
  Hypothesis Hnb : biased = false.
  Hypothesis Hsd : shock_sd mp = 0.
  Hypothesis Hcb : certain_births sp pc.
  Hypothesis Hcp : certain_partners sp pp.
  Hypothesis Hu1 : unscaled sp.
  Hypothesis Hu2 : no_costs_for_older sp.
  Hypothesis Hu3 : benefits_paid sp.

  Lemma sure_value n t e l ty a m x z :
    X n t e l ty a m x = best3 (fun c => flow sp mp (is_elterngeld sp) biased t e l ty a m x c z + delta mp * XC n t e ty a m c x).
  Proof.
    rewrite exact_eq.
    rewrite (average_ext' _ (fun _ => best3 (fun c => flow sp mp (is_elterngeld sp) biased t e l ty a m x c z + delta mp * XC n t e ty a m c x))).
    - rewrite average_const, Hw1. ring.
    - intros z'. unfold flow. rewrite Hsd, !Rmult_0_r. reflexivity.
  Qed.

  Lemma table_birth t e p row : (0 <= t)%Z -> (0 <= e)%Z -> np_get pc t = Ok row -> np_get row e = Ok p -> child_fun pc t e = p.
  Proof.
    intros Ht He E1 E2. unfold child_fun, at_.
    apply np_get_zat_inv in E1; [|assumption]. unfold zat in E1. destruct (t <? 0)%Z; [discriminate|]. rewrite (nth_error_nth _ _ [] E1).
    apply np_get_zat_inv in E2; [|assumption]. unfold zat in E2. destruct (e <? 0)%Z; [discriminate|]. apply nth_error_nth. exact E2.
  Qed.
  Lemma table_partner t e m pr : (0 <= t)%Z -> (0 <= e)%Z -> (0 <= m)%Z -> partner_prob pp t e m = Ok pr ->
    fst pr = partner_fun pp t e m 0 /\ snd pr = partner_fun pp t e m 1.
  Proof.
    intros Ht He Hm E. unfold partner_prob in E. destruct (np_get pp t) as [r1|] eqn:E1; cbn [bind] in E; [|discriminate].
    destruct (np_get r1 e) as [r2|] eqn:E2; cbn [bind] in E; [|discriminate].
    unfold partner_fun.
    apply np_get_zat_inv in E1; [|assumption]. unfold zat in E1. destruct (t <? 0)%Z; [discriminate|]. rewrite (nth_error_nth _ _ [] E1).
    apply np_get_zat_inv in E2; [|assumption]. unfold zat in E2. destruct (e <? 0)%Z; [discriminate|]. rewrite (nth_error_nth _ _ [] E2).
    apply np_get_zat_inv in E; [|assumption]. unfold zat in E. destruct (m <? 0)%Z; [discriminate|]. rewrite (nth_error_nth _ _ (0, 0) E).
    split; reflexivity.
  Qed.

  (** what the solver anticipates happens *)
  Lemma certain_next r r' n : follows data r r' -> let a := o_state r in
    0 <= a_stock a <= 1 -> (remaining sp (a_period a) = S n) ->
    XC (S n) (a_period a) (a_educ a) (a_type a) (a_age a) (a_partner a) (o_choice r) (a_stock a)
    = X n (a_period (o_state r')) (a_educ (o_state r')) (a_lagged (o_state r')) (a_type (o_state r')) (a_age (o_state r')) (a_partner (o_state r'))
        (a_stock (o_state r')).
  Proof.
    intros Hfo a Hx Hn. destruct Hset as (S1 & S2 & S3). destruct Hsim as (g & g' & Hd').
    destruct (history rg mp sp sol ip pc pp false S1 S2 S3 g g' data Hd' r r' Hfo) as (G1 & G2 & G3 & _).
    destruct (demography rg mp sp sol ip pc pp false S1 S2 S3 g g' data Hd' r r' Hfo) as (D1 & D2 & D3 & D4 & D5 & D6).
    pose proof (next_stock_law rg mp sp sol ip pc pp false S1 S2 S3 g g' data Hd' r r' Hfo) as Est.
    pose proof (proj1 (listed _ _ _ _ _ _ _ _ S1 S2 S3 g g' data Hd' r (proj1 Hfo))) as Hin.
    destruct Hfo as (_ & _ & _ & Eper). unfold row_period in *. fold a in G1, G2, D1, D2, D3, D4, D5, Est, Hin, Eper.
    unfold agent_in_space, in_space in Hin. unfold remaining in Hn.
    assert (Ht : (0 <= a_period a < num_periods sp - 1)%Z) by lia.
    rewrite next_stock_spec in Est by (try apply Hok; lia). rewrite Est, Eper, G1, G2, G3.
    cbn [exact_continuation]. unfold exact_next. cbv zeta. rewrite Hnb.
    destruct (Hcb (a_period a) (a_educ a) Ht ltac:(lia)) as (B0 & B1 & B2).
    destruct (Hcp (a_period a) (a_educ a) (a_partner a) Ht ltac:(lia) ltac:(lia)) as (P0 & P1).
    assert (Hage : (child_fun pc (a_period a) (a_educ a) = 0 /\ a_age (o_state r') = aged sp (a_age a)) \/
                   (child_fun pc (a_period a) (a_educ a) = 1 /\ a_age (o_state r') = 0%Z)).
    { destruct (Z.le_gt_cases (a_period a) (last_child_bearing_period sp)) as [Hl|Hl].
      - destruct (D1 Hl) as (row & p & d & E1 & E2 & Hdr & _ & Ha).
        pose proof (table_birth (a_period a + 1) (a_educ a) p row ltac:(lia) ltac:(lia) E1 E2) as Ep. rewrite (B1 Hl) in Ep.
        destruct B0 as [E|E]; rewrite E in *; subst p.
        + left. split; [reflexivity|]. apply (drawn_zero rg S1) in Hdr. subst d. exact Ha.
        + right. split; [reflexivity|]. apply (drawn_one rg S1) in Hdr. subst d. exact Ha.
      - left. split; [apply B2; lia|]. apply D2. lia. }
    assert (Hpar : (partner_fun pp (a_period a) (a_educ a) (a_partner a) 0 = 1 /\ partner_fun pp (a_period a) (a_educ a) (a_partner a) 1 = 0 /\ a_partner (o_state r') = 0%Z) \/
                   (partner_fun pp (a_period a) (a_educ a) (a_partner a) 0 = 0 /\ partner_fun pp (a_period a) (a_educ a) (a_partner a) 1 = 1 /\ a_partner (o_state r') = 1%Z)).
    { destruct D5 as [Em|Em]; rewrite Em in P0, P1, D3, D4 |- *.
      - destruct (D3 eq_refl) as (pr & Epr & Hdr). destruct (table_partner (a_period a) (a_educ a) 0%Z pr ltac:(lia) ltac:(lia) ltac:(lia) Epr) as [_ F2]. rewrite F2 in Hdr.
        destruct P0 as [E|E].
        + assert (E1 : partner_fun pp (a_period a) (a_educ a) 0 1 = 1) by lra. rewrite E1 in *. right. apply (drawn_one rg S1) in Hdr. repeat split; assumption.
        + assert (E1 : partner_fun pp (a_period a) (a_educ a) 0 1 = 0) by lra. rewrite E1 in *. left. apply (drawn_zero rg S1) in Hdr. repeat split; assumption.
      - destruct (D4 eq_refl) as (pr & s & Epr & Hdr & Es). destruct (table_partner (a_period a) (a_educ a) 1%Z pr ltac:(lia) ltac:(lia) ltac:(lia) Epr) as [F1 _]. rewrite F1 in Hdr.
        destruct P0 as [E|E]; rewrite E in Hdr.
        + right. apply (drawn_zero rg S1) in Hdr. subst s. split; [assumption|]. split; [lra|]. exact Es.
        + left. apply (drawn_one rg S1) in Hdr. subst s. split; [assumption|]. split; [lra|]. exact Es. }
    destruct Hage as [(-> & ->) | (-> & ->)]; destruct Hpar as [(-> & -> & ->) | (-> & -> & ->)]; ring.
  Qed.

  Lemma chosen_is_max (r : out_row R) f : (forall c, (0 <= c < 3)%Z -> at_ (f_value f) c = at_ (f_flow f) c + delta mp * at_ (f_cont f) c) ->
    first_best (at_ (f_value f)) (o_choice r) -> at_ (f_value f) (o_choice r) = best3 (fun c => at_ (f_flow f) c + delta mp * at_ (f_cont f) c).
  Proof.
    intros Hv (Hc & Hb & _). pose proof (Hb 0%Z ltac:(lia)). pose proof (Hb 1%Z ltac:(lia)). pose proof (Hb 2%Z ltac:(lia)).
    unfold best3. rewrite <- !Hv by lia. assert (o_choice r = 0 \/ o_choice r = 1 \/ o_choice r = 2)%Z as [E | [E | E]] by lia; rewrite E in *; rmm; lra.
  Qed.

  Lemma career_value rs : career (num_periods sp - 1) data rs -> forall r rs', rs = r :: rs' ->
    0 <= a_stock (o_state r) <= 1 -> (forall q, In q rs -> row_above_floor sp mp q) ->
    forall us v, Forall2 chosen_flow rs us -> chosen_value r v ->
    near (L * h * career_error (delta mp) (remaining sp (row_period r))) (discounted (delta mp) us) v.
  Proof.
    induction 1 as [r0 Hr0 Hlast | r0 r1 rs Hfo Hca IH]; intros r rs' E Hx Hfl us v Hus Hv.
    - injection E as <- <-. destruct (forall2_cons_inv _ _ _ _ Hus) as (u & us' & -> & Hu & Hnil). apply forall2_nil_inv in Hnil. rewrite Hnil. clear Hnil Hus us'.
      destruct (reported_rows r0 Hr0) as (f & z & Hfull & Hflow & Hc & Hval & Hb & Hin). cbv zeta in *.
      destruct Hu as (f1 & F1 & ->). destruct Hv as (f2 & F2 & ->). assert (f1 = f) by congruence. assert (f2 = f) by congruence. subst f1 f2.
      assert (En : remaining sp (row_period r0) = 0%nat) by (unfold remaining; rewrite Hlast; lia).
      unfold row_period in *. rewrite En in *. cbn [career_error discounted exact_continuation report_error] in *.
      pose proof (Hc _ (proj1 Hb)) as N. rewrite Hval by apply Hb. unfold near in *. apply Rabs_le_inv in N. apply Rabs_le.
      assert (E0 : at_ (f_cont f) (o_choice r0) = 0) by lra. rewrite E0. lra.
    - injection E as <- <-. destruct (forall2_cons_inv _ _ _ _ Hus) as (u & us' & -> & Hu & Hrest). rename us' into us.
      destruct (reported_rows r0 (proj1 Hfo)) as (f & z & Hfull & Hflow & Hc & Hval & Hb & Hin).
      destruct (reported_rows r1 (proj1 (proj2 Hfo))) as (f' & z' & Hfull' & Hflow' & Hc' & Hval' & Hb' & Hin'). cbv zeta in *.
      destruct Hu as (f1 & F1 & ->). destruct Hv as (f2 & F2 & ->). assert (f1 = f) by congruence. assert (f2 = f) by congruence. subst f1 f2.
      pose proof Hin as Hin0. unfold agent_in_space, in_space in Hin0.
      assert (Hin0' := Hin'). unfold agent_in_space, in_space in Hin0'.
      destruct Hfo as (Ha & Hb1 & Hid & Hper). assert (Hfo : follows data r0 r1) by exact (conj Ha (conj Hb1 (conj Hid Hper))).
      unfold row_period in *.
      set (n := remaining sp (a_period (o_state r1))) in *.
      assert (En : remaining sp (a_period (o_state r0)) = S n) by (unfold n, remaining; lia). rewrite En in *.
      assert (Hx' : 0 <= a_stock (o_state r1) <= 1).
      { destruct Hset as (S1 & S2 & S3). destruct Hsim as (g & g' & Hd').
        rewrite (next_stock_law rg mp sp sol ip pc pp false S1 S2 S3 g g' data Hd' r0 r1 Hfo).
        rewrite next_stock_spec by (try apply Hok; unfold row_period; lia). apply stock_next_unit. }
      rewrite (clip01_id _ Hx) in Hc. rewrite (clip01_id _ Hx') in Hc'.
      pose proof (IH r1 rs eq_refl Hx' (fun q Hq => Hfl q (or_intror Hq)) us (at_ (f_value f') (o_choice r1)) Hrest
        (ex_intro _ f' (conj Hfull' eq_refl))) as N.
      pose proof (Hc _ (proj1 Hb)) as N1. rewrite (certain_next r0 r1 n Hfo Hx En) in N1.
      assert (N2 : near (delta mp * (L * h * report_error (delta mp) n))
        (X n (a_period (o_state r1)) (a_educ (o_state r1)) (a_lagged (o_state r1)) (a_type (o_state r1)) (a_age (o_state r1)) (a_partner (o_state r1)) (a_stock (o_state r1)))
        (at_ (f_value f') (o_choice r1))).
      { rewrite (chosen_is_max r1 f' Hval' Hb'). rewrite (sure_value _ _ _ _ _ _ _ _ z'). apply best3_near. intros c Hcc.
        rewrite (Hflow' c Hcc). rewrite same_flow; try assumption.
        - rewrite Hnb. pose proof (Hc' c Hcc) as N3. rewrite Hnb in N3. unfold near in *.
          match goal with |- Rabs (?f0 + ?d * ?u0 - (?f0 + ?d * ?v0)) <= _ => replace (f0 + d * u0 - (f0 + d * v0)) with (d * (u0 - v0)) by ring end.
          rewrite Rabs_mult, (Rabs_right (delta mp)) by lra. apply Rmult_le_compat_l; assumption.
        - rewrite Hsd, Rmult_0_r. apply (Hfl r1); [right; left; reflexivity|assumption]. }
      rewrite Hval by apply Hb. cbn [discounted career_error].
      unfold near in *. fold n in N. apply Rabs_le_inv in N. apply Rabs_le_inv in N1. apply Rabs_le_inv in N2. apply Rabs_le.
      set (e1 := L * h * report_error (delta mp) (S n)) in *. set (e2 := L * h * report_error (delta mp) n) in *.
      set (e3 := L * h * career_error (delta mp) n) in *.
      replace (L * h * (delta mp * (report_error (delta mp) (S n) + delta mp * report_error (delta mp) n + career_error (delta mp) n)))
        with (delta mp * (e1 + delta mp * e2 + e3)) by (unfold e1, e2, e3; ring).
      set (V1 := at_ (f_value f') (o_choice r1)) in *. set (W := discounted (delta mp) us) in *. set (K := at_ (f_cont f) (o_choice r0)) in *.
      assert (Hgap : - (e1 + delta mp * e2 + e3) <= K - W <= e1 + delta mp * e2 + e3) by lra.
      destruct Hgap as [T1 T2]. pose proof (Rmult_le_compat_l _ _ _ Hd T1). pose proof (Rmult_le_compat_l _ _ _ Hd T2). lra.
  Qed.
End Run.
