(** Concrete cases for C80 - C82. *)
From Coq Require Import Reals Lra Lia ZArith List Arith String.
From Verif Require Import Base Num M_Params M_Experience M_Tax M_StateSpace M_Solve M_Exog M_Sim L_Num S_Experience L_Experience S_Interp L_Interp
  S_Tax L_Tax S_Benefits L_Benefits S_StateSpace L_StateSpace S_Bellman L_Bellman S_Solver L_Value L_Solver L_Mono S_Rng L_Rng S_Sim L_SimUpdate L_SimInit L_Sim L_SimProps
  S_SimInputs L_SimFlow S_SimEntry L_SimEntry L_Reserve S_SimSame S_Stability L_Stability S_Grid L_Grid S_GridSim L_GridSim X_Example L_Witness L_SimExample L_SameWitness L_CurrencyWitness.
Import ListNotations.
Open Scope R_scope.

Lemma ex_floor a : 0 < basic_support ex_spec a 0.
Proof.
  unfold basic_support. cbn [Z.eqb ex_spec regelsatz_single housing_single regelsatz_child addition_child_single housing_addtion].
  destruct (a =? -1)%Z; lra.
Qed.
Lemma ex_lipschitz mp biased draws : exists L, 0 <= L /\ flows_lipschitz L ex_spec mp biased draws.
Proof.
  apply (elterngeld_lipschitz ex_spec mp biased (215/1000) 1221); try reflexivity; try lra; [apply ex_inputs|exact ex_floor].
Qed.
Lemma ex_mesh : mesh (exp_grid ex_spec) (1/4).
Proof.
  replace (1/4) with (1 / INR (5 - 1)) by (cbn [Nat.sub INR]; lra).
  cbn [ex_spec exp_grid]. apply uniform_mesh. lia.
Qed.

(** *** Erziehungsgeld: the means test makes flow utility jump *)
Lemma erz_idle x : 0 <= x <= 1 -> flow erz_spec erz_params false false 0 0 2 0 0 0 x 0 0
  = crra (-1) ((Rmax (247/10 * (4 * x + 1)) 5 + (if Rle_dec (Rmax (247/10 * (4 * x + 1)) 5) 100 then 200 else 0)) / equivalence 0 0).
Proof.
  intros Hx. unfold flow. change (0 =? 0)%Z with true. cbn iota zeta.
  change (partner_wage erz_spec 0 0 0) with 0. change (mu erz_params) with (-1).
  assert (Hn : household_net erz_spec 0 0 = 0).
  { rewrite <- net_spec by apply tax_table_2007_ok. cbn [erz_spec tax_params ssc_deductions tax_splitting]. apply net_zero; lra. }
  rewrite Hn, (erz_hourly x Hx). unfold benefits_spec. cbv zeta.
  change (child_benefit erz_spec 0) with 0.
  assert (Hu : unemployment_benefit erz_spec 0 2 (4 * x + 1) 0 = 247/10 * (4 * x + 1)).
  { unfold unemployment_benefit, worked, last_hours. change ((2 =? 1)%Z || (2 =? 2)%Z) with true. change (2 =? 1)%Z with false. change (2 =? 2)%Z with true.
    change (0 =? -1)%Z with false. cbn iota. cbn [erz_spec alg1_replacement_child]. lra. }
  assert (Hb : basic_support erz_spec 0 0 = 5).
  { unfold basic_support. change (0 =? 1)%Z with false. change (0 =? -1)%Z with false. cbn iota.
    cbn [erz_spec regelsatz_single housing_single regelsatz_child addition_child_single housing_addtion]. lra. }
  rewrite Hu, Hb. unfold raising_allowance. change ((0 =? 0)%Z || (0 =? 1)%Z) with true. change (0 =? 1)%Z with false. cbn iota.
  cbn [erz_spec erziehungsgeld_income_threshold_single erziehungsgeld]. rewrite !Rplus_0_l. reflexivity.
Qed.

Lemma erz_jumps : ~ exists L, flows_lipschitz L erz_spec erz_params false [(0, 1)].
Proof.
  intros (L & HL).
  set (x0 := (100 / (247/10) - 1) / 4). assert (Hx0 : 7/10 <= x0 <= 8/10) by (unfold x0; lra).
  set (q := equivalence 0 0). assert (Hq : 0 < q) by (apply equivalence_pos).
  set (s := Rmin (1/10) (q / 400 / (Rabs L + 1))).
  pose proof (Rabs_pos L) as HLp.
  assert (Hs : 0 < s <= 1/10).
  { unfold s. assert (0 < q / 400 / (Rabs L + 1)) by (repeat apply Rdiv_lt_0_compat; lra). rmm; lra. }
  assert (Hls : L * s <= q / 400).
  { apply Rle_trans with ((Rabs L + 1) * (q / 400 / (Rabs L + 1))); [|apply Req_le; field; lra].
    apply Rle_trans with ((Rabs L + 1) * s).
    - apply Rmult_le_compat_r; [lra|]. pose proof (Rle_abs L). lra.
    - apply Rmult_le_compat_l; [lra|]. unfold s. apply Rmin_r. }
  assert (H : Rabs (flow erz_spec erz_params false false 0 0 2 0 0 0 (x0 + s) 0 0 - flow erz_spec erz_params false false 0 0 2 0 0 0 x0 0 0) <= L * Rabs (x0 + s - x0)).
  { apply (HL 0%Z 0%Z 2%Z 0%Z 0%Z 0%Z 0%Z 0 1); try lia; try lra; [|left; reflexivity].
    unfold in_space. cbn [erz_spec num_periods num_educ_levels num_types child_age_max]. lia. }
  rewrite !erz_idle in H by lra. fold q in H.
  replace (x0 + s - x0) with s in H by ring. rewrite (Rabs_right s) in H by lra.
  assert (E0 : 247/10 * (4 * x0 + 1) = 100) by (unfold x0; field).
  assert (E1 : 247/10 * (4 * (x0 + s) + 1) = 100 + 988/10 * s) by (clear - E0; clearbody x0; lra).
  rewrite E0, E1 in H. rewrite (Rmax_left 100 5), (Rmax_left (100 + 988/10 * s) 5) in H by lra.
  destruct (Rle_dec 100 100) as [_|]; [|lra]. destruct (Rle_dec (100 + 988/10 * s) 100) as [|_]; [lra|].
  rewrite Rplus_0_r in H.
  assert (P1 : 0 < (100 + 988/10 * s) / q) by (apply Rdiv_lt_0_compat; lra).
  assert (P2 : 0 < (100 + 200) / q) by (apply Rdiv_lt_0_compat; lra).
  rewrite !crra_minus1 in H by assumption.
  replace (/ ((100 + 988/10 * s) / q)) with (q * / (100 + 988/10 * s)) in H by (field; lra).
  replace (/ ((100 + 200) / q)) with (q * / 300) in H by (field; lra).
  assert (I : / 120 <= / (100 + 988/10 * s)) by (apply Rinv_le_contravar; lra).
  assert (Iq : q * / 120 <= q * / (100 + 988/10 * s)) by (apply Rmult_le_compat_l; lra).
  apply Rabs_le_inv in H. lra.
Qed.

(** *** a world without risk *)
Definition sure_params (g1 : list R) : model_params R :=
  {| gamma_0 := gamma_0 ex_params; gamma_1 := g1; gamma_p := gamma_p ex_params;
     gamma_p_mom := gamma_p_mom ex_params; theta_p := theta_p ex_params; theta_f := theta_f ex_params;
     no_kids_f := no_kids_f ex_params; no_kids_p := no_kids_p ex_params;
     yes_kids_f := yes_kids_f ex_params; yes_kids_p := yes_kids_p ex_params;
     child_0_2_f := child_0_2_f ex_params; child_0_2_p := child_0_2_p ex_params;
     child_3_5_f := child_3_5_f ex_params; child_3_5_p := child_3_5_p ex_params;
     child_6_10_f := child_6_10_f ex_params; child_6_10_p := child_6_10_p ex_params;
     shock_sd := 0; delta := delta ex_params; mu := mu ex_params; type_shares := type_shares ex_params |}.
Definition settled : list (list (list (R * R))) := repeat (repeat [(0, 1); (0, 1)] 3) 4.

Lemma settled_table : partner_table_ok ex_spec settled.
Proof. split; [reflexivity|]. intros r H. in_list H; (split; [reflexivity|]); intros q Hq; in_list Hq; reflexivity. Qed.
Definition flat : list R := [0; 0; 0].
Lemma sure_inputs g1 : List.length g1 = 3%nat -> inputs_ok ex_spec (sure_params g1) no_children settled.
Proof.
  intros Hl. destruct (childless_ok ex_spec ex_params ex_inputs eq_refl eq_refl) as [(H1 & _ & H3 & _) _].
  refine (conj H1 (conj _ (conj H3 settled_table))). split; [|split; unfold zlen; cbn; lia].
  intros l H. cbn [ex_spec num_educ_levels]. in_list H; unfold zlen; rewrite ?Hl; cbn; lia.
Qed.
Lemma settled_probs : partner_probs_ok ex_spec settled.
Proof.
  split; [exact settled_table|]. intros r H. in_list H; intros q Hq; in_list Hq; intros pr Hp; in_list Hp; cbn [fst snd]; lra.
Qed.
Lemma no_children_zero t e : child_fun no_children t e = 0.
Proof.
  unfold child_fun, at_, no_children.
  destruct (Z.to_nat t) as [|[|[|[|n]]]]; cbn [repeat nth]; try (destruct (Z.to_nat e) as [|[|[|k]]]; cbn [nth]; try reflexivity; destruct k; reflexivity).
  destruct n; cbn [nth]; destruct (Z.to_nat e); reflexivity.
Qed.
Lemma settled_at t e m : (0 <= t < 4)%Z -> (0 <= e < 3)%Z -> (0 <= m < 2)%Z -> partner_fun settled t e m 0 = 0 /\ partner_fun settled t e m 1 = 1.
Proof.
  intros Ht He Hm. assert (t = 0 \/ t = 1 \/ t = 2 \/ t = 3)%Z as [-> | [-> | [-> | ->]]] by lia;
    assert (e = 0 \/ e = 1 \/ e = 2)%Z as [-> | [-> | ->]] by lia; assert (m = 0 \/ m = 1)%Z as [-> | ->] by lia; split; reflexivity.
Qed.
Lemma sure_probabilities : probabilities ex_spec no_children settled.
Proof.
  intros t e Ht He. cbn [ex_spec num_periods num_educ_levels] in Ht, He. rewrite no_children_zero. split; [lra|].
  intros m Hm. destruct (settled_at t e m ltac:(lia) He Hm) as [-> ->]. lra.
Qed.
Lemma sure_births : certain_births ex_spec no_children.
Proof. intros t e _ _. rewrite !no_children_zero. split; [left; reflexivity|]. split; intros; reflexivity. Qed.
Lemma sure_partners : certain_partners ex_spec settled.
Proof.
  intros t e m Ht He Hm. cbn [ex_spec num_periods num_educ_levels] in Ht, He. destruct (settled_at t e m ltac:(lia) He Hm) as [-> ->]. split; [left; reflexivity|lra].
Qed.

Lemma sure_resources g1 t e l ty a m x c : (g1 = gamma_1 ex_params \/ g1 = flat) -> in_space ex_spec t e l ty a m -> 0 <= x -> (0 <= c < 3)%Z ->
  1 <= sim_resources_spec ex_spec (sure_params g1) t e l a m x 0 c.
Proof.
  intros [-> | ->] Hin Hx Hc.
  - pose proof (ex_resources t e l ty a m x 0 c Hin Hx ltac:(lra) Hc) as H. rewrite Rmult_0_l in H. exact H.
  - pose proof (ex_resources t e l ty a m 0 0 c Hin (Rle_refl 0) ltac:(lra) Hc) as H. rewrite Rmult_0_l in H.
    assert (E : base_wage ex_spec (sure_params flat) t e a x = base_wage ex_spec ex_params t e a 0).
    { unfold base_wage. f_equal. unfold years_of. rewrite Rmult_0_l, Rplus_0_l, ln_1, Rmult_0_r.
      change (gamma_0 (sure_params flat)) with (gamma_0 ex_params). cbn [sure_params gamma_1].
      unfold in_space in Hin. cbn [ex_spec num_educ_levels] in Hin.
      assert (e = 0 \/ e = 1 \/ e = 2)%Z as [-> | [-> | ->]] by lia; unfold at_, flat at 1; cbn [Z.to_nat Pos.to_nat Pos.iter_op Init.Nat.add nth]; rewrite Rmult_0_l; reflexivity. }
    unfold sim_resources_spec in *. unfold observed_wage in *. rewrite E. exact H.
Qed.
Lemma sure_credit_pos g1 e a : (0 <= e < num_educ_levels ex_spec)%Z -> 0 <= pt_credit (sure_params g1) false e a.
Proof. exact (ex_credit_pos e a). Qed.
Lemma sure_above g1 sol ip data : (g1 = gamma_1 ex_params \/ g1 = flat) -> sim_setting ex_rng ex_spec sol ->
  simulation ex_rng (sure_params g1) ex_spec sol ip no_children settled data -> forall r, In r data -> row_above_floor ex_spec (sure_params g1) r.
Proof.
  intros Hg Hset Hsim r Hr. unfold row_above_floor. cbv zeta. intros c Hc.
  assert (Hl : List.length g1 = 3%nat) by (destruct Hg as [-> | ->]; reflexivity).
  destruct (sure_inputs g1 Hl) as (_ & Hpar & _).
  destruct (stock_bounds ex_rng (sure_params g1) ex_spec sol ip _ _ Hset Hpar (sure_credit_pos g1) data Hsim r Hr) as [Hx0 _].
  assert (Hin : agent_in_space ex_spec (o_state r)).
  { destruct Hset as (S1 & S2 & S3). destruct Hsim as (g & g' & H). exact (proj1 (listed _ _ _ _ _ _ _ _ S1 S2 S3 g g' data H r Hr)). }
  pose proof (sure_resources g1 _ _ _ _ _ _ (a_stock (o_state r)) c Hg Hin Hx0 Hc) as H. unfold above_floor. lra.
Qed.

(** nobody has experience at entry *)
Definition fresh_ip : init_probs R := {|
  ip_educ := [1/2; 1/4; 1/4];
  ip_child_age := repeat [1/2; 1/4; 1/4; 0; 0; 0] 3;
  ip_partner_present := [1/2; 0; 1];
  ip_exp_pt := repeat [1; 0; 0; 0; 0] 3;
  ip_exp_ft := repeat [1; 0; 0; 0; 0] 3
|}.
Lemma fresh_init : init_ok ex_spec fresh_ip.
Proof.
  constructor; cbn [ex_spec fresh_ip ip_educ ip_child_age ip_partner_present ip_exp_pt ip_exp_ft num_educ_levels child_age_init_max init_exp_max].
  - shares.
  - reflexivity.
  - intros p H. in_list H; shares.
  - reflexivity.
  - intros x H. in_list H; lra.
  - reflexivity.
  - intros p H. in_list H; shares.
  - reflexivity.
  - intros p H. in_list H; shares.
Qed.
Lemma fresh_years e y : (0 <= e < 3)%Z -> (0 <= y <= 4)%Z -> 0 < at_ (nth (Z.to_nat e) (repeat [1; 0; 0; 0; 0] 3) []) y -> y = 0%Z.
Proof.
  intros He Hy. assert (e = 0 \/ e = 1 \/ e = 2)%Z as [-> | [-> | ->]] by lia;
  assert (y = 0 \/ y = 1 \/ y = 2 \/ y = 3 \/ y = 4)%Z as [-> | [-> | [-> | [-> | ->]]]] by lia;
  cbv [at_ nth repeat Z.to_nat Pos.to_nat Pos.iter_op Init.Nat.add]; intros; try reflexivity; lra.
Qed.
Lemma fresh_stock g1 sol pc pp data : params_ok ex_spec (sure_params g1) -> sim_setting ex_rng ex_spec sol ->
  simulation ex_rng (sure_params g1) ex_spec sol fresh_ip pc pp data -> forall r, In r data -> 0 <= a_stock (o_state r) <= 1.
Proof.
  intros Hpar Hset Hsim r Hr.
  destruct (stock_bounds ex_rng (sure_params g1) ex_spec sol fresh_ip _ _ Hset Hpar (sure_credit_pos g1) data Hsim r Hr) as [Hx0 [He | Hx1]]; [|lra].
  destruct (positive_entry ex_rng (sure_params g1) ex_spec sol fresh_ip _ _ data r Hset fresh_init ex_types Hsim He) as (_ & _ & _ & Hp & Hf & _).
  destruct (entry_years ex_rng (sure_params g1) ex_spec sol fresh_ip _ _ Hset Hpar (sure_credit_pos g1) data Hsim r He) as (_ & _ & Bp & Bf & _).
  destruct (entry_stock ex_rng (sure_params g1) ex_spec sol fresh_ip _ _ Hset Hpar (sure_credit_pos g1) data Hsim r He) as (_ & Es & _).
  assert (Hin : agent_in_space ex_spec (o_state r)).
  { destruct Hset as (S1 & S2 & S3). destruct Hsim as (g & g' & H). exact (proj1 (listed _ _ _ _ _ _ _ _ S1 S2 S3 g g' data H r Hr)). }
  unfold agent_in_space, in_space in Hin. cbn [ex_spec num_educ_levels] in Hin.
  cbn [fresh_ip ip_exp_pt ip_exp_ft] in Hp, Hf. cbn [ex_spec init_exp_max] in Bp, Bf, Es.
  apply fresh_years in Hp; [|lia|lia]. apply fresh_years in Hf; [|lia|lia].
  unfold credited_years in Es. rewrite Hp, Hf in Es. lra.
Qed.

(** *** rows of one agent *)
Lemma career_from rg (mp : model_params R) sp sol ip pc pp data : sim_setting rg sp sol -> simulation rg mp sp sol ip pc pp data ->
  forall n r, In r data -> (row_period r + Z.of_nat n = num_periods sp - 1)%Z -> exists rs, career (num_periods sp - 1) data (r :: rs).
Proof.
  intros (S1 & S2 & S3) (g & g' & Hd).
  destruct (panel rg mp sp sol ip pc pp false S1 S2 S3 g g' data Hd) as (educs & _ & P1 & P2 & _).
  induction n as [|n IH]; intros r Hr Hn.
  - exists []. apply career_end; [assumption|]. lia.
  - destruct (P1 r Hr) as [Hid He]. destruct (P2 _ _ He) as (y & _ & _ & Ht).
    destruct (proj2 (Ht (row_period r + 1)%Z)) as (r' & Hr' & Hk).
    + pose proof (proj1 (Ht (row_period r))) as Hb. assert (y <= row_period r < num_periods sp)%Z; [|lia].
      apply Hb. exists r. split; [assumption|]. unfold row_key. rewrite Z2Nat.id by assumption. reflexivity.
    + rewrite Z2Nat.id in Hk by assumption. unfold row_key in Hk. injection Hk as Hk1 Hk2.
      destruct (IH r' Hr' ltac:(lia)) as [rs Hrs]. exists (r' :: rs). apply career_step; [|assumption].
      unfold follows. auto.
Qed.

Lemma flat_lipschitz sp mp biased draws : (forall e, (0 <= e < num_educ_levels sp)%Z -> at_ (gamma_1 mp) e = 0) -> flows_lipschitz 0 sp mp biased draws.
Proof.
  intros H t e l ty a m c z w Hin _ _ x y _ _. rewrite Rmult_0_l. unfold in_space in Hin.
  assert (E : forall u, hourly_wage sp mp biased t e a u = hourly_wage sp mp biased t e a 0).
  { intros u. unfold hourly_wage. rewrite H by lia. rewrite !Rmult_0_l. reflexivity. }
  unfold flow. rewrite (E x), (E y). rewrite Rminus_diag_eq, Rabs_R0 by reflexivity. lra.
Qed.

Lemma career_in last data rs : career last data rs -> forall q, In q rs -> In q data.
Proof. induction 1 as [r Hr Hl | r r' rs Hf Hc IH]; intros q [<- | Hq]; [assumption|destruct Hq|apply Hf|auto]. Qed.
Lemma career_id last data rs : career last data rs -> forall q r, In q rs -> hd_error rs = Some r -> row_id q = row_id r.
Proof.
  induction 1 as [r Hr Hl | r r' rs Hf Hc IH]; intros q r0 Hq E; injection E as <-.
  - destruct Hq as [<- | []]. reflexivity.
  - destruct Hq as [<- | Hq]; [reflexivity|]. rewrite (IH q r' Hq eq_refl). apply Hf.
Qed.
Lemma careers_exist sp mp biased zs ws pc pp sol rg ip data :
  inputs_ok sp mp pc pp -> solved sp mp biased zs ws pc pp sol ->
  sim_setting rg sp sol -> simulation rg mp sp sol ip pc pp data ->
  forall r, In r data -> exists rs us v,
    career (num_periods sp - 1) data (r :: rs) /\ Forall2 chosen_flow (r :: rs) us /\ chosen_value r v /\
    (forall q, In q (r :: rs) -> row_id q = row_id r).
Proof.
  intros Hok Hs Hset Hsim r Hr.
  assert (Hin : agent_in_space sp (o_state r)).
  { destruct Hset as (S1 & S2 & S3). destruct Hsim as (g & g' & H). exact (proj1 (listed _ _ _ _ _ _ _ _ S1 S2 S3 g g' data H r Hr)). }
  unfold agent_in_space, in_space in Hin.
  destruct (career_from rg mp sp sol ip pc pp data Hset Hsim (Z.to_nat (num_periods sp - 1 - row_period r)) r Hr) as [rs Hrs].
  { unfold row_period. lia. }
  destruct (rows_of_simulation rg mp sp biased zs ws pc pp sol Hok Hs ip data Hset Hsim) as (col & _ & H).
  assert (Hcol : forall q, In q (r :: rs) -> exists f, o_full q = Some f).
  { intros q Hq. destruct (H q (career_in _ _ _ Hrs q Hq)) as (z & f & _ & _ & Hf & _). exists f. exact Hf. }
  assert (Hus : forall l, (forall q, In q l -> exists f, o_full q = Some f) -> exists us, Forall2 chosen_flow l us).
  { induction l as [|q l IH]; intros Hl; [exists []; constructor|].
    destruct IH as [us Hus]; [intros p Hp; apply Hl; right; assumption|]. destruct (Hl q (or_introl eq_refl)) as [f Hf].
    eexists (_ :: us). constructor; [|exact Hus]. exists f. split; [exact Hf|reflexivity]. }
  destruct (Hus _ Hcol) as [us Hu]. destruct (Hcol r (or_introl eq_refl)) as [f Hf].
  exists rs, us, (at_ (f_value f) (o_choice r)). refine (conj Hrs (conj Hu (conj _ _))).
  - exists f. auto.
  - intros q Hq. exact (career_id _ _ _ Hrs q r Hq eq_refl).
Qed.

Lemma someone sol (mp : model_params R) ip pc pp data : sim_setting ex_rng ex_spec sol -> simulation ex_rng mp ex_spec sol ip pc pp data ->
  exists r r', follows data r r' /\ row_period r = 2%Z.
Proof.
  intros (S1 & S2 & S3) (g & g' & Hd).
  destruct (panel ex_rng mp ex_spec sol ip pc pp false S1 S2 S3 g g' data Hd) as (educs & Le & _ & Hp & _).
  cbn [ex_spec num_agents_sim] in Le. destruct educs as [|e educs]; [discriminate Le|].
  destruct (Hp 0%nat e eq_refl) as (y & He & Hy & Hrows).
  assert (Hyr : (y <= 2)%Z).
  { apply nth_error_In in Hy. cbn [ex_spec educ_years In] in Hy. lia. }
  destruct (proj2 (Hrows 2%Z)) as (r & Hr & Kr); [cbn [ex_spec num_periods]; lia|].
  destruct (proj2 (Hrows 3%Z)) as (r' & Hr' & Kr'); [cbn [ex_spec num_periods]; lia|].
  exists r, r'. unfold row_key in Kr, Kr'. injection Kr as K1 K2. injection Kr' as K3 K4.
  repeat split; try assumption; lia.
Qed.
