(** Pieces of the code equal the pieces of the Bellman recursion. *)
From Verif Require Import Base Num M_Params M_Experience M_Tax M_NonEmployment M_StateSpace M_Solve
  L_Num S_Experience L_Experience S_Interp L_Interp S_Tax L_Tax S_Benefits L_Benefits
  S_StateSpace L_StateSpace S_Bellman.
Open Scope R_scope.

(** ** interpolation *)
Lemma count_le_cons y g x :
  count_le (y :: g) x = if Rleb y x then S (count_le g x) else count_le g x.
Proof. unfold count_le. cbn [filter]. destruct (Rleb y x); reflexivity. Qed.

Lemma count_le_zero g x : increasing g -> (forall y, In y g -> x < y) -> count_le g x = 0%nat.
Proof.
  induction g as [|y g IH]; intros Hi H; [reflexivity|]. rewrite count_le_cons.
  destruct (Rleb_spec y x) as [Hy|Hy].
  - specialize (H y (or_introl eq_refl)). lra.
  - apply IH; [eapply increasing_tail; eauto|]. intros; apply H; right; assumption.
Qed.

Lemma interpolate_chord g v x : increasing g -> (2 <= List.length g)%nat ->
  List.length v = List.length g -> interpolate g v x = grid_chord g v (seg g x) x.
Proof.
  revert v; induction g as [|x0 g IH]; intros v Hi Hn Hv; [simpl in Hn; lia|].
  destruct g as [|x1 g]; [simpl in Hn; lia|].
  destruct v as [|v0 [|v1 v]]; try (simpl in Hv; lia).
  assert (Hi' : increasing (x1 :: g)) by (eapply increasing_tail; eauto).
  assert (H01 : x0 < x1) by (apply (increasing_head _ _ _ Hi); left; reflexivity).
  destruct g as [|x2 g].
  - cbn [interpolate]. assert (E : seg [x0; x1] x = 0%nat) by (unfold seg; cbn [List.length]; lia).
    rewrite E. reflexivity.
  - set (g2 := x2 :: g) in *. 
    change (interpolate (x0 :: x1 :: g2) (v0 :: v1 :: v) x)
      with (if Rlt_dec x x1 then chord x0 x1 v0 v1 x else interpolate (x1 :: g2) (v1 :: v) x).
    destruct (Rlt_dec x x1) as [Hlt|Hge].
    + assert (E : seg (x0 :: x1 :: g2) x = 0%nat).
      { unfold seg. rewrite count_le_cons. rewrite (count_le_zero (x1 :: g2)).
        - destruct (Rleb x0 x); cbn [List.length]; lia.
        - assumption.
        - intros y [<-|Hy]; [assumption|]. pose proof (increasing_head _ _ _ Hi' Hy). lra. }
      rewrite E. reflexivity.
    + rewrite IH by (try assumption; simpl in *; lia).
      assert (E : seg (x0 :: x1 :: g2) x = S (seg (x1 :: g2) x)).
      { unfold seg. rewrite !(count_le_cons x0). destruct (Rleb_spec x0 x) as [_|?]; [|lra].
        assert (1 <= count_le (x1 :: g2) x)%nat.
        { rewrite count_le_cons. destruct (Rleb_spec x1 x); [lia|lra]. }
        pose proof (count_le_length (x1 :: g2) x). unfold g2 in *. cbn [List.length] in *. lia. }
      rewrite E. reflexivity.
Qed.

Lemma interp_spec g v x : increasing g -> g <> [] -> List.length v = List.length g ->
  linear_interp_1d g v x = interpolate g v x.
Proof.
  intros Hi Hne Hv. destruct g as [|x0 [|x1 g]]; [contradiction| |].
  - destruct v as [|v0 [|? ?]]; try (simpl in Hv; lia). rewrite interp_single. reflexivity.
  - rewrite interp_seg, interpolate_chord; try assumption; try (simpl; lia). reflexivity.
Qed.

(** ** taxes *)
Lemma tax_spec tp x : tax_table_ok tp -> calculate_inc_tax tp x = tax_due tp x.
Proof.
  intros ((t0 & t1 & t2 & t3 & Et & H01 & H12 & H23) & Hi & Hl & Hq).
  unfold calculate_inc_tax, tax_due.
  rewrite !aget_R by (unfold zlen; rewrite ?Et, ?Hi, ?Hl, ?Hq; cbn [List.length]; lia).
  rewrite Et. cbn [nth].
  change (Z.to_nat 0) with 0%nat. change (Z.to_nat 1) with 1%nat.
  change (Z.to_nat 2) with 2%nat. change (Z.to_nat 3) with 3%nat. cbn [nth].
  rewrite !b2n_R, !nsq_R. rn.
  destruct (Rlt_dec x t0); [|destruct (Rlt_dec x t1); [|destruct (Rlt_dec x t2); [|destruct (Rlt_dec x t3)]]];
  repeat match goal with
    | |- context [Rleb ?a ?b] => destruct (Rleb_spec a b); try lra
    | |- context [Rltb ?a ?b] => destruct (Rltb_spec a b); try lra
    end; cbn [andb]; ring.
Qed.

Lemma net_spec sp f m : tax_table_ok (tax_params sp) ->
  calculate_net_income (tax_params sp) (ssc_deductions sp) f m (tax_splitting sp) = household_net sp f m.
Proof.
  intros Ht. unfold household_net, after_contributions.
  destruct (ssc_deductions sp) as [rate cap] eqn:Es. cbn [fst snd].
  destruct (Rlt_dec 0 m) as [Hm|Hm].
  - rewrite net_couple by assumption. cbv zeta. rewrite !ssc_spec, !tax_spec by assumption.
    destruct (tax_splitting sp); lra.
  - rewrite net_single by lra. cbv zeta. rewrite !ssc_spec, !tax_spec by assumption. lra.
Qed.

(** ** parameters *)
Section Pieces.
  Variable sp : model_spec R.
  Variable mp : model_params R.
  Hypothesis Hsp : spec_ok sp.
  Hypothesis Hmp : params_ok sp mp.

  Lemma sizes : sizes_ok sp.
  Proof. destruct Hsp as (H1 & H2 & H3 & H4 & _). unfold sizes_ok. lia. Qed.

  Lemma at_educ l e : In l [gamma_0 mp; gamma_1 mp; gamma_p mp; no_kids_f mp; no_kids_p mp;
                            yes_kids_f mp; yes_kids_p mp] ->
    (0 <= e < num_educ_levels sp)%Z -> (e < zlen l)%Z.
  Proof. intros Hl He. destruct Hmp as [H _]. specialize (H l Hl). lia. Qed.

  Lemma increment_spec e a b : (0 <= e < num_educ_levels sp)%Z ->
    get_pt_increment mp e a b = pt_credit mp b e a.
  Proof.
    intros He. unfold get_pt_increment, pt_credit, at_. destruct b; [reflexivity|].
    assert (e < zlen (gamma_p mp))%Z by (apply at_educ; [simpl; tauto|assumption]).
    rewrite aget_R by lia. rewrite b2n_R. rn. destruct ((0 <=? a) && (a <=? 2))%Z; lra.
  Qed.

  Lemma log_wage_spec t e a x b : (0 <= t)%Z -> (0 <= e < num_educ_levels sp)%Z ->
    exp (calculate_log_wage mp e x (init_exp_max sp) (get_pt_increment mp e a b) t
         + ln (elasticity_scale sp)) = hourly_wage sp mp b t e a x.
  Proof.
    intros Ht He. unfold hourly_wage.
    rewrite increment_spec by assumption. rewrite log_wage_eq; [reflexivity|assumption| |].
    - split; [lia|]. apply at_educ; [simpl; tauto|assumption].
    - apply at_educ; [simpl; tauto|assumption].
  Qed.

  Lemma next_stock_spec t e a c x b : (0 <= t)%Z -> (0 <= e < num_educ_levels sp)%Z ->
    next_stock x t (init_exp_max sp) (get_pt_increment mp e a b) c = stock_next sp mp b t e a c x.
  Proof.
    intros Ht He. rewrite increment_spec by assumption. unfold stock_next, next_stock.
    destruct Hsp as (_ & _ & _ & _ & Hi & _).
    assert (Hp : 0 < max_years (init_exp_max sp) (t + 1) (pt_credit mp b e a)).
    { unfold max_years. assert (0 <= IZR (init_exp_max sp)) by (apply IZR_le; lia).
      assert (1 <= IZR (t + 1)) by (apply IZR_le; lia). rmm; nra. }
    rewrite nclip_R, exp_years_to_stock_R by (try lia; assumption).
    rewrite next_exp_years_R, stock_to_exp_years_R by assumption. reflexivity.
  Qed.

  Lemma leisure_spec e ty a c : (0 <= e < num_educ_levels sp)%Z -> (0 <= ty < num_types sp)%Z ->
    (-1 <= a)%Z -> (c = 1 \/ c = 2)%Z ->
    aget (calculate_non_consumption_utility mp e ty (bin_fun a)) c = leisure mp e ty a c.
  Proof.
    intros He Hty Ha Hc. rewrite non_consumption_eq.
    - destruct Hc as [-> | ->]; reflexivity.
    - pose proof (bin_fun_spec a Ha) as Hb. destruct Hb; lia.
    - split; [lia|]. apply at_educ; [simpl; tauto|assumption].
    - apply at_educ; [simpl; tauto|assumption].
    - apply at_educ; [simpl; tauto|assumption].
    - apply at_educ; [simpl; tauto|assumption].
    - destruct Hmp as (_ & H1 & H2). lia.
    - destruct Hmp as (_ & H1 & H2). lia.
  Qed.
  Lemma leisure0_spec e ty b : (0 <= e < num_educ_levels sp)%Z -> (0 <= ty < num_types sp)%Z ->
    aget (calculate_non_consumption_utility mp e ty b) 0 = 1.
  Proof. intros. unfold calculate_non_consumption_utility. cbn [map]. unfold aget, jget, zlen; simpl. apply exp_0. Qed.

  Lemma crra_spec c : npow c (mu mp) / mu mp = crra (mu mp) c.
  Proof. reflexivity. Qed.

  (** value of a working alternative *)
  Lemma work_spec t e l ty a m x z b cont j :
    in_space sp t e l ty a m -> (j = 1 \/ j = 2)%nat ->
    work_value (delta mp)
      (calculate_log_wage mp e x (init_exp_max sp) (get_pt_increment mp e a b) t + ln (elasticity_scale sp))
      (calculate_non_consumption_utility mp e ty (bin_fun a)) (z * shock_sd mp) cont (mu mp) sp
      (partner_wage sp t e m) (if (a =? -1)%Z then 0 else child_benefits sp) (equivalence a m)
      (if (2 <? bin_fun a)%Z then 0%Z else bin_fun a)
      (if is_elterngeld sp then None else Some ((a =? 0)%Z || (a =? 1)%Z)) j
    = flow sp mp (is_elterngeld sp) b t e l ty a m x (Z.of_nat j) z
      + delta mp * aget cont (Z.of_nat j).
  Proof.
    intros Hin Hj. pose proof Hin as (Ht & He & Hl & Hty & Ha & Hm).
    pose proof Hsp as (_ & _ & _ & _ & _ & _ & _ & Htax & Hcare & _).
    unfold work_value. rn. f_equal.
    unfold flow. replace (Z.of_nat j =? 0)%Z with false by lia.
    rewrite leisure_spec by lia. rewrite crra_spec. f_equal. f_equal. f_equal.
    rewrite nmax_R, nlit_R. rewrite exp_plus, log_wage_spec by lia.
    assert (Eh : hours_of j = hours (Z.of_nat j)) by (destruct Hj as [-> | ->]; reflexivity).
    rewrite Eh. rewrite net_spec by assumption.
    set (own := hours (Z.of_nat j) * (hourly_wage sp mp b t e a x * exp (z * shock_sd mp))).
    set (male := partner_wage sp t e m).
    f_equal.
    assert (Ecare : aget (jget [] (child_care_costs sp)
                      (if (2 <? bin_fun a)%Z then 0%Z else bin_fun a)) (Z.of_nat j - 1)
                    = care_costs sp a (Z.of_nat j)).
    { unfold care_costs, at_. destruct Hcare as (r0 & r1 & r2 & -> & L0 & L1 & L2).
      assert (Hb : (0 <= (if (2 <? bin_fun a)%Z then 0 else bin_fun a) < 3)%Z)
        by (unfold bin_fun; repeat match goal with |- context [if ?c then _ else _] =>
              match c with context [if _ then _ else _] => fail 1 | _ => destruct c eqn:? end end; lia).
      rewrite jget_nth by (unfold zlen; cbn [List.length]; lia).
      assert (Eb : Z.to_nat (if (2 <? bin_fun a)%Z then 0 else bin_fun a)%Z =
                   (if ((0 <=? a) && (a <=? 2))%Z then 1 else if ((3 <=? a) && (a <=? 5))%Z then 2 else 0)%nat).
      { unfold bin_fun.
        repeat match goal with |- context [if ?c then _ else _] =>
                 match c with context [if _ then _ else _] => fail 1 | _ => destruct c eqn:? end end; lia. }
      rewrite Eb.
      destruct ((0 <=? a) && (a <=? 2))%Z; [|destruct ((3 <=? a) && (a <=? 5))%Z]; cbn [nth];
        rewrite aget_R by (unfold zlen; lia); reflexivity. }
    rewrite Ecare. f_equal.
    unfold child_benefit. f_equal.
    unfold working_allowance. destruct (is_elterngeld sp); [lra|].
    f_equal. unfold child_benefit. set (cb := if (a =? -1)%Z then 0 else child_benefits sp).
    assert (Ej : Nat.eqb j 1 = (Z.of_nat j =? 1)%Z) by (destruct Hj as [-> | ->]; reflexivity).
    rewrite Ej. destruct (Z.of_nat j =? 1)%Z; [|rewrite andb_false_r; reflexivity].
    rewrite andb_true_r.
    destruct (Rltb_spec 0 cb); destruct (Rlt_dec 0 cb); try lra.
    unfold calc_erziehungsgeld, raising_allowance. rewrite !b2n_R. rn.
    assert (Em : Rltb 0 male = (m =? 1)%Z).
    { destruct (partner_wage_sign sp t e m ltac:(lia)) as [H1 H0]. fold male in H1, H0.
      destruct (Z.eqb_spec m 1) as [E1|E1].
      - apply Rltb_true. tauto.
      - apply Rltb_false. assert (m = 0)%Z as E0 by lia. apply H0 in E0. lra. }
    rewrite Em. destruct ((a =? 0) || (a =? 1))%Z; rewrite ?andb_true_r, ?andb_false_r; [|lra].
    destruct (m =? 1)%Z;
      repeat match goal with |- context [Rleb ?p ?q] => destruct (Rleb_spec p q) end;
      repeat match goal with |- context [Rle_dec ?p ?q] => destruct (Rle_dec p q) end; lra.
  Qed.

  Lemma max_spec t e l ty a m x z w b cont :
    in_space sp t e l ty a m ->
    get_max_aggregated_utilities (delta mp)
      (calculate_log_wage mp e x (init_exp_max sp) (get_pt_increment mp e a b) t + ln (elasticity_scale sp))
      (calculate_non_consumption_utility mp e ty (bin_fun a)) (z * shock_sd mp) w cont (mu mp)
      (calc_resources sp [t; e; l; ty; a; m]
         (calculate_log_wage mp e x (init_exp_max sp) (get_pt_increment mp e a b) t + ln (elasticity_scale sp))
         (partner_wage sp t e m) (if (a =? -1)%Z then 0 else child_benefits sp) (is_elterngeld sp)) sp
      (partner_wage sp t e m) (if (a =? -1)%Z then 0 else child_benefits sp) (equivalence a m)
      (if (2 <? bin_fun a)%Z then 0%Z else bin_fun a)
      (if is_elterngeld sp then None else Some ((a =? 0)%Z || (a =? 1)%Z))
    = best3 (fun c => flow sp mp (is_elterngeld sp) b t e l ty a m x c z + delta mp * aget cont c) * w.
  Proof.
    intros Hin. pose proof Hin as (Ht & He & Hl & Hty & Ha & Hm).
    pose proof Hsp as (_ & _ & _ & _ & _ & _ & _ & Htax & Hcare & _).
    unfold get_max_aggregated_utilities. cbn [fold_left].
    rewrite (work_spec t e l ty a m x z b cont 1 Hin ltac:(lia)).
    rewrite (work_spec t e l ty a m x z b cont 2 Hin ltac:(lia)).
    rewrite !nmax_R. rn. unfold best3. f_equal. f_equal. f_equal.
    rewrite leisure0_spec by lia. rewrite Rmult_1_r. f_equal.
    unfold flow. cbn [Z.eqb]. rewrite crra_spec. f_equal. f_equal.
    change ([t; e; l; ty; a; m]) with (state_row t e l ty a m).
    rewrite resources_eq, net_spec by assumption. rewrite log_wage_spec by lia. reflexivity.
  Qed.
End Pieces.
