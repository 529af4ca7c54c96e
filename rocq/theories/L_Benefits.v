From Verif Require Import Base Num M_Params M_Experience M_Tax M_NonEmployment
  L_Num L_Interp S_Experience L_Experience S_Tax L_Tax S_Benefits.
Open Scope R_scope.

Definition state_row (p e l ty a m : Z) : row := [p; e; l; ty; a; m].

Lemma hours2 : hours_of (T := R) 2 = 38. Proof. reflexivity. Qed.
Lemma hours1 : hours_of (T := R) 1 = 18. Proof. reflexivity. Qed.

Lemma benefits_eq sp p e l ty a m lw cb mw reg :
  calculate_non_employment_benefits sp (state_row p e l ty a m) lw cb mw reg
  = benefits_spec sp a l m (exp lw) cb mw reg.
Proof.
  unfold calculate_non_employment_benefits, benefits_spec, state_row, col.
  cbn [nth AGE_YOUNGEST_CHILD LAGGED_CHOICE PARTNER].
  unfold calculate_alg1, calculate_alg2, calculate_elterngeld, calc_erziehungsgeld,
    parental_benefit, unemployment_benefit, basic_support, raising_allowance, worked, last_hours.
  rewrite !hours1, !hours2, !nmax_R, !nmin_R, !nlit_R, !b2n_R. rn.
  assert (Hl : ((l =? 2) && (l =? 1) = false)%Z) by lia.
  assert (Ha : ((a =? -1) && (a =? 0) = false)%Z) by lia.
  assert (Ha1 : ((a =? -1) && (a =? 1) = false)%Z) by lia.
  assert (Ha2 : ((a =? 0) && (a =? 1) = false)%Z) by lia.
  assert (Eh : 38 * (if (l =? 2)%Z then 1 else 0) + 18 * (if (l =? 1)%Z then 1 else 0)
               = (if (l =? 1)%Z then 18 else if (l =? 2)%Z then 38 else 0)).
  { destruct (l =? 2)%Z, (l =? 1)%Z; cbn [andb] in Hl; try discriminate; lra. }
  rewrite !Eh. clear Eh.
  match goal with |- context [?a * ?b * (if (l =? 1)%Z then 18 else if (l =? 2)%Z then 38 else 0)] =>
    generalize (if (l =? 1)%Z then 18 else if (l =? 2)%Z then 38 else 0) as h end. intros h.
  destruct reg.
  - destruct (l =? 2)%Z, (l =? 1)%Z, (a =? -1)%Z, (a =? 0)%Z, (m =? 1)%Z;
      cbn [andb orb] in *; try discriminate; f_equal; lra.
  - match goal with |- Rmax ?x ?y + _ = Rmax ?x' ?y' + _ =>
      assert (E : Rmax x y = Rmax x' y');
      [ f_equal; destruct (l =? 2)%Z, (l =? 1)%Z, (a =? -1)%Z, (m =? 1)%Z;
          cbn [andb orb] in *; try discriminate; lra |]; rewrite E end.
    f_equal. match goal with |- context [Rmax ?x ?y] => set (b := Rmax x y) end.
    destruct ((a =? 0) || (a =? 1))%Z eqn:Eb; rewrite ?andb_true_r, ?andb_false_r; [|lra].
    destruct (m =? 1)%Z;
      repeat match goal with |- context [Rleb ?x ?y] => destruct (Rleb_spec x y) end;
      repeat match goal with |- context [Rle_dec ?x ?y] => destruct (Rle_dec x y) end; lra.
Qed.

(** consequences *)
Lemma benefits_floor sp a l m w cb mw reg : (reg = false -> 0 <= erziehungsgeld sp) ->
  basic_support sp a m <= benefits_spec sp a l m w cb mw reg.
Proof.
  intros He. unfold benefits_spec, raising_allowance. destruct reg.
  - apply Rmax_r.
  - specialize (He eq_refl). cbv zeta.
    match goal with |- _ <= Rmax ?x ?y + _ => pose proof (Rmax_r x y) end.
    repeat match goal with |- context [if ?b then _ else _] => destruct b end; lra.
Qed.

Lemma benefits_not_worked sp a l m w cb mw : worked l = false ->
  benefits_spec sp a l m w cb mw true = Rmax 0 (basic_support sp a m).
Proof.
  intros H. unfold benefits_spec, parental_benefit, unemployment_benefit. rewrite H.
  destruct (a =? 0)%Z; reflexivity.
Qed.

Lemma benefits_elterngeld_bounds sp l m w cb mw : worked l = true ->
  elterngeld_min sp <= elterngeld_max sp ->
  elterngeld_min sp + cb <= benefits_spec sp 0 l m w cb mw true
  <= Rmax (elterngeld_max sp + cb) (basic_support sp 0 m).
Proof.
  intros H Hle. unfold benefits_spec, parental_benefit. rewrite H.
  change (0 =? 0)%Z with true. cbn iota. rmm; split; try lra.
Qed.

(** ** resources *)
Lemma resources_eq sp p e l ty a m lw mw cb reg :
  calc_resources sp (state_row p e l ty a m) lw mw cb reg
  = calculate_net_income (tax_params sp) (ssc_deductions sp) 0 mw (tax_splitting sp)
    + benefits_spec sp a l m (exp lw) cb mw reg.
Proof. unfold calc_resources. rewrite benefits_eq. reflexivity. Qed.

Lemma net_zero rate cap s : 0 <= cap ->
  calculate_net_income create_tax_parameters (rate, cap) 0 0 s = 0.
Proof.
  intros Hc. rewrite net_single by lra. cbv zeta. rewrite ssc_R, Rmin_left by assumption.
  rewrite tax07_zero; lra.
Qed.

Definition floors_positive (sp : model_spec R) : Prop :=
  (forall a, 0 < basic_support sp a 0) /\ 0 <= erziehungsgeld sp.

Lemma resources_pos sp rate cap p e l ty a m lw mw cb reg :
  tax_params sp = create_tax_parameters -> ssc_deductions sp = (rate, cap) ->
  0 <= rate < 1 -> 0 <= cap ->
  (forall a, 0 < basic_support sp a 0) -> 0 <= erziehungsgeld sp ->
  (m = 0%Z /\ mw = 0) \/ (m = 1%Z /\ 0 < mw) ->
  0 < calc_resources sp (state_row p e l ty a m) lw mw cb reg.
Proof.
  intros Ht Hs Hr Hc Hb He Hm. rewrite resources_eq, Ht, Hs.
  pose proof (benefits_floor sp a l m (exp lw) cb mw reg (fun _ => He)) as Hf.
  destruct Hm as [[-> ->]|[-> Hm]].
  - rewrite net_zero by assumption. specialize (Hb a). lra.
  - assert (E : basic_support sp a 1 = 0) by reflexivity. rewrite E in Hf.
    pose proof (net_pos rate cap Hr Hc 0 mw (tax_splitting sp)). lra.
Qed.

(** ** non-pecuniary utility *)
Lemma non_consumption_eq mp e ty bin :
  (0 <= bin)%Z ->
  (0 <= e < zlen (no_kids_f mp))%Z -> (e < zlen (no_kids_p mp))%Z ->
  (e < zlen (yes_kids_f mp))%Z -> (e < zlen (yes_kids_p mp))%Z ->
  (0 <= ty < zlen (theta_p mp))%Z -> (ty < zlen (theta_f mp))%Z ->
  calculate_non_consumption_utility mp e ty bin
  = [1; exp (nth (Z.to_nat ty) (theta_p mp) 0 + part_time_term mp e bin);
     exp (nth (Z.to_nat ty) (theta_f mp) 0 + full_time_term mp e bin)].
Proof.
  intros Hb H1 H2 H3 H4 H5 H6. unfold calculate_non_consumption_utility.
  rewrite !aget_R by lia. rewrite !b2n_R. rn. cbn [map]. rewrite exp_0.
  unfold part_time_term, full_time_term.
  assert (Hc : bin = 0%Z \/ bin = 1%Z \/ bin = 2%Z \/ bin = 3%Z \/ (3 < bin)%Z) by lia.
  destruct Hc as [->|[->|[->|[->|Hc]]]]; cbn [Z.eqb Z.ltb Z.compare Pos.eqb Pos.compare Pos.compare_cont];
    try (f_equal; f_equal; [f_equal; lra|f_equal; f_equal; lra]).
  replace (bin =? 0)%Z with false by lia. replace (bin =? 1)%Z with false by lia.
  replace (bin =? 2)%Z with false by lia. replace (bin =? 3)%Z with false by lia.
  replace (3 <? bin)%Z with true by lia.
  destruct bin as [|[[?|?|]|[?|?|]|]|]; try lia;
    (f_equal; f_equal; [f_equal; lra|f_equal; f_equal; lra]).
Qed.

Lemma non_consumption_length (mp : model_params R) e ty bin :
  List.length (calculate_non_consumption_utility mp e ty bin) = 3%nat.
Proof. reflexivity. Qed.

Lemma non_consumption_pos (mp : model_params R) e ty bin x :
  In x (calculate_non_consumption_utility mp e ty bin) -> 0 < x.
Proof.
  unfold calculate_non_consumption_utility. intros H. apply in_map_iff in H.
  destruct H as (y & <- & _). apply exp_pos.
Qed.

(** ** wages *)
Lemma log_wage_eq mp e s i p t : (0 <= t)%Z -> (0 <= e < zlen (gamma_0 mp))%Z -> (e < zlen (gamma_1 mp))%Z ->
  calculate_log_wage mp e s i p t
  = nth (Z.to_nat e) (gamma_0 mp) 0
    + nth (Z.to_nat e) (gamma_1 mp) 0 * ln (years_of s i t p + 1).
Proof.
  intros Ht H0 H1. unfold calculate_log_wage. rewrite !aget_R by lia.
  rewrite stock_to_exp_years_R by assumption. reflexivity.
Qed.

Lemma wage_eq mp e s i p t : (0 <= t)%Z -> (0 <= e < zlen (gamma_0 mp))%Z -> (e < zlen (gamma_1 mp))%Z ->
  exp (calculate_log_wage mp e s i p t)
  = exp (nth (Z.to_nat e) (gamma_0 mp) 0)
    * Rpower (years_of s i t p + 1) (nth (Z.to_nat e) (gamma_1 mp) 0).
Proof. intros. rewrite log_wage_eq by assumption. rewrite exp_plus. reflexivity. Qed.

Lemma log_wage_mono mp e s s' i p t : (0 <= t)%Z -> (0 <= i)%Z -> 0 <= aget (gamma_1 mp) e ->
  0 <= s <= s' -> calculate_log_wage mp e s i p t <= calculate_log_wage mp e s' i p t.
Proof.
  intros Ht Hi Hg Hs. unfold calculate_log_wage. rewrite !stock_to_exp_years_R by assumption. rn.
  apply Rplus_le_compat_l, Rmult_le_compat_l; [assumption|].
  assert (Hm : 0 <= max_years i t p).
  { unfold max_years. assert (0 <= IZR i) by (apply IZR_le; lia).
    assert (0 <= IZR t) by (apply IZR_le; lia). rmm; nra. }
  assert (Hy : 0 <= years_of s i t p <= years_of s' i t p) by (unfold years_of; split; nra).
  destruct (Req_dec (years_of s i t p) (years_of s' i t p)) as [->|Hne]; [lra|].
  left. apply ln_increasing; lra.
Qed.

Lemma wage_mono mp e s s' i p t : (0 <= t)%Z -> (0 <= i)%Z ->
  (0 <= e < zlen (gamma_0 mp))%Z -> (e < zlen (gamma_1 mp))%Z ->
  0 <= nth (Z.to_nat e) (gamma_1 mp) 0 -> 0 <= s <= s' ->
  0 < exp (calculate_log_wage mp e s i p t) <= exp (calculate_log_wage mp e s' i p t).
Proof.
  intros Ht Hi He He' Hg Hs. split; [apply exp_pos|].
  assert (H : calculate_log_wage mp e s i p t <= calculate_log_wage mp e s' i p t).
  { apply log_wage_mono; try assumption. rewrite aget_R by lia. assumption. }
  destruct H as [H| ->]; [left; apply exp_increasing; assumption|lra].
Qed.

Lemma benefits_regimes_agree sp a l m w cb mw : a <> 0%Z -> a <> 1%Z ->
  benefits_spec sp a l m w cb mw true = benefits_spec sp a l m w cb mw false.
Proof.
  intros H0 H1. unfold benefits_spec, raising_allowance.
  replace (a =? 0)%Z with false by lia. replace (a =? 1)%Z with false by lia. cbn [orb]. cbv zeta. lra.
Qed.

Lemma benefits_erziehungsgeld sp a l m w cb mw : erziehungsgeld sp <> 0 ->
  let b := Rmax (unemployment_benefit sp a l w cb) (basic_support sp a m) in
  let threshold := if (m =? 1)%Z then erziehungsgeld_income_threshold_married sp
                   else erziehungsgeld_income_threshold_single sp in
  ((a = 0%Z \/ a = 1%Z) /\ mw + b <= threshold <->
   benefits_spec sp a l m w cb mw false = b + erziehungsgeld sp)
  /\ (benefits_spec sp a l m w cb mw false = b \/
      benefits_spec sp a l m w cb mw false = b + erziehungsgeld sp).
Proof.
  intros He b threshold. unfold benefits_spec, raising_allowance. fold b. fold threshold. cbv zeta.
  destruct ((a =? 0) || (a =? 1))%Z eqn:E.
  - assert (Ha : a = 0%Z \/ a = 1%Z) by lia. destruct (Rle_dec (mw + b) threshold) as [H|H].
    + split; [split; intros; [lra|split; assumption]|right; lra].
    + split; [split; intros; [exfalso; tauto|exfalso; lra]|left; lra].
  - assert (Ha : ~ (a = 0%Z \/ a = 1%Z)) by lia.
    split; [split; intros; [tauto|exfalso; lra]|left; lra].
Qed.
