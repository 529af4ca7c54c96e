(** Lemmas for C83: the reference tax function of the unit tests and the code's. *)
From Coq Require Import Reals Lra Lia ZArith List.
From Verif Require Import Base Num M_Params M_Experience M_Tax M_Gettsim L_Num S_Tax L_Tax.
Import ListNotations.
Open Scope R_scope.

Notation reference tp xs := (piecewise_polynomial xs (reference_thresholds tp) (reference_rates tp) (reference_intercepts tp)).
Notation reference_person tp d w :=
  (calc_gettsim_sol_individual (reference_thresholds tp) (reference_rates tp) (reference_intercepts tp) d w (105 / 100)).

Lemma reference_up tp : four_brackets tp -> strictly_up (reference_thresholds tp) = true.
Proof.
  intros (t0 & t1 & t2 & t3 & i0 & i1 & i2 & i3 & r0 & r1 & r2 & r3 & q0 & q1 & q2 & q3 & -> & H & H').
  cbn [reference_thresholds tx_thresholds map app strictly_up ext_lt andb]. rn.
  repeat match goal with |- context [Rltb ?a ?b] => destruct (Rltb_spec a b) end; try reflexivity; lra.
Qed.
Lemma four_0 a b c d : aget [a; b; c; d] 0 = a. Proof. reflexivity. Qed.
Lemma four_1 a b c d : aget [a; b; c; d] 1 = b. Proof. reflexivity. Qed.
Lemma four_2 a b c d : aget [a; b; c; d] 2 = c. Proof. reflexivity. Qed.
Lemma four_3 a b c d : aget [a; b; c; d] 3 = d. Proof. reflexivity. Qed.
Lemma five_0 z a b c d : aget [z; a; b; c; d] 0 = z. Proof. reflexivity. Qed.
Lemma five_1 z a b c d : aget [z; a; b; c; d] 1 = a. Proof. reflexivity. Qed.
Lemma five_2 z a b c d : aget [z; a; b; c; d] 2 = b. Proof. reflexivity. Qed.
Lemma five_3 z a b c d : aget [z; a; b; c; d] 3 = c. Proof. reflexivity. Qed.
Lemma five_4 z a b c d : aget [z; a; b; c; d] 4 = d. Proof. reflexivity. Qed.

Lemma reference_value tp x : four_brackets tp ->
  piecewise_value (reference_thresholds tp) (reference_rates tp) (reference_intercepts tp) x = Some (calculate_inc_tax tp x).
Proof.
  intros (t0 & t1 & t2 & t3 & i0 & i1 & i2 & i3 & r0 & r1 & r2 & r3 & q0 & q1 & q2 & q3 & -> & H & H').
  unfold calculate_inc_tax. cbn [tx_intercepts tx_linear tx_quadratic tx_thresholds]. rewrite !four_0, !four_1, !four_2, !four_3.
  unfold piecewise_value. cbn [reference_thresholds tx_thresholds map app bin_of ext_le ext_gt andb]. rnu.
  repeat match goal with |- context [Rltb ?a ?b] => destruct (Rltb_spec a b) end;
  repeat match goal with |- context [Rleb ?a ?b] => destruct (Rleb_spec a b) end;
  try lra; cbn [andb];
  repeat match goal with |- context [(?k + 1)%Z] => let v := eval compute in (k + 1)%Z in change (k + 1)%Z with v end;
  repeat match goal with |- context [(?k =? 0)%Z] => let v := eval compute in (k =? 0)%Z in change (k =? 0)%Z with v end;
  cbn iota;
  try match goal with |- match ?e with NegInf => _ | Fin _ => _ | PosInf => _ end = _ => let v := eval cbv [nth Z.to_nat Pos.to_nat Pos.iter_op Init.Nat.add reference_thresholds map app tx_thresholds] in e in change e with v end;
  cbn iota; f_equal;
  unfold add_powers, reference_rates, reference_intercepts; cbn [List.length seq fold_left Nat.sub nth npow tx_intercepts tx_linear tx_quadratic];
  rewrite ?five_0, ?five_1, ?five_2, ?five_3, ?five_4; rn; ring.
Qed.

Lemma reference_tax tp : four_brackets tp -> forall incomes,
  reference tp incomes = Ok (map (fun x => Some (calculate_inc_tax tp x)) incomes).
Proof.
  intros H xs. unfold piecewise_polynomial. rewrite (reference_up tp H). destruct xs as [|x xs]; [reflexivity|]. f_equal.
  apply map_ext. intros y. apply reference_value. exact H.
Qed.

Lemma reference_individual tp d w : four_brackets tp ->
  reference_person tp d w
  = Ok (Some (calculate_inc_tax tp (w - calculate_ssc_deductions d w) * (105/100)), w - calculate_ssc_deductions d w).
Proof.
  intros H. unfold calc_gettsim_sol_individual.
  assert (E : @calculate_ssc_deductions_py R RNum d w = calculate_ssc_deductions d w).
  { symmetry. rewrite <- RndNum_id. apply agree_ssc. }
  rewrite E. rn. rewrite (reference_tax tp H). reflexivity.
Qed.
