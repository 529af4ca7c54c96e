(** Property theorem C83: taxes agree with the reference implementation of the unit tests
    (M_Gettsim) at every income and for every table with increasing thresholds. *)
From Coq Require Import Reals Lra Lia ZArith List.
From Verif Require Import Base Num M_Params M_Experience M_Tax M_Gettsim L_Num S_Tax L_Tax L_Gettsim.
Import ListNotations.
Open Scope R_scope.

Notation reference tp xs := (piecewise_polynomial xs (reference_thresholds tp) (reference_rates tp) (reference_intercepts tp)).
Notation reference_person tp d w :=
  (calc_gettsim_sol_individual (reference_thresholds tp) (reference_rates tp) (reference_intercepts tp) d w (105 / 100)).

(** C83: income tax ... *)
Theorem C83_income_tax :
  forall tp, four_brackets tp -> forall incomes,
  reference tp incomes = Ok (map (fun x => Some (calculate_inc_tax tp x)) incomes).
Proof. exact reference_tax. Qed.
Print Assumptions C83_income_tax.

(** ... net income of somebody without a partner's earnings ... *)
Theorem C83_single :
  forall tp d w m splitting, four_brackets tp -> m <= 0 ->
  exists tax income, reference_person tp d w = Ok (Some tax, income) /\
  calculate_net_income tp d w m splitting = income - tax.
Proof.
  intros tp d w m s H Hm. rewrite (reference_individual tp d w H), (net_single tp d w m s Hm). cbv zeta. eauto.
Qed.
Print Assumptions C83_single.

(** ... of couples taxed separately, who pay what two single persons pay ... *)
Theorem C83_separate :
  forall tp d w m, four_brackets tp -> 0 < m ->
  exists tax income tax' income', reference_person tp d w = Ok (Some tax, income) /\ reference_person tp d m = Ok (Some tax', income') /\
  calculate_net_income tp d w m false = (income - tax) + (income' - tax').
Proof.
  intros tp d w m H Hm. rewrite (reference_individual tp d w H), (reference_individual tp d m H), (net_couple tp d w m false Hm). cbv zeta.
  do 4 eexists. refine (conj eq_refl (conj eq_refl _)). ring.
Qed.
Print Assumptions C83_separate.

(** ... and of couples under joint taxation: twice the reference tax on half the joint
    taxable income *)
Theorem C83_splitting :
  forall tp d w m, four_brackets tp -> 0 < m ->
  exists tax income tax' income' joint, reference_person tp d w = Ok (Some tax, income) /\ reference_person tp d m = Ok (Some tax', income') /\
  reference tp [(income + income') / 2] = Ok [Some joint] /\
  calculate_net_income tp d w m true = income + income' - 2 * joint * (105/100).
Proof.
  intros tp d w m H Hm. rewrite (reference_individual tp d w H), (reference_individual tp d m H), (net_couple tp d w m true Hm). cbv zeta.
  do 5 eexists. refine (conj eq_refl (conj eq_refl (conj _ _))); [rewrite (C83_income_tax tp H); reflexivity|]. ring.
Qed.
Print Assumptions C83_splitting.

(** A bracket without width makes the reference function fail (pandas.cut refuses repeated bin
    edges), while the program's tax function works. *)
Theorem C83_repeated_threshold :
  forall (tp : tax_table R) (incomes : list R) (l : list R) (x y : R) (l' : list R), incomes <> [] -> tx_thresholds tp = (l ++ x :: y :: l')%list -> y <= x ->
  exists msg, reference tp incomes = Err (ValueError msg).
Proof.
  intros tp incomes l x y l' Hi Ht Hxy. unfold reference, piecewise_polynomial. destruct incomes as [|i incomes]; [contradiction|].
  assert (Hs : forall b, strictly_up (b :: map Fin (l ++ x :: y :: l') ++ [PosInf])%list = false).
  { clear - Hxy. induction l as [|z l IH]; intros b; cbn [app map].
    - change (ext_lt b (Fin x) && (ext_lt (Fin x) (Fin y) && strictly_up (Fin y :: map Fin l' ++ [PosInf])%list) = false)%bool.
      cbn [ext_lt]. rn. destruct (Rltb_spec x y); [lra|]. apply Bool.andb_false_r.
    - change (ext_lt b (Fin z) && strictly_up (Fin z :: map Fin (l ++ x :: y :: l') ++ [PosInf])%list = false)%bool. rewrite IH. apply Bool.andb_false_r. }
  unfold reference_thresholds. rewrite Ht, Hs. eexists. reflexivity.
Qed.
Print Assumptions C83_repeated_threshold.

(** the 2007 tariff *)
Example C83_case : four_brackets create_tax_parameters.
Proof.
  unfold four_brackets, create_tax_parameters. do 16 eexists. split; [reflexivity|]. unfold Y_FACTOR, M_FACTOR. rewrite !nlit_R. rn. lra.
Qed.
Example C83_value : reference (create_tax_parameters (T := R)) [100; -5] = Ok [Some 0; Some 0].
Proof.
  rewrite (C83_income_tax _ C83_case). cbn [map]. rewrite !tax07_zero by (unfold weeks_per_year; lra). reflexivity.
Qed.
