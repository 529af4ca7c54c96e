(** Running the model on defined numbers in the arithmetic with an undefined value: where no
    operation leaves its domain, the outcome is the exact one. *)
From Coq Require Import Reals Lra Lia ZArith List.
From Verif Require Import Base Num M_Params M_Experience M_Tax M_NonEmployment M_StateSpace M_Solve M_Exog M_Sim S_Partial L_Num.
Import ListNotations.
Open Scope R_scope.

Section Undefined_numbers.
Context {U : Unspecified}.

(** *** operations *)
Section Ops.
  Local Open Scope num_scope.
  Lemma p_ofZ z : (nofZ z : option R) = Some (nofZ z). Proof. reflexivity. Qed.
  Lemma p_add x y : Some x + Some y = Some (x + y). Proof. reflexivity. Qed.
  Lemma p_sub x y : Some x - Some y = Some (x - y). Proof. reflexivity. Qed.
  Lemma p_mul x y : Some x * Some y = Some (x * y). Proof. reflexivity. Qed.
  Lemma p_div x y : y <> 0%R -> Some x / Some y = Some (x / y).
  Proof. intros H. cbn. destruct (Req_EM_T y 0); [contradiction|reflexivity]. Qed.
  Lemma p_leb x y : (Some x <=? Some y) = (x <=? y). Proof. reflexivity. Qed.
  Lemma p_ltb x y : (Some x <? Some y) = (x <? y). Proof. reflexivity. Qed.
  Lemma p_exp x : nexp (Some x) = Some (nexp x). Proof. reflexivity. Qed.
  Lemma p_ln x : (0 < x)%R -> nln (Some x) = Some (nln x).
  Proof. intros H. cbn. destruct (Rlt_dec 0 x); [reflexivity|contradiction]. Qed.
  Lemma p_pow x y : (0 < x)%R -> npow (Some x) (Some y) = Some (npow x y).
  Proof. intros H. cbn. unfold Rpow. destruct (Rlt_dec 0 x); [reflexivity|contradiction]. Qed.
  Lemma p_floor x : nfloor (Some x) = nfloor x. Proof. reflexivity. Qed.
  Lemma p_if {A B} (f : A -> B) (b : bool) x y : (if b then f x else f y) = f (if b then x else y).
  Proof. destruct b; reflexivity. Qed.
  Lemma p_ifS (b : bool) (x y : R) : (if b then Some x else Some y) = Some (if b then x else y).
  Proof. destruct b; reflexivity. Qed.
  Lemma p_b2n b : (b2n b : option R) = Some (b2n b). Proof. destruct b; reflexivity. Qed.
  Lemma p_max x y : nmax (Some x) (Some y) = Some (nmax x y).
  Proof. unfold nmax. rewrite p_leb. apply p_ifS. Qed.
  Lemma p_min x y : nmin (Some x) (Some y) = Some (nmin x y).
  Proof. unfold nmin. rewrite p_leb. apply p_ifS. Qed.
  Lemma p_clip x y z : nclip (Some x) (Some y) (Some z) = Some (nclip x y z).
  Proof. unfold nclip. rewrite p_max, p_min. reflexivity. Qed.
  Lemma p_sq x : nsq (Some x) = Some (nsq x). Proof. reflexivity. Qed.
  Lemma p_abs x : nabs (Some x) = Some (nabs x).
  Proof. unfold nabs. rewrite p_ofZ, p_ltb, p_sub. apply p_ifS. Qed.
  Lemma p_lit a b : (b <> 0)%Z -> (nlit a b : option R) = Some (nlit a b).
  Proof. intros H. unfold nlit. rewrite !p_ofZ. apply p_div. apply (not_0_IZR b H). Qed.
  Lemma p_trunc x : ntrunc (Some x) = ntrunc x.
  Proof. unfold ntrunc. rewrite !p_ofZ, p_leb, p_sub, !p_floor. reflexivity. Qed.
  Lemma p_fold l x : fold_left nadd (defined1 l) (Some x) = Some (fold_left nadd l x).
  Proof. revert x. induction l as [|y l IH]; intros x; [reflexivity|]. cbn [defined1 map fold_left]. rewrite p_add. apply IH. Qed.
  Lemma p_sum l : nsum (defined1 l) = Some (nsum l).
  Proof. unfold nsum. rewrite p_ofZ. apply p_fold. Qed.
  Lemma p_hours j : (hours_of j : option R) = Some (hours_of j).
  Proof. destruct j as [|[|[|j]]]; reflexivity. Qed.
End Ops.

(** *** arrays *)
Lemma zlen_map {A B} (f : A -> B) l : zlen (map f l) = zlen l.
Proof. unfold zlen. rewrite map_length. reflexivity. Qed.
Lemma jget_map {A B} (f : A -> B) (d : A) (d' : B) l i : d' = f d -> jget d' (map f l) i = f (jget d l i).
Proof. intros ->. unfold jget. rewrite zlen_map. apply map_nth. Qed.
Lemma p_aget l i : aget (defined1 l) i = Some (aget l i).
Proof. unfold aget. apply jget_map. reflexivity. Qed.
Lemma p_row l i : jget [] (defined2 l) i = defined1 (jget [] l i).
Proof. apply jget_map. reflexivity. Qed.
Lemma np_get_map {A B} (f : A -> B) l i : np_get (map f l) i = on_ok f (np_get l i).
Proof.
  unfold np_get. rewrite zlen_map. destruct (np_norm (zlen l) i) as [j|]; [|reflexivity].
  rewrite nth_error_map. destruct (nth_error l (Z.to_nat j)); reflexivity.
Qed.
Lemma map2_map {A B C A' B' C'} (f : A -> B -> C) (f' : A' -> B' -> C') (a : A -> A') (b : B -> B') (c : C -> C') l m :
  (forall x y, f' (a x) (b y) = c (f x y)) -> map2 f' (map a l) (map b m) = map c (map2 f l m).
Proof. intros H. revert m. induction l as [|x l IH]; intros [|y m]; try reflexivity. cbn [map map2]. rewrite H, IH. reflexivity. Qed.
Lemma mapM_map {A A' B B'} (f : A -> result B) (f' : A' -> result B') (a : A -> A') (b : B -> B') l :
  (forall x, In x l -> f' (a x) = on_ok b (f x)) -> mapM f' (map a l) = on_ok (map b) (mapM f l).
Proof.
  induction l as [|x l IH]; intros H; [reflexivity|]. cbn [map mapM]. rewrite (H x (or_introl eq_refl)).
  destruct (f x) as [y|e]; [|reflexivity]. cbn [on_ok bind]. rewrite IH by (intros z Hz; apply H; right; exact Hz).
  destruct (mapM f l); reflexivity.
Qed.
Lemma mapM_same {A B B'} (f : A -> result B) (f' : A -> result B') (b : B -> B') l :
  (forall x, In x l -> f' x = on_ok b (f x)) -> mapM f' l = on_ok (map b) (mapM f l).
Proof. intros H. rewrite <- (map_id l) at 1. apply mapM_map. exact H. Qed.
Lemma on_ok_bind {A B C D} (r : result A) (f : A -> result B) (a : A -> C) (b : B -> D) (f' : C -> result D) :
  (forall x, r = Ok x -> f' (a x) = on_ok b (f x)) -> bind (on_ok a r) f' = on_ok b (bind r f).
Proof. destruct r as [x|e]; [intros H; apply H; reflexivity|reflexivity]. Qed.
Lemma bind_same {A B D} (r : result A) (f : A -> result B) (b : B -> D) (f' : A -> result D) :
  (forall x, r = Ok x -> f' x = on_ok b (f x)) -> bind r f' = on_ok b (bind r f).
Proof. destruct r as [x|e]; [intros H; apply H; reflexivity|reflexivity]. Qed.

Ltac p_simpl := repeat (rewrite ?p_ofZ, ?p_aget, ?p_b2n, ?p_add, ?p_sub, ?p_mul, ?p_leb, ?p_ltb, ?p_exp, ?p_max, ?p_min,
  ?p_clip, ?p_sq, ?p_abs, ?p_trunc, ?p_sum, ?p_hours, ?p_ifS).

(** *** experience, wages, utility factors *)
Section Shared.
  Variables (sp : model_spec R) (mp : model_params R).
  Notation sp' := (defined_spec sp).
  Notation mp' := (defined_params mp).

  Lemma p_credit e a b : get_pt_increment mp' e a b = Some (get_pt_increment mp e a b).
  Proof. unfold get_pt_increment. cbn [defined_params gamma_p gamma_p_mom]. destruct b; p_simpl; reflexivity. Qed.
  Lemma p_max_years t i c : max_exp_years t i (Some c) = Some (max_exp_years t i c).
  Proof. unfold max_exp_years. p_simpl. reflexivity. Qed.
  Lemma p_stock_years x t i c : stock_to_exp_years (Some x) t i (Some c) = Some (stock_to_exp_years x t i c).
  Proof. unfold stock_to_exp_years. rewrite p_max_years. p_simpl. reflexivity. Qed.
  Lemma p_years_stock y t i c : exp_years_to_stock (Some y) t i (Some c) = Some (exp_years_to_stock y t i c).
  Proof.
    unfold exp_years_to_stock. cbv zeta. rewrite p_max_years. p_simpl. apply p_div. cbn [nltb RNum nofZ]. unfold Rltb.
    destruct (Rlt_dec 0 (max_exp_years t i c)); lra.
  Qed.
  Lemma p_next_years y c k : next_exp_years (Some y) c (Some k) = Some (next_exp_years y c k).
  Proof. unfold next_exp_years. p_simpl. reflexivity. Qed.
  Lemma p_next_stock x t i k c : next_stock (Some x) t i (Some k) c = Some (next_stock x t i k c).
  Proof. unfold next_stock. cbv zeta. rewrite p_stock_years, p_next_years, p_years_stock. p_simpl. reflexivity. Qed.

  Lemma p_search g x : searchsorted_right (defined1 g) (Some x) = searchsorted_right g x.
  Proof.
    unfold searchsorted_right, defined1. assert (H : filter (fun g0 => nleb g0 (Some x)) (map Some g) = map Some (filter (fun g0 => nleb g0 x) g)).
    { induction g as [|y g IH]; [reflexivity|]. cbn [map filter]. rewrite p_leb. destruct (nleb y x); cbn [map]; rewrite IH; reflexivity. }
    rewrite H. apply zlen_map.
  Qed.
  Lemma p_interp g v x : linear_interp_1d (defined1 g) (defined1 v) (Some x) = Some (linear_interp_1d g v x).
  Proof.
    unfold linear_interp_1d. cbv zeta. rewrite p_search. change (zlen (defined1 g)) with (zlen (map Some g)). rewrite zlen_map.
    set (hi := Z.min (Z.max (searchsorted_right g x) 1) (zlen g - 1)). p_simpl.
    assert (H : (if nltb (nofZ 0) (nsub (aget g hi) (aget g (hi - 1))) then ndiv (Some (nsub x (aget g (hi - 1)))) (Some (nsub (aget g hi) (aget g (hi - 1)))) else Some (nofZ 0))
      = Some (if nltb (nofZ 0) (nsub (aget g hi) (aget g (hi - 1))) then ndiv (nsub x (aget g (hi - 1))) (nsub (aget g hi) (aget g (hi - 1))) else nofZ 0)).
    { cbn [nltb RNum nofZ nsub]. unfold Rltb. destruct (Rlt_dec 0 (aget g hi - aget g (hi - 1))) as [H|H]; [|reflexivity].
      apply p_div. lra. }
    rewrite H. p_simpl. reflexivity.
  Qed.

  Lemma years_nonneg x t i c : 0 <= x -> (0 <= t)%Z -> (0 <= i)%Z -> 0 <= stock_to_exp_years x t i c.
  Proof.
    intros Hx Ht Hi. unfold stock_to_exp_years, max_exp_years. cbn [nmul nadd nofZ RNum]. apply Rmult_le_pos; [exact Hx|].
    apply IZR_le in Ht, Hi. unfold nmax. cbn [nleb RNum]. unfold Rleb. destruct (Rle_dec (IZR t) (IZR t * c)); lra.
  Qed.
  Lemma p_log_wage e x i k t : 0 < stock_to_exp_years x t i k + 1 ->
    calculate_log_wage mp' e (Some x) i (Some k) t = Some (calculate_log_wage mp e x i k t).
  Proof.
    intros H. unfold calculate_log_wage. cbv zeta. cbn [defined_params gamma_0 gamma_1]. rewrite p_stock_years. p_simpl.
    rewrite p_ln by exact H. p_simpl. reflexivity.
  Qed.
  Lemma p_factors e ty bin : calculate_non_consumption_utility mp' e ty bin = defined1 (calculate_non_consumption_utility mp e ty bin).
  Proof.
    unfold calculate_non_consumption_utility. cbv zeta.
    cbn [defined_params theta_p theta_f no_kids_f no_kids_p yes_kids_f yes_kids_p child_0_2_f child_0_2_p child_3_5_f child_3_5_p child_6_10_f child_6_10_p].
    p_simpl. reflexivity.
  Qed.

  (** *** taxes and transfers *)
  Lemma p_ssc d w : calculate_ssc_deductions (defined_pair d) (Some w) = Some (calculate_ssc_deductions d w).
  Proof. unfold calculate_ssc_deductions, defined_pair. cbn [fst snd]. p_simpl. reflexivity. Qed.
  Lemma p_inc_tax tp y : calculate_inc_tax (defined_tax tp) (Some y) = Some (calculate_inc_tax tp y).
  Proof. unfold calculate_inc_tax. cbv zeta. cbn [defined_tax tx_thresholds tx_intercepts tx_linear tx_quadratic]. p_simpl. reflexivity. Qed.
  Lemma p_net tp d f m s : calculate_net_income (defined_tax tp) (defined_pair d) (Some f) (Some m) s = Some (calculate_net_income tp d f m s).
  Proof.
    unfold calculate_net_income. cbv zeta. rewrite !p_ssc, !p_ofZ, !p_sub, !p_add, !p_sub. rewrite p_div by (cbn; lra). rewrite !p_inc_tax. p_simpl.
    rewrite p_lit by lia. p_simpl. reflexivity.
  Qed.
  Lemma p_allowance m f married baby s c z :
    calc_erziehungsgeld (Some m) (Some f) married baby (Some s) (Some c) (Some z) = Some (calc_erziehungsgeld m f married baby s c z).
  Proof. unfold calc_erziehungsgeld. cbv zeta. p_simpl. reflexivity. Qed.
  Lemma p_alg2 n m s a : calculate_alg2 n m (Some s) (Some a) = Some (calculate_alg2 n m s a).
  Proof. unfold calculate_alg2. cbv zeta. p_simpl. reflexivity. Qed.
  Lemma p_alg1 f p n w r1 r2 c :
    calculate_alg1 f p n (Some w) (Some r1) (Some r2) (Some c) = Some (calculate_alg1 f p n w r1 r2 c).
  Proof. unfold calculate_alg1. cbv zeta. p_simpl. reflexivity. Qed.
  Lemma p_elterngeld f p w r lo hi c :
    calculate_elterngeld f p (Some w) (Some r) (Some lo) (Some hi) (Some c) = Some (calculate_elterngeld f p w r lo hi c).
  Proof. unfold calculate_elterngeld. cbv zeta. p_simpl. reflexivity. Qed.
  Lemma p_benefits st lw cb mw b :
    calculate_non_employment_benefits sp' st (Some lw) (Some cb) (Some mw) b = Some (calculate_non_employment_benefits sp st lw cb mw b).
  Proof.
    unfold calculate_non_employment_benefits. cbv zeta.
    cbn [defined_spec regelsatz_single housing_single regelsatz_child addition_child_single housing_addtion alg1_replacement_no_child
      alg1_replacement_child elterngeld_replacement elterngeld_min elterngeld_max erziehungsgeld_income_threshold_single
      erziehungsgeld_income_threshold_married erziehungsgeld].
    rewrite p_lit by lia. p_simpl. rewrite p_alg2, p_alg1, p_elterngeld. p_simpl. rewrite p_allowance. p_simpl. reflexivity.
  Qed.
  Lemma p_resources st lw mw cb b : calc_resources sp' st (Some lw) (Some mw) (Some cb) b = Some (calc_resources sp st lw mw cb b).
  Proof.
    unfold calc_resources. cbv zeta. rewrite p_benefits. cbn [defined_spec tax_params ssc_deductions tax_splitting].
    rewrite p_ofZ, p_net. p_simpl. reflexivity.
  Qed.
  Lemma p_non_employment st lw mw cb : calculate_non_employment_consumption_resources sp' st (Some lw) (Some mw) (Some cb)
    = on_ok Some (calculate_non_employment_consumption_resources sp st lw mw cb).
  Proof.
    unfold calculate_non_employment_consumption_resources. change (regime_flag sp') with (regime_flag sp).
    apply bind_same. intros b _. rewrite p_resources. reflexivity.
  Qed.
End Shared.
End Undefined_numbers.

Ltac p_simpl := repeat (rewrite ?p_ofZ, ?p_aget, ?p_b2n, ?p_add, ?p_sub, ?p_mul, ?p_leb, ?p_ltb, ?p_exp, ?p_max, ?p_min,
  ?p_clip, ?p_sq, ?p_abs, ?p_trunc, ?p_sum, ?p_hours, ?p_ifS).
