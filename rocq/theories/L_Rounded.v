(** The experience stock in rounded arithmetic: monotone roundings (C09). *)
From Coq Require Import Reals Lra Lia ZArith.
From Verif Require Import Base Num M_Params M_Experience L_Num S_Experience.
Open Scope R_scope.

Section Rounded.
  Variable rnd : R -> R.
  Hypothesis R0' : rnd 0 = 0.
  Hypothesis R1' : rnd 1 = 1.
  Hypothesis Rm : forall x y, x <= y -> rnd x <= rnd y.
  Hypothesis Ri : forall x, rnd (rnd x) = rnd x.

  Lemma rnd_nonneg x : 0 <= x -> 0 <= rnd x.
  Proof. intros H. rewrite <- R0'. apply Rm. exact H. Qed.

  Lemma rounded_max_years t i (p : R) : (0 <= t)%Z -> (0 <= i)%Z -> 0 <= @max_exp_years R (RndNum rnd) t i p.
  Proof.
    intros Ht Hi. unfold max_exp_years, nmax. cbn [RndNum nadd nmul nofZ nleb].
    apply rnd_nonneg. assert (0 <= rnd (IZR i)) by (apply rnd_nonneg, (IZR_le 0); exact Hi).
    assert (0 <= rnd (IZR t)) by (apply rnd_nonneg, (IZR_le 0); exact Ht).
    destruct (Rleb_spec (rnd (IZR t)) (rnd (rnd (IZR t) * p))); lra.
  Qed.

  Lemma rounded_clip_mono x y : x <= y -> @nclip R (RndNum rnd) x (rnd 0) (rnd 1) <= @nclip R (RndNum rnd) y (rnd 0) (rnd 1).
  Proof.
    intros H. unfold nclip, nmin, nmax. cbn [RndNum nleb]. rewrite R0', R1'.
    destruct (Rleb_spec x 0), (Rleb_spec y 0); repeat match goal with |- context [Rleb ?a ?b] => destruct (Rleb_spec a b) end; lra.
  Qed.

  Lemma rounded_to_stock_mono x y t i (p : R) : x <= y ->
    @exp_years_to_stock R (RndNum rnd) x t i p <= @exp_years_to_stock R (RndNum rnd) y t i p.
  Proof.
    intros H. unfold exp_years_to_stock. cbn [RndNum ndiv nltb nofZ]. rewrite R0', R1'. apply Rm.
    assert (D : 0 < (if Rltb 0 (@max_exp_years R (RndNum rnd) t i p) then @max_exp_years R (RndNum rnd) t i p else 1)).
    { destruct (Rltb_spec 0 (@max_exp_years R (RndNum rnd) t i p)); lra. }
    apply Rmult_le_compat_r; [left; apply Rinv_0_lt_compat; exact D|exact H].
  Qed.

  Lemma rounded_next_years_mono x y c (p : R) : x <= y ->
    @next_exp_years R (RndNum rnd) x c p <= @next_exp_years R (RndNum rnd) y c p.
  Proof.
    intros H. unfold next_exp_years. cbn [RndNum nadd]. apply Rm, Rplus_le_compat_r, Rm, Rplus_le_compat_r. exact H.
  Qed.

  Lemma rounded_mono_stock s s' t i (p : R) c : (0 <= t)%Z -> (0 <= i)%Z -> s <= s' ->
    @next_stock R (RndNum rnd) s t i p c <= @next_stock R (RndNum rnd) s' t i p c.
  Proof.
    intros Ht Hi H. unfold next_stock. apply rounded_clip_mono, rounded_to_stock_mono, rounded_next_years_mono.
    unfold stock_to_exp_years. cbn [RndNum nmul]. apply Rm, Rmult_le_compat_r; [apply rounded_max_years; assumption|exact H].
  Qed.

  Lemma rounded_choice_order s t i (p : R) : 0 <= p <= 1 ->
    @next_stock R (RndNum rnd) s t i p 0 <= @next_stock R (RndNum rnd) s t i p 1 <= @next_stock R (RndNum rnd) s t i p 2.
  Proof.
    intros Hp. unfold next_stock.
    assert (E : exists E, @stock_to_exp_years R (RndNum rnd) s t i p = rnd E) by (unfold stock_to_exp_years; eexists; reflexivity).
    destruct E as [E ->].
    assert (P : 0 <= rnd p <= 1) by (split; [apply rnd_nonneg; lra|rewrite <- R1'; apply Rm; lra]).
    split; apply rounded_clip_mono, rounded_to_stock_mono; unfold next_exp_years, b2n; cbn [Z.eqb Pos.eqb RndNum nadd nmul nofZ];
      rewrite ?R0', ?R1', ?Rmult_0_l, ?Rmult_1_l, ?Rmult_1_r, ?R0', ?R1', ?Rplus_0_r, ?Ri.
    - rewrite <- (Ri E) at 1. apply Rm. lra.
    - apply Rm. lra.
  Qed.
End Rounded.
