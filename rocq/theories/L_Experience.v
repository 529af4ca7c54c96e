From Verif Require Import Base Num M_Params M_Experience L_Num S_Experience.
Open Scope R_scope.

Lemma max_exp_years_R t i (p : R) : (0 <= t)%Z -> max_exp_years t i p = max_years i t p.
Proof.
  intros Ht. apply IZR_le in Ht. unfold max_exp_years, max_years. rewrite nmax_R. rn.
  f_equal. rmm; try nra.
Qed.

Lemma stock_to_exp_years_R s t i (p : R) :
  (0 <= t)%Z -> stock_to_exp_years s t i p = years_of s i t p.
Proof. intros. unfold stock_to_exp_years, years_of. rn. rewrite max_exp_years_R by assumption. reflexivity. Qed.

Lemma max_years_nonneg i t p : (0 <= i)%Z -> (0 <= t)%Z -> 0 <= max_years i t p.
Proof. intros Hi Ht; apply IZR_le in Hi, Ht; unfold max_years. assert (1 <= Rmax 1 p) by apply Rmax_l. nra. Qed.

Lemma max_years_next i t p : max_years i (t + 1) p = max_years i t p + Rmax 1 p.
Proof. unfold max_years. rewrite plus_IZR. ring. Qed.

Lemma max_years_next_pos i t p : (0 <= i)%Z -> (0 <= t)%Z -> 0 < max_years i (t + 1) p.
Proof.
  intros. rewrite max_years_next. assert (1 <= Rmax 1 p) by apply Rmax_l.
  pose proof (max_years_nonneg i t p H H0). lra.
Qed.

Lemma next_exp_years_R y c (p : R) : next_exp_years y c p = y + credit c p.
Proof.
  unfold next_exp_years, credit. rewrite !b2n_R. rn.
  destruct (Z.eqb_spec c 1); destruct (Z.eqb_spec c 2); subst; try lia; lra.
Qed.

Lemma exp_years_to_stock_R y t i (p : R) :
  (0 <= t)%Z -> 0 < max_years i t p -> exp_years_to_stock y t i p = y / max_years i t p.
Proof.
  intros Ht Hp. unfold exp_years_to_stock. rewrite max_exp_years_R by assumption. rn.
  destruct (Rltb_spec 0 (max_years i t p)); [reflexivity|lra].
Qed.

Lemma credit_nonneg c p : 0 <= p -> 0 <= credit c p.
Proof. unfold credit. destruct (c =? 1)%Z; [lra|]. destruct (c =? 2)%Z; lra. Qed.
Lemma credit_le c p : credit c p <= Rmax 1 p.
Proof.
  unfold credit. pose proof (Rmax_l 1 p); pose proof (Rmax_r 1 p).
  destruct (c =? 1)%Z; [lra|]. destruct (c =? 2)%Z; lra.
Qed.

(** unclipped value of the next stock *)
Definition raw_next (s : R) (t i : Z) (p : R) (c : Z) : R :=
  (years_of s i t p + credit c p) / max_years i (t + 1) p.

Lemma next_stock_raw s t i (p : R) c :
  (0 <= t)%Z -> (0 <= i)%Z ->
  next_stock s t i p c = Rmin (Rmax (raw_next s t i p c) 0) 1.
Proof.
  intros Ht Hi. unfold next_stock. rewrite nclip_R. unfold raw_next.
  rewrite exp_years_to_stock_R by (try lia; apply max_years_next_pos; assumption).
  rewrite next_exp_years_R, stock_to_exp_years_R by assumption. reflexivity.
Qed.

Lemma raw_next_unit s t i p c :
  0 <= s <= 1 -> (0 <= t)%Z -> (0 <= i)%Z -> 0 <= p -> 0 <= raw_next s t i p c <= 1.
Proof.
  intros Hs Ht Hi Hp. unfold raw_next.
  pose proof (max_years_next_pos i t p Hi Ht) as Hpos.
  pose proof (max_years_nonneg i t p Hi Ht) as Hm.
  pose proof (credit_nonneg c p Hp). pose proof (credit_le c p).
  unfold years_of. split.
  - apply Rmult_le_pos; [nra | left; apply Rinv_0_lt_compat; assumption].
  - apply Rmult_le_reg_r with (max_years i (t + 1) p); [assumption|].
    unfold Rdiv. rewrite Rmult_assoc, Rinv_l by lra. rewrite max_years_next. nra.
Qed.

Lemma next_stock_unclipped s t i (p : R) c :
  0 <= s <= 1 -> (0 <= t)%Z -> (0 <= i)%Z -> 0 <= p ->
  next_stock s t i p c = raw_next s t i p c.
Proof.
  intros Hs Ht Hi Hp. rewrite next_stock_raw by assumption.
  pose proof (raw_next_unit s t i p c Hs Ht Hi Hp). rmm; lra.
Qed.

(** *** C06 *)
Lemma nclip_unit_R (x : R) : 0 <= nclip x 0 1 <= 1.
Proof. rewrite nclip_R. rmm; lra. Qed.

Lemma next_stock_unit (s : R) t i p c : 0 <= next_stock s t i p c <= 1.
Proof. unfold next_stock. apply nclip_unit_R. Qed.

Lemma next_stock_unit_rounded (rnd : R -> R) :
  rnd 0 = 0 -> rnd 1 = 1 ->
  forall (s : R) t i p c, 0 <= @next_stock R (RndNum rnd) s t i p c <= 1.
Proof.
  intros H0 H1 s t i p c. unfold next_stock.
  match goal with |- context [nclip ?x _ _] => generalize x end. intros x.
  unfold nclip, nmin, nmax. cbn [RndNum nleb nofZ]. rewrite H0, H1.
  destruct (Rleb_spec x 0); [destruct (Rleb_spec 0 1); lra|].
  destruct (Rleb_spec x 1); lra.
Qed.

(** *** C07 *)
Lemma next_stock_years s t i (p : R) c :
  0 <= s <= 1 -> (0 <= t)%Z -> (0 <= i)%Z -> 0 <= p ->
  years_of (next_stock s t i p c) i (t + 1) p = years_of s i t p + credit c p.
Proof.
  intros Hs Ht Hi Hp. rewrite next_stock_unclipped by assumption.
  unfold years_of at 1, raw_next. field.
  apply Rgt_not_eq, max_years_next_pos; assumption.
Qed.

(** *** C08 *)
Lemma stock_years_stock s t i (p : R) :
  (0 <= t)%Z -> 0 < max_years i t p ->
  exp_years_to_stock (stock_to_exp_years s t i p) t i p = s.
Proof.
  intros. rewrite exp_years_to_stock_R, stock_to_exp_years_R by assumption.
  unfold years_of. field. lra.
Qed.
Lemma years_stock_years y t i (p : R) :
  (0 <= t)%Z -> 0 < max_years i t p ->
  stock_to_exp_years (exp_years_to_stock y t i p) t i p = y.
Proof.
  intros. rewrite exp_years_to_stock_R, stock_to_exp_years_R by assumption.
  unfold years_of. field. lra.
Qed.
Lemma years_to_stock_corner y t i (p : R) :
  (0 <= t)%Z -> max_years i t p <= 0 -> exp_years_to_stock y t i p = y.
Proof.
  intros Ht H. unfold exp_years_to_stock. rewrite max_exp_years_R by assumption. rn.
  destruct (Rltb_spec 0 (max_years i t p)); [lra|]. field.
Qed.

(** *** C09 *)
Lemma Rclip_mono x y : x <= y -> Rmin (Rmax x 0) 1 <= Rmin (Rmax y 0) 1.
Proof. intros; rmm; lra. Qed.

Lemma next_stock_mono_stock s s' t i (p : R) c :
  (0 <= t)%Z -> (0 <= i)%Z -> s <= s' ->
  next_stock s t i p c <= next_stock s' t i p c.
Proof.
  intros Ht Hi Hs. rewrite !next_stock_raw by assumption. apply Rclip_mono.
  unfold raw_next, years_of. pose proof (max_years_next_pos i t p Hi Ht).
  pose proof (max_years_nonneg i t p Hi Ht).
  apply Rmult_le_compat_r; [left; apply Rinv_0_lt_compat; assumption|nra].
Qed.

Lemma next_stock_mono_credit s t i (p : R) c c' :
  (0 <= t)%Z -> (0 <= i)%Z -> credit c p <= credit c' p ->
  next_stock s t i p c <= next_stock s t i p c'.
Proof.
  intros Ht Hi Hc. rewrite !next_stock_raw by assumption. apply Rclip_mono.
  unfold raw_next. pose proof (max_years_next_pos i t p Hi Ht).
  apply Rmult_le_compat_r; [left; apply Rinv_0_lt_compat; assumption|lra].
Qed.

Lemma next_stock_strict s t i (p : R) :
  0 <= s <= 1 -> (0 <= t)%Z -> (0 <= i)%Z -> 0 <= p ->
  next_stock s t i p 0 < next_stock s t i p 2.
Proof.
  intros Hs Ht Hi Hp. rewrite !next_stock_unclipped by assumption. unfold raw_next.
  apply Rmult_lt_compat_r; [apply Rinv_0_lt_compat, max_years_next_pos; assumption|].
  unfold credit; simpl; lra.
Qed.

Lemma biased_increment (mp : model_params R) e a : get_pt_increment mp e a true = 1.
Proof. reflexivity. Qed.

Lemma biased_same s t i (mp : model_params R) e a :
  next_stock s t i (get_pt_increment mp e a true) 1 = next_stock s t i (get_pt_increment mp e a true) 2.
Proof. rewrite biased_increment. unfold next_stock, next_exp_years. rewrite !b2n_R. simpl. f_equal. f_equal. rn. lra. Qed.

(** *** C10 *)
Lemma max_years_le1 i t p : p <= 1 -> max_years i t p = IZR i + IZR t.
Proof. intros. unfold max_years. replace (Rmax 1 p) with 1 by (rmm; lra). ring. Qed.

Lemma carry_over s t i (p p' : R) c :
  0 <= s <= 1 -> (0 <= t)%Z -> (0 <= i)%Z -> 0 <= p ->
  (p <= 1 /\ p' <= 1) \/ p = p' ->
  years_of (next_stock s t i p c) i (t + 1) p' = years_of s i t p + credit c p.
Proof.
  intros Hs Ht Hi Hp H.
  rewrite <- (next_stock_years s t i p c Hs Ht Hi Hp). unfold years_of. f_equal.
  destruct H as [[H1 H2]|<-]; [|reflexivity]. rewrite !max_years_le1 by assumption. reflexivity.
Qed.

Lemma carry_over_exact s t i (p p' : R) c :
  0 <= s <= 1 -> (0 <= t)%Z -> (0 <= i)%Z -> 0 <= p ->
  0 < years_of s i t p + credit c p ->
  years_of (next_stock s t i p c) i (t + 1) p' = years_of s i t p + credit c p
  <-> Rmax 1 p = Rmax 1 p'.
Proof.
  intros Hs Ht Hi Hp Hy. rewrite next_stock_unclipped by assumption.
  pose proof (max_years_next_pos i t p Hi Ht) as H1.
  unfold years_of at 1, raw_next. set (y := years_of s i t p + credit c p) in *.
  assert (Ht' : 1 <= IZR (t + 1)) by (apply IZR_le; lia).
  split.
  - intros E. assert (E' : max_years i (t + 1) p' = max_years i (t + 1) p).
    { apply Rmult_eq_reg_l with y; [|lra].
      assert (y / max_years i (t + 1) p * max_years i (t + 1) p' * max_years i (t + 1) p
              = y * max_years i (t + 1) p) by (rewrite E; reflexivity).
      rewrite <- H. field. lra. }
    unfold max_years in E'. nra.
  - intros E. unfold max_years. rewrite <- E. field. unfold max_years in H1. lra.
Qed.
