(** Lemmas about rounding to p binary digits (C87). *)
From Coq Require Import Reals Lra Lia ZArith Bool.
From Verif Require Import Base Num S_Binary.
Open Scope R_scope.

(** ** Powers of two *)
Lemma two_pos e : 0 < powerRZ 2 e.
Proof. apply powerRZ_lt. lra. Qed.
Lemma two_add e f : powerRZ 2 (e + f) = powerRZ 2 e * powerRZ 2 f.
Proof. apply powerRZ_add. lra. Qed.
Lemma two_Z n : (0 <= n)%Z -> powerRZ 2 n = IZR (2 ^ n).
Proof.
  intros Hn. destruct n as [|n|n]; [reflexivity| |lia].
  cbn [powerRZ]. rewrite pow_IZR, positive_nat_Z. reflexivity.
Qed.
Lemma two_mono e f : (e <= f)%Z -> powerRZ 2 e <= powerRZ 2 f.
Proof.
  intros H. replace f with (e + (f - e))%Z by lia. rewrite two_add.
  pose proof (two_pos e). rewrite (two_Z (f - e)) by lia.
  assert (1 <= IZR (2 ^ (f - e))) by (apply (IZR_le 1); pose proof (Z.pow_pos_nonneg 2 (f - e)); lia).
  nra.
Qed.
Lemma two_Rpower e : powerRZ 2 e = Rpower 2 (IZR e).
Proof. apply powerRZ_Rpower. lra. Qed.

(** ** Magnitude *)
Lemma magnitude_bounds x : x <> 0 -> powerRZ 2 (magnitude x - 1) <= Rabs x < powerRZ 2 (magnitude x).
Proof.
  intros Hx. assert (P : 0 < Rabs x) by (apply Rabs_pos_lt; exact Hx).
  assert (L2 : 0 < ln 2) by (rewrite <- ln_1; apply ln_increasing; lra).
  destruct (archimed (ln (Rabs x) / ln 2)) as [U1 U2]. fold (magnitude x) in U1, U2.
  assert (E : Rabs x = Rpower 2 (ln (Rabs x) / ln 2)).
  { unfold Rpower. replace (ln (Rabs x) / ln 2 * ln 2) with (ln (Rabs x)) by (field; lra). symmetry. apply exp_ln. exact P. }
  rewrite !two_Rpower, minus_IZR. split.
  - rewrite E at 1. apply Rle_Rpower; lra.
  - rewrite E. apply Rpower_lt; lra.
Qed.

(** ** The nearest integer *)
Lemma int_part_bounds r : IZR (Int_part r) <= r < IZR (Int_part r) + 1.
Proof. destruct (base_Int_part r). lra. Qed.

Lemma half_even_half r : Rabs (IZR (half_even r) - r) <= 1/2.
Proof.
  pose proof (int_part_bounds r) as B. unfold half_even.
  destruct (Rlt_dec (r - IZR (Int_part r)) (1/2)) as [L|L]; [apply Rabs_le; lra|].
  destruct (Rlt_dec (1/2) (r - IZR (Int_part r))) as [U|U].
  - rewrite plus_IZR. apply Rabs_le; lra.
  - destruct (Z.even (Int_part r)); [|rewrite plus_IZR]; apply Rabs_le; lra.
Qed.

Lemma half_even_nearest r k : Rabs (IZR (half_even r) - r) <= Rabs (IZR k - r).
Proof.
  pose proof (half_even_half r) as H.
  destruct (Z.eq_dec k (half_even r)) as [->|N]; [lra|].
  assert (1 <= Rabs (IZR k - IZR (half_even r))).
  { rewrite <- minus_IZR, <- abs_IZR. apply (IZR_le 1). lia. }
  pose proof (Rabs_triang (IZR k - r) (r - IZR (half_even r))) as T.
  replace (IZR k - r + (r - IZR (half_even r))) with (IZR k - IZR (half_even r)) in T by ring.
  rewrite (Rabs_minus_sym r) in T. lra.
Qed.

Lemma half_even_tie r k :
  k <> half_even r -> Rabs (IZR k - r) = Rabs (IZR (half_even r) - r) -> Z.even (half_even r) = true.
Proof.
  intros N E. pose proof (half_even_half r) as H.
  assert (D : 1 <= Rabs (IZR k - IZR (half_even r))).
  { rewrite <- minus_IZR, <- abs_IZR. apply (IZR_le 1). lia. }
  pose proof (Rabs_triang (IZR k - r) (r - IZR (half_even r))) as T.
  replace (IZR k - r + (r - IZR (half_even r))) with (IZR k - IZR (half_even r)) in T by ring.
  rewrite (Rabs_minus_sym r) in T.
  assert (Hh : Rabs (IZR (half_even r) - r) = 1/2) by lra. clear T D E H N k.
  pose proof (int_part_bounds r) as B. unfold half_even in *.
  destruct (Rlt_dec (r - IZR (Int_part r)) (1/2)) as [L|L].
  { exfalso. rewrite Rabs_minus_sym, Rabs_right in Hh by lra. lra. }
  destruct (Rlt_dec (1/2) (r - IZR (Int_part r))) as [U|U].
  { exfalso. rewrite plus_IZR, Rabs_right in Hh by lra. lra. }
  destruct (Z.even (Int_part r)) eqn:Ev; [exact Ev|].
  rewrite Z.add_1_r, Z.even_succ, <- Z.negb_even, Ev. reflexivity.
Qed.

(** ** Rounding *)
Section Binary.
  Variables (p emin : Z).
  Hypothesis Hp : (1 <= p)%Z.

  Notation q x := (last_digit p emin x).
  Lemma last_digit_pos x : 0 < q x.
  Proof. apply two_pos. Qed.

  Lemma binary_zero : binary p emin 0 = 0.
  Proof. unfold binary. destruct (Req_EM_T 0 0); [reflexivity|congruence]. Qed.
  Lemma binary_nonzero x : x <> 0 -> binary p emin x = IZR (half_even (x / q x)) * q x.
  Proof. intros H. unfold binary. destruct (Req_EM_T x 0); [congruence|reflexivity]. Qed.

  Lemma scaled_distance x j : Rabs (IZR j * q x - x) = Rabs (IZR j - x / q x) * q x.
  Proof.
    pose proof (last_digit_pos x) as Q.
    replace (IZR j * q x - x) with ((IZR j - x / q x) * q x) by (field; lra).
    rewrite Rabs_mult, (Rabs_right (q x)) by lra. reflexivity.
  Qed.

  (** a representable number is a multiple of the last digit of x, or some multiple is
      strictly closer to x *)
  Lemma multiples_suffice x z : x <> 0 -> representable p emin z ->
    exists j, z = IZR j * q x \/ Rabs (IZR j * q x - x) < Rabs (z - x).
  Proof.
    intros Hx (m & e & He & Hm & ->). unfold last_digit.
    set (E := Z.max (magnitude x - p) emin).
    destruct (Z_le_gt_dec E e) as [L|G].
    - exists (m * 2 ^ (e - E))%Z. left. rewrite mult_IZR, <- two_Z by lia.
      rewrite Rmult_assoc, <- two_add. do 2 f_equal. lia.
    - assert (EE : E = (magnitude x - p)%Z) by (unfold E in *; lia).
      destruct (magnitude_bounds x Hx) as [B _].
      set (b := powerRZ 2 (magnitude x - 1)) in *.
      assert (Bj : b = IZR (2 ^ (p - 1)) * powerRZ 2 E).
      { unfold b. rewrite <- two_Z by lia. rewrite <- two_add. f_equal. lia. }
      assert (Zb : Rabs (IZR m * powerRZ 2 e) <= b).
      { rewrite Rabs_mult, (Rabs_right (powerRZ 2 e)) by (pose proof (two_pos e); lra).
        apply Rle_trans with (powerRZ 2 p * powerRZ 2 (E - 1)).
        - apply Rmult_le_compat; [apply Rabs_pos|left; apply two_pos| |apply two_mono; lia].
          rewrite two_Z by lia. rewrite <- abs_IZR. apply IZR_le. exact Hm.
        - rewrite <- two_add. unfold b. right. f_equal. lia. }
      set (z := IZR m * powerRZ 2 e) in *.
      assert (Pb : 0 < b) by apply two_pos.
      destruct (Rlt_dec 0 x) as [Px|Nx].
      + exists (2 ^ (p - 1))%Z. rewrite <- Bj. rewrite (Rabs_right x) in B by lra.
        destruct (Req_dec z b) as [->|Nz]; [left; reflexivity|right].
        pose proof (Rle_abs z). rewrite (Rabs_left1 (b - x)), (Rabs_left1 (z - x)) by lra. lra.
      + assert (Nx' : x < 0) by lra. rewrite (Rabs_left x) in B by lra.
        exists (- 2 ^ (p - 1))%Z. rewrite opp_IZR, <- Ropp_mult_distr_l, <- Bj.
        destruct (Req_dec z (- b)) as [->|Nz]; [left; reflexivity|right].
        pose proof (Rle_abs (- z)) as A. rewrite Rabs_Ropp in A.
        rewrite (Rabs_right (- b - x)), (Rabs_right (z - x)) by lra. lra.
  Qed.

  Lemma binary_multiple x j : x <> 0 -> Rabs (binary p emin x - x) <= Rabs (IZR j * q x - x).
  Proof.
    intros Hx. rewrite binary_nonzero by exact Hx. rewrite !scaled_distance.
    apply Rmult_le_compat_r; [left; apply last_digit_pos|apply half_even_nearest].
  Qed.

  Lemma binary_representable x : representable p emin (binary p emin x).
  Proof.
    destruct (Req_dec x 0) as [->|Hx].
    - rewrite binary_zero. exists 0%Z, emin. split; [lia|]. split; [cbn [Z.abs]; apply Z.pow_nonneg; lia|ring].
    - rewrite binary_nonzero by exact Hx.
      exists (half_even (x / q x)), (Z.max (magnitude x - p) emin). split; [lia|]. split; [|reflexivity].
      set (r := x / q x). set (k := half_even r).
      assert (R1 : Rabs r <= IZR (2 ^ p)).
      { unfold r, Rdiv. rewrite Rabs_mult, (Rabs_right (/ q x)) by (left; apply Rinv_0_lt_compat, last_digit_pos).
        apply Rmult_le_reg_r with (q x); [apply last_digit_pos|].
        rewrite Rmult_assoc, Rinv_l, Rmult_1_r by (pose proof (last_digit_pos x); lra).
        destruct (magnitude_bounds x Hx) as [_ B]. unfold last_digit. rewrite <- two_Z by lia. rewrite <- two_add.
        eapply Rle_trans; [left; exact B|]. apply two_mono. lia. }
      (* compare with the integer 2^p (or its negative) *)
      destruct (Z_le_gt_dec (Z.abs k) (2 ^ p)) as [L|G]; [exact L|exfalso].
      pose proof (half_even_half r) as H. fold k in H.
      assert (IZR (2 ^ p) + 1 <= Rabs (IZR k)).
      { rewrite <- abs_IZR, <- plus_IZR. apply IZR_le. lia. }
      pose proof (Rabs_triang (IZR k - r) r) as T. replace (IZR k - r + r) with (IZR k) in T by ring. lra.
  Qed.

  Lemma binary_nearest x : nearest p emin x (binary p emin x).
  Proof.
    split; [apply binary_representable|]. intros z Hz.
    destruct (Req_dec x 0) as [->|Hx].
    - rewrite binary_zero, Rminus_0_r, Rabs_R0. apply Rabs_pos.
    - destruct (multiples_suffice x z Hx Hz) as (j & [->|L]).
      + apply binary_multiple. exact Hx.
      + pose proof (binary_multiple x j Hx). lra.
  Qed.

  Lemma binary_tie x z : representable p emin z -> z <> binary p emin x ->
    Rabs (z - x) = Rabs (binary p emin x - x) -> exists m, Z.even m = true /\ binary p emin x = IZR m * q x.
  Proof.
    intros Hz N E. destruct (Req_dec x 0) as [->|Hx].
    - exists 0%Z. split; [reflexivity|]. rewrite binary_zero. ring.
    - exists (half_even (x / q x)). split; [|apply binary_nonzero; exact Hx].
      destruct (multiples_suffice x z Hx Hz) as (j & [Ej|L]).
      + apply (half_even_tie _ j).
        * intros ->. apply N. rewrite Ej. symmetry. apply binary_nonzero. exact Hx.
        * rewrite Ej, binary_nonzero in E by exact Hx. rewrite !scaled_distance in E.
          apply Rmult_eq_reg_r in E; [exact E|]. pose proof (last_digit_pos x). lra.
      + pose proof (binary_multiple x j Hx). lra.
  Qed.

  Lemma binary_fixed x : representable p emin x -> binary p emin x = x.
  Proof.
    intros H. destruct (binary_nearest x) as [_ N]. specialize (N x H).
    replace (x - x) with 0 in N by ring. rewrite Rabs_R0 in N.
    pose proof (Rabs_pos (binary p emin x - x)). assert (Z0 : Rabs (binary p emin x - x) = 0) by lra.
    destruct (Req_dec (binary p emin x - x) 0) as [Q|Q]; [lra|]. apply Rabs_no_R0 in Q. contradiction.
  Qed.

  Lemma binary_idempotent x : binary p emin (binary p emin x) = binary p emin x.
  Proof. apply binary_fixed, binary_representable. Qed.

  Lemma binary_mono x y : x <= y -> binary p emin x <= binary p emin y.
  Proof.
    intros [L|<-]; [|lra]. apply Rnot_lt_le. intros C.
    destruct (binary_nearest x) as [Rx Nx]. destruct (binary_nearest y) as [Ry Ny].
    specialize (Nx _ Ry). specialize (Ny _ Rx).
    set (bx := binary p emin x) in *. set (by_ := binary p emin y) in *.
    unfold Rabs in Nx, Ny. destruct (Rcase_abs (bx - x)), (Rcase_abs (by_ - x)), (Rcase_abs (by_ - y)), (Rcase_abs (bx - y)); lra.
  Qed.

  Lemma small_integers z : (emin <= 0)%Z -> (Z.abs z <= 2 ^ p)%Z -> representable p emin (IZR z).
  Proof. intros He Hz. exists z, 0%Z. split; [exact He|]. split; [exact Hz|]. cbn [powerRZ]. ring. Qed.

  Lemma binary_error x : (emin <= - p)%Z -> Rabs (binary p emin x - x) <= powerRZ 2 (- p) * (1 + Rabs x).
  Proof.
    intros He. pose proof (two_pos (- p)) as P. pose proof (Rabs_pos x) as A.
    destruct (Req_dec x 0) as [->|Hx].
    - rewrite binary_zero, Rminus_0_r, Rabs_R0. nra.
    - rewrite binary_nonzero by exact Hx. rewrite scaled_distance.
      pose proof (half_even_half (x / q x)) as H.
      destruct (magnitude_bounds x Hx) as [B _].
      assert (Q : q x / 2 <= powerRZ 2 (- p) * (1 + Rabs x)).
      { unfold last_digit. destruct (Z.max_spec (magnitude x - p) emin) as [[_ ->]|[_ ->]].
        - pose proof (two_mono _ _ He). pose proof (two_pos emin). nra.
        - replace (magnitude x - p)%Z with (- p + (magnitude x - 1) + 1)%Z by lia.
          rewrite !two_add. change (powerRZ 2 1) with (2 * 1). nra. }
      pose proof (last_digit_pos x). nra.
  Qed.
End Binary.
