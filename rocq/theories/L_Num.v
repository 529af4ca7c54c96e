(** Lemmas and tactics that turn statements about the real instance [RNum] into
    plain statements about R. *)
From Verif Require Import Base Num M_Params M_Experience.
From Coq Require Export Reals Lra Psatz FinFun.
Open Scope R_scope.

Lemma Rleb_true x y : Rleb x y = true <-> x <= y.
Proof. unfold Rleb; destruct (Rle_dec x y); split; intros; auto; discriminate. Qed.
Lemma Rleb_false x y : Rleb x y = false <-> y < x.
Proof. unfold Rleb; destruct (Rle_dec x y); split; intros; auto; try discriminate; lra. Qed.
Lemma Rltb_true x y : Rltb x y = true <-> x < y.
Proof. unfold Rltb; destruct (Rlt_dec x y); split; intros; auto; discriminate. Qed.
Lemma Rltb_false x y : Rltb x y = false <-> y <= x.
Proof. unfold Rltb; destruct (Rlt_dec x y); split; intros; auto; try discriminate; lra. Qed.

Lemma Rleb_spec x y : BoolSpec (x <= y) (y < x) (Rleb x y).
Proof. destruct (Rleb x y) eqn:E; constructor; [apply Rleb_true | apply Rleb_false]; auto. Qed.
Lemma Rltb_spec x y : BoolSpec (x < y) (y <= x) (Rltb x y).
Proof. destruct (Rltb x y) eqn:E; constructor; [apply Rltb_true | apply Rltb_false]; auto. Qed.

(** expose the operations of R *)
Ltac rn := cbn [nofZ nadd nsub nmul ndiv nleb nltb nexp nln npow nfloor RNum] in *.
Ltac rnu := unfold nlit, nclip, nmax, nmin, nsq, nneg, nabs, b2n in *; rn.

Lemma nmax_R (x y : R) : nmax x y = Rmax x y.
Proof.
  unfold nmax; rn. destruct (Rleb_spec x y); unfold Rmax; destruct (Rle_dec x y); auto; lra.
Qed.
Lemma nmin_R (x y : R) : nmin x y = Rmin x y.
Proof.
  unfold nmin; rn. destruct (Rleb_spec x y); unfold Rmin; destruct (Rle_dec x y); auto; lra.
Qed.
Lemma nclip_R (x lo hi : R) : nclip x lo hi = Rmin (Rmax x lo) hi.
Proof. unfold nclip. rewrite nmin_R, nmax_R. reflexivity. Qed.
Lemma nlit_R a b : nlit a b = IZR a / IZR b.
Proof. reflexivity. Qed.
Lemma nsq_R (x : R) : nsq x = x * x.
Proof. reflexivity. Qed.
Lemma b2n_R (b : bool) : b2n b = if b then 1 else 0.
Proof. destruct b; reflexivity. Qed.

Ltac rmm :=
  unfold Rmax, Rmin in *;
  repeat match goal with
  | |- context [Rle_dec ?a ?b] => destruct (Rle_dec a b)
  | H : context [Rle_dec ?a ?b] |- _ => destruct (Rle_dec a b)
  end.

(** sums *)
Fixpoint Rsum (l : list R) : R := match l with [] => 0 | x :: xs => x + Rsum xs end.

Lemma fold_left_Rplus l a : fold_left Rplus l a = a + Rsum l.
Proof.
  revert a; induction l as [|x l IH]; intros a; simpl; [lra|]. rewrite IH. lra.
Qed.
Lemma nsum_R (l : list R) : nsum l = Rsum l.
Proof. unfold nsum; rn. change (fold_left Rplus l 0 = Rsum l). rewrite fold_left_Rplus. lra. Qed.

Lemma Rsum_app l m : Rsum (l ++ m) = Rsum l + Rsum m.
Proof. induction l as [|x l IH]; simpl; [lra|]. rewrite IH. lra. Qed.
Lemma Rsum_repeat c n : Rsum (repeat c n) = INR n * c.
Proof. induction n as [|n IH]; [simpl; lra|]. cbn [repeat Rsum]. rewrite IH, S_INR. lra. Qed.
Lemma Rsum_map_mult {A} (f : A -> R) c l : Rsum (map (fun x => f x * c) l) = Rsum (map f l) * c.
Proof. induction l as [|x l IH]; simpl; [lra|]. rewrite IH. lra. Qed.
Lemma Rsum_map_plus {A} (f g : A -> R) l :
  Rsum (map (fun x => f x + g x) l) = Rsum (map f l) + Rsum (map g l).
Proof. induction l as [|x l IH]; simpl; [lra|]. rewrite IH. lra. Qed.
Lemma Rsum_map_le {A} (f g : A -> R) l :
  (forall x, In x l -> f x <= g x) -> Rsum (map f l) <= Rsum (map g l).
Proof.
  induction l as [|x l IH]; intros H; simpl; [lra|].
  assert (f x <= g x) by (apply H; left; reflexivity).
  assert (Rsum (map f l) <= Rsum (map g l)) by (apply IH; intros; apply H; right; auto). lra.
Qed.
Lemma Rsum_nonneg l : (forall x, In x l -> 0 <= x) -> 0 <= Rsum l.
Proof.
  induction l as [|x l IH]; intros H; simpl; [lra|].
  assert (0 <= x) by (apply H; left; reflexivity).
  assert (0 <= Rsum l) by (apply IH; intros; apply H; right; auto). lra.
Qed.

(** numpy / jax indexing in range *)
Open Scope Z_scope.
Lemma jget_nth {A} (d : A) (l : list A) (i : Z) :
  0 <= i < zlen l -> jget d l i = nth (Z.to_nat i) l d.
Proof.
  intros H. unfold jget. destruct (i <? 0) eqn:E; [lia|].
  f_equal. f_equal. lia.
Qed.

Lemma np_get_nth {A} (d : A) (l : list A) (i : Z) :
  0 <= i < zlen l -> np_get l i = Ok (nth (Z.to_nat i) l d).
Proof.
  intros H. unfold np_get, np_norm.
  replace ((0 <=? i) && (i <? zlen l)) with true
    by (symmetry; apply andb_true_intro; split; [apply Z.leb_le | apply Z.ltb_lt]; lia).
  rewrite (nth_error_nth' l d) by (unfold zlen in H; lia). reflexivity.
Qed.

Lemma np_get_Ok_in {A} (l : list A) (i : Z) a : np_get l i = Ok a -> In a l.
Proof.
  unfold np_get. destruct (np_norm (zlen l) i) as [j|]; [|discriminate].
  destruct (nth_error l (Z.to_nat j)) eqn:E; [|discriminate].
  intros H; injection H as <-. eapply nth_error_In; eauto.
Qed.

Lemma zlen_nonneg {A} (l : list A) : 0 <= zlen l.
Proof. unfold zlen; lia. Qed.
Lemma zlen_map {A B} (f : A -> B) l : zlen (map f l) = zlen l.
Proof. unfold zlen; rewrite map_length; reflexivity. Qed.
Lemma zlen_app {A} (l m : list A) : zlen (l ++ m) = zlen l + zlen m.
Proof. unfold zlen; rewrite app_length; lia. Qed.
Lemma zlen_cons {A} (x : A) l : zlen (x :: l) = zlen l + 1.
Proof. unfold zlen; simpl; lia. Qed.

(** range *)
Lemma range2_length lo hi : List.length (range2 lo hi) = Z.to_nat (hi - lo).
Proof. unfold range2; rewrite map_length, seq_length; reflexivity. Qed.
Lemma range_length n : List.length (range n) = Z.to_nat n.
Proof. unfold range; rewrite range2_length; f_equal; lia. Qed.
Lemma zlen_range n : 0 <= n -> zlen (range n) = n.
Proof. intros; unfold zlen; rewrite range_length; lia. Qed.
Lemma zlen_range2 lo hi : lo <= hi -> zlen (range2 lo hi) = hi - lo.
Proof. intros; unfold zlen; rewrite range2_length; lia. Qed.
Lemma in_range2 lo hi x : In x (range2 lo hi) <-> lo <= x < hi.
Proof.
  unfold range2. rewrite in_map_iff. split.
  - intros (k & <- & Hk). apply in_seq in Hk. lia.
  - intros H. exists (Z.to_nat (x - lo)). split; [lia|]. apply in_seq. lia.
Qed.
Lemma in_range n x : In x (range n) <-> 0 <= x < n.
Proof. unfold range. apply in_range2. Qed.
Lemma nth_range2 lo hi k d : (k < Z.to_nat (hi - lo))%nat -> nth k (range2 lo hi) d = lo + Z.of_nat k.
Proof.
  intros H. unfold range2.
  rewrite nth_indep with (d' := lo + Z.of_nat 0) by (rewrite map_length, seq_length; exact H).
  rewrite map_nth with (f := fun k => lo + Z.of_nat k), seq_nth by exact H. lia.
Qed.
Lemma nth_range n k d : (k < Z.to_nat n)%nat -> nth k (range n) d = Z.of_nat k.
Proof. intros H. unfold range. rewrite nth_range2 by (rewrite Z.sub_0_r; exact H). lia. Qed.
Lemma range2_split lo mid hi : lo <= mid <= hi -> range2 lo hi = range2 lo mid ++ range2 mid hi.
Proof.
  intros H. unfold range2.
  replace (Z.to_nat (hi - lo)) with (Z.to_nat (mid - lo) + Z.to_nat (hi - mid))%nat by lia.
  rewrite seq_app, map_app. f_equal.
  rewrite Nat.add_0_l.
  transitivity (map (fun k => lo + Z.of_nat k)
                    (map (fun k => (Z.to_nat (mid - lo) + k)%nat) (seq 0 (Z.to_nat (hi - mid))))).
  - f_equal. clear. generalize (Z.to_nat (hi - mid)) as n. generalize (Z.to_nat (mid - lo)) as a.
    intros a n. rewrite <- (Nat.add_0_r a) at 1. generalize 0%nat as s. revert a.
    induction n as [|n IH]; intros a s; simpl; [reflexivity|]. f_equal.
    rewrite <- IH. f_equal. lia.
  - rewrite map_map. apply map_ext_in. intros k Hk. lia.
Qed.
Lemma range2_cons lo hi : lo < hi -> range2 lo hi = lo :: range2 (lo + 1) hi.
Proof.
  intros H. rewrite (range2_split lo (lo + 1) hi) by lia.
  unfold range2 at 1. replace (Z.to_nat (lo + 1 - lo)) with 1%nat by lia. simpl.
  f_equal. lia.
Qed.
Lemma range2_nil lo hi : hi <= lo -> range2 lo hi = [].
Proof. intros H. unfold range2. replace (Z.to_nat (hi - lo)) with 0%nat by lia. reflexivity. Qed.
Lemma range_snoc n : 0 <= n -> range (n + 1) = range n ++ [n].
Proof.
  intros H. unfold range. rewrite (range2_split 0 n (n + 1)) by lia. f_equal.
  rewrite range2_cons by lia. rewrite range2_nil by lia. reflexivity.
Qed.
Lemma NoDup_range2 lo hi : NoDup (range2 lo hi).
Proof.
  unfold range2. apply FinFun.Injective_map_NoDup; [|apply seq_NoDup].
  intros a b Hab. lia.
Qed.

(** mapM *)
Lemma mapM_Ok {A B} (f : A -> result B) (g : A -> B) l :
  (forall x, In x l -> f x = Ok (g x)) -> mapM f l = Ok (map g l).
Proof.
  induction l as [|x l IH]; intros H; simpl; [reflexivity|].
  rewrite H by (left; reflexivity). simpl. rewrite IH by (intros; apply H; right; auto). reflexivity.
Qed.
Lemma mapM_inv {A B} (f : A -> result B) l ys :
  mapM f l = Ok ys -> Forall2 (fun x y => f x = Ok y) l ys.
Proof.
  revert ys; induction l as [|x l IH]; intros ys H; simpl in H.
  - injection H as <-. constructor.
  - destruct (f x) eqn:E; simpl in H; [|discriminate].
    destruct (mapM f l) eqn:E2; simpl in H; [|discriminate].
    injection H as <-. constructor; auto.
Qed.
Lemma Forall2_mapM {A B} (f : A -> result B) l ys :
  Forall2 (fun x y => f x = Ok y) l ys -> mapM f l = Ok ys.
Proof. induction 1 as [|x y l ys H _ IH]; simpl; [reflexivity|]. rewrite H. simpl. rewrite IH. reflexivity. Qed.
Lemma mapM_length {A B} (f : A -> result B) l ys : mapM f l = Ok ys -> List.length ys = List.length l.
Proof. intros H. apply mapM_inv in H. symmetry. induction H; simpl; auto. Qed.
Lemma mapM_nth {A B} (f : A -> result B) l ys da db k :
  mapM f l = Ok ys -> (k < List.length l)%nat -> f (nth k l da) = Ok (nth k ys db).
Proof.
  intros H. apply mapM_inv in H. revert k. induction H as [|x y l ys H _ IH]; intros k Hk; simpl in Hk; [lia|].
  destruct k as [|k]; simpl; auto. apply IH; lia.
Qed.
Lemma mapM_ext {A B} (f g : A -> result B) l :
  (forall x, In x l -> f x = g x) -> mapM f l = mapM g l.
Proof.
  induction l as [|x l IH]; intros H; simpl; [reflexivity|].
  rewrite H by (left; reflexivity). destruct (g x); simpl; [|reflexivity].
  rewrite IH by (intros; apply H; right; auto). reflexivity.
Qed.
Lemma mapM_total {A B} (f : A -> result B) l :
  (forall x, In x l -> exists y, f x = Ok y) -> exists ys, mapM f l = Ok ys.
Proof.
  induction l as [|x l IH]; intros H; simpl; [eexists; reflexivity|].
  destruct (H x) as [y Hy]; [left; reflexivity|]. rewrite Hy. simpl.
  destruct IH as [ys Hys]; [intros; apply H; right; auto|]. rewrite Hys. simpl. eexists; reflexivity.
Qed.

(** map2 *)
Lemma map2_length {A B C} (f : A -> B -> C) l m :
  List.length (map2 f l m) = Nat.min (List.length l) (List.length m).
Proof. revert m; induction l as [|a l IH]; destruct m; simpl; auto. Qed.
Lemma map2_nth {A B C} (f : A -> B -> C) l m k da db dc :
  (k < List.length l)%nat -> (k < List.length m)%nat ->
  nth k (map2 f l m) dc = f (nth k l da) (nth k m db).
Proof.
  revert m k; induction l as [|a l IH]; destruct m as [|b m]; intros k; simpl; try lia.
  destruct k; intros; auto. apply IH; lia.
Qed.
Lemma map2_combine {A B C} (f : A -> B -> C) l m :
  map2 f l m = map (fun p => f (fst p) (snd p)) (combine l m).
Proof. revert m; induction l as [|a l IH]; destruct m as [|b m]; simpl; auto. f_equal. apply IH. Qed.
