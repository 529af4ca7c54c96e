(** Generic lemmas for the simulation loop: loop traces, boolean masks. *)
From Coq Require Import ZArith List Lia Arith.
From Verif Require Import Base Num M_StateSpace M_Sim L_Num L_StateSpace.
Import ListNotations.

Lemma for_each_trace {S} (body : Z -> S -> result S) (n : nat) s0 sn :
  for_each (range (Z.of_nat n)) body (Ok s0) = Ok sn ->
  exists s : nat -> S, s 0%nat = s0 /\ s n = sn /\
    forall t, (t < n)%nat -> body (Z.of_nat t) (s t) = Ok (s (Datatypes.S t)).
Proof.
  revert sn. induction n as [|n IH]; intros sn H.
  - cbn in H. injection H as <-. exists (fun _ => s0). repeat split. intros; lia.
  - replace (Z.of_nat (Datatypes.S n)) with (Z.of_nat n + 1)%Z in H by lia.
    rewrite range_snoc in H by lia. rewrite for_each_app in H.
    destruct (for_each (range (Z.of_nat n)) body (Ok s0)) as [s|e] eqn:E.
    2:{ rewrite for_each_err in H. discriminate. }
    cbn [for_each fold_left bind] in H.
    destruct (IH s eq_refl) as (f & H0 & Hn & Hs).
    exists (fun t => if Nat.leb t n then f t else sn).
    repeat split.
    + exact H0.
    + replace (Nat.leb (Datatypes.S n) n) with false; [reflexivity|].
      symmetry. apply Nat.leb_gt. lia.
    + intros t Ht. destruct (Nat.eq_dec t n) as [->|Hne].
      * rewrite Nat.leb_refl. replace (Nat.leb (Datatypes.S n) n) with false
          by (symmetry; apply Nat.leb_gt; lia). rewrite Hn. exact H.
      * replace (Nat.leb t n) with true by (symmetry; apply Nat.leb_le; lia).
        replace (Nat.leb (Datatypes.S t) n) with true by (symmetry; apply Nat.leb_le; lia).
        apply Hs. lia.
Qed.

(** ** masks *)
Fixpoint rank (mask : list bool) (k : nat) : nat :=
  match mask, k with
  | b :: mask', Datatypes.S k' => ((if b then 1 else 0) + rank mask' k')%nat
  | _, _ => 0%nat
  end.

Lemma mask_sum_cons b mask : mask_sum (b :: mask) = ((if b then 1 else 0) + mask_sum mask)%nat.
Proof. unfold mask_sum. cbn [filter]. destruct b; reflexivity. Qed.

Lemma mask_select_cons {A} b mask (a : A) arr :
  mask_select (b :: mask) (a :: arr) = if b then a :: mask_select mask arr else mask_select mask arr.
Proof. unfold mask_select. cbn [combine filter fst]. destruct b; reflexivity. Qed.

Lemma mask_select_length {A} mask (arr : list A) : List.length mask = List.length arr ->
  List.length (mask_select mask arr) = mask_sum mask.
Proof.
  revert arr. induction mask as [|b mask IH]; intros [|a arr] H; try discriminate H; [reflexivity|].
  rewrite mask_select_cons, mask_sum_cons. injection H as H. specialize (IH arr H).
  destruct b; cbn [List.length]; lia.
Qed.

Lemma mask_select_nth {A} mask (arr : list A) k a :
  nth_error mask k = Some true -> nth_error arr k = Some a ->
  nth_error (mask_select mask arr) (rank mask k) = Some a.
Proof.
  revert arr k. induction mask as [|b mask IH]; intros [|x arr] [|k] Hm Ha; try discriminate Hm; try discriminate Ha.
  - cbn in Hm, Ha. injection Hm as ->. injection Ha as ->. rewrite mask_select_cons. reflexivity.
  - cbn [nth_error] in Hm, Ha. rewrite mask_select_cons. cbn [rank]. destruct b.
    + cbn [Nat.add nth_error]. apply IH; assumption.
    + cbn [Nat.add]. apply IH; assumption.
Qed.

Lemma mask_assign_length {A} mask (arr vals : list A) : List.length mask = List.length arr ->
  List.length (mask_assign mask arr vals) = List.length arr.
Proof.
  revert arr vals. induction mask as [|b mask IH]; intros [|a arr] vals H; try discriminate H; [reflexivity|].
  injection H as H. cbn [mask_assign]. destruct b; [destruct vals|]; cbn [List.length]; rewrite IH by assumption; reflexivity.
Qed.

Lemma mask_assign_false {A} mask (arr vals : list A) k : List.length mask = List.length arr ->
  nth_error mask k = Some false -> nth_error (mask_assign mask arr vals) k = nth_error arr k.
Proof.
  revert arr vals k. induction mask as [|b mask IH]; intros [|a arr] vals [|k] H Hm; try discriminate H; try discriminate Hm.
  - cbn in Hm. injection Hm as ->. reflexivity.
  - injection H as H. cbn [nth_error] in Hm. cbn [mask_assign].
    destruct b; [destruct vals|]; cbn [nth_error]; apply IH; assumption.
Qed.

Lemma mask_assign_true {A} mask (arr vals : list A) k v : List.length mask = List.length arr ->
  nth_error mask k = Some true -> nth_error vals (rank mask k) = Some v ->
  nth_error (mask_assign mask arr vals) k = Some v.
Proof.
  revert arr vals k. induction mask as [|b mask IH]; intros [|a arr] vals [|k] H Hm Hv; try discriminate H; try discriminate Hm.
  - cbn in Hm. injection Hm as ->. cbn [rank] in Hv. destruct vals; [discriminate|].
    cbn in Hv. injection Hv as ->. reflexivity.
  - injection H as H. cbn [nth_error] in Hm. cbn [rank] in Hv. cbn [mask_assign].
    destruct b.
    + destruct vals as [|v0 vals]; [destruct (rank mask k); discriminate|]. cbn [nth_error].
      cbn [Nat.add nth_error] in Hv. apply IH; assumption.
    + cbn [Nat.add] in Hv. cbn [nth_error]. apply IH; assumption.
Qed.

Lemma rank_lt mask k : nth_error mask k = Some true -> (rank mask k < mask_sum mask)%nat.
Proof.
  revert k. induction mask as [|b mask IH]; intros [|k] H; try discriminate H.
  - cbn in H. injection H as ->. rewrite mask_sum_cons. cbn [rank]. lia.
  - cbn [nth_error] in H. rewrite mask_sum_cons. cbn [rank]. specialize (IH k H). destruct b; lia.
Qed.

Lemma no_true_mask mask k : existsb (fun b => b) mask = false -> nth_error mask k <> Some true.
Proof.
  intros H E. apply nth_error_In in E.
  assert (existsb (fun b => b) mask = true) by (apply existsb_exists; exists true; split; [assumption|reflexivity]).
  congruence.
Qed.

Lemma mapM_nth_error {A B} (f : A -> result B) l ys k a :
  mapM f l = Ok ys -> nth_error l k = Some a -> exists b, nth_error ys k = Some b /\ f a = Ok b.
Proof.
  revert ys k. induction l as [|x l IH]; intros ys [|k] H Ha; try discriminate Ha; cbn [mapM] in H.
  - cbn in Ha. injection Ha as ->. destruct (f a) as [b|] eqn:E; [|discriminate]. cbn [bind] in H.
    destruct (mapM f l); [|discriminate]. cbn [bind] in H. injection H as <-. exists b. split; reflexivity.
  - cbn [nth_error] in Ha. destruct (f x) as [b|] eqn:E; [|discriminate]. cbn [bind] in H.
    destruct (mapM f l) as [l'|] eqn:E'; [|discriminate]. cbn [bind] in H. injection H as <-.
    destruct (IH l' k eq_refl Ha) as (b' & Hb & Hf). exists b'. split; assumption.
Qed.

Lemma nth_error_some {A} (l : list A) k : (k < List.length l)%nat -> exists x, nth_error l k = Some x.
Proof. intros H. destruct (nth_error l k) eqn:E; [eauto|]. apply nth_error_None in E. lia. Qed.
Lemma nth_error_lt {A} (l : list A) k x : nth_error l k = Some x -> (k < List.length l)%nat.
Proof. intros H. apply nth_error_Some. congruence. Qed.

Lemma map2_nth_error {A B C} (f : A -> B -> C) l m k a b :
  nth_error l k = Some a -> nth_error m k = Some b -> nth_error (map2 f l m) k = Some (f a b).
Proof.
  revert m k. induction l as [|x l IH]; intros [|y m] [|k] Ha Hb; try discriminate; cbn in *.
  - injection Ha as ->. injection Hb as ->. reflexivity.
  - apply IH; assumption.
Qed.

Lemma combine_nth_error {A B} (l : list A) (m : list B) k a b :
  nth_error l k = Some a -> nth_error m k = Some b -> nth_error (combine l m) k = Some (a, b).
Proof.
  revert m k. induction l as [|x l IH]; intros [|y m] [|k] Ha Hb; try discriminate; cbn in *.
  - injection Ha as ->. injection Hb as ->. reflexivity.
  - apply IH; assumption.
Qed.
Lemma combine_nth_error_inv {A B} (l : list A) (m : list B) k a b :
  nth_error (combine l m) k = Some (a, b) -> nth_error l k = Some a /\ nth_error m k = Some b.
Proof.
  revert m k. induction l as [|x l IH]; intros [|y m] [|k] H; try discriminate; cbn in *.
  - injection H as -> ->. split; reflexivity.
  - apply IH; assumption.
Qed.

Lemma nth_error_map' {A B} (f : A -> B) l k : nth_error (map f l) k = option_map f (nth_error l k).
Proof. revert k. induction l; destruct k; cbn; auto. Qed.
Lemma nth_error_firstn {A} (l : list A) n k : (k < n)%nat -> nth_error (firstn n l) k = nth_error l k.
Proof. revert n k. induction l; destruct n, k; cbn; intros; try lia; auto. apply IHl. lia. Qed.
