(** Reading tables by position. *)
From Coq Require Import Reals Lra Lia ZArith List Bool.
From Verif Require Import Base Num M_Params M_Experience M_Exog S_Exog S_Labels L_Num L_Exog.
Import ListNotations.

(** [n] different numbers in increasing order below [n] are 0, 1, 2, ... *)
Lemma increasing_full (l : list Z) lo :
  (forall i j x y, (i < j)%nat -> nth_error l i = Some x -> nth_error l j = Some y -> (x < y)%Z) ->
  (forall x, In x l -> (lo <= x < lo + Z.of_nat (List.length l))%Z) ->
  forall k x, nth_error l k = Some x -> x = (lo + Z.of_nat k)%Z.
Proof.
  intros Hinc Hb.
  assert (Lo : forall k x, nth_error l k = Some x -> (lo + Z.of_nat k <= x)%Z).
  { induction k as [|k IH]; intros x Hx; [apply nth_error_In in Hx; apply Hb in Hx; lia|].
    destruct (nth_error l k) as [y|] eqn:E.
    - specialize (IH y eq_refl). pose proof (Hinc k (S k) y x ltac:(lia) E Hx). lia.
    - apply nth_error_None in E. assert (nth_error l (S k) <> None) by congruence. apply nth_error_Some in H. lia. }
  assert (Hi : forall d k x, (k + d = List.length l - 1)%nat -> nth_error l k = Some x -> (x <= lo + Z.of_nat k)%Z).
  { induction d as [|d IH]; intros k x Hk Hx.
    - apply nth_error_In in Hx. apply Hb in Hx. lia.
    - destruct (nth_error l (S k)) as [y|] eqn:E.
      + specialize (IH (S k) y ltac:(lia) E). pose proof (Hinc k (S k) x y ltac:(lia) Hx E). lia.
      + apply nth_error_None in E. assert (nth_error l k <> None) by congruence. apply nth_error_Some in H. lia. }
  intros k x Hx. assert (nth_error l k <> None) by congruence. apply nth_error_Some in H.
  pose proof (Lo k x Hx). pose proof (Hi (List.length l - 1 - k)%nat k x ltac:(lia) Hx). lia.
Qed.

(** filtering keeps the order *)
Lemma filter_pairs {A} (P : A -> A -> Prop) (f : A -> bool) (l : list A) :
  (forall i j x y, (i < j)%nat -> nth_error l i = Some x -> nth_error l j = Some y -> P x y) ->
  forall i j x y, (i < j)%nat -> nth_error (filter f l) i = Some x -> nth_error (filter f l) j = Some y -> P x y.
Proof.
  induction l as [|a l IH]; intros H i j x y Hij Hx Hy; [destruct i; discriminate|].
  assert (Ht : forall i j x y, (i < j)%nat -> nth_error l i = Some x -> nth_error l j = Some y -> P x y).
  { intros i' j' x' y' H1 H2 H3. apply (H (S i') (S j')); [lia|exact H2|exact H3]. }
  cbn [filter] in Hx, Hy. destruct (f a); [|eapply IH; eassumption].
  destruct i as [|i], j as [|j]; try lia; cbn [nth_error] in Hx, Hy.
  - injection Hx as <-. apply nth_error_In in Hy. apply filter_In in Hy. destruct Hy as [Hy _]. apply In_nth_error in Hy. destruct Hy as (k & Hk).
    apply (H 0%nat (S k)); [lia|reflexivity|exact Hk].
  - apply (IH Ht i j); [lia|exact Hx|exact Hy].
Qed.

Lemma chunks_entry {A} k n : forall (l : list A) t e row v, nth_error (chunks k n l) t = Some row -> nth_error row e = Some v ->
  nth_error l (t * n + e) = Some v.
Proof.
  induction k as [|k IH]; intros l t e row v Ht He; [destruct t; discriminate|]. cbn [chunks] in Ht. destruct t as [|t]; cbn [nth_error] in Ht.
  - injection Ht as <-. assert (He' := He). assert (e < n)%nat.
    { assert (nth_error (firstn n l) e <> None) by congruence. apply nth_error_Some in H. rewrite firstn_length in H. lia. }
    cbn [Nat.mul Nat.add]. rewrite <- (firstn_skipn n l), nth_error_app1; [exact He|]. apply nth_error_Some. congruence.
  - specialize (IH (skipn n l) t e row v Ht He). rewrite <- (firstn_skipn n l). assert (N : nth_error (skipn n l) (t * n + e) <> None) by congruence.
    apply nth_error_Some in N. rewrite skipn_length in N. rewrite nth_error_app2; rewrite firstn_length; [|nia].
    replace (S t * n + e - Nat.min n (List.length l))%nat with (t * n + e)%nat by nia. exact IH.
Qed.

(** rows in order with labels below (P, L), as many as there are labels: the place of a row is given by its label *)
Lemma place_of_label (f : labelled) P L : (0 <= P)%Z -> (0 <= L)%Z -> in_order f -> (forall p e v, In (p, e, v) f -> (0 <= p < P /\ 0 <= e < L)%Z) ->
  zlen f = (P * L)%Z -> forall k p e v, nth_error f k = Some (p, e, v) -> Z.of_nat k = (p * L + e)%Z.
Proof.
  intros HP HL Ho Hw Hn k p e v Hk.
  set (code := fun r : Z * Z * R => (fst (fst r) * L + snd (fst r))%Z).
  assert (Q : (p * L + e)%Z = (0 + Z.of_nat k)%Z).
  { apply (increasing_full (map code f) 0).
    - intros i j x y Hij Hx Hy. rewrite nth_error_map in Hx, Hy.
      destruct (nth_error f i) as [((p1 & e1) & v1)|] eqn:E1; [|discriminate]. destruct (nth_error f j) as [((p2 & e2) & v2)|] eqn:E2; [|discriminate].
      cbn [option_map] in Hx, Hy. injection Hx as <-. injection Hy as <-. unfold code. cbn [fst snd].
      pose proof (Ho i j p1 e1 v1 p2 e2 v2 Hij E1 E2) as O. pose proof (Hw _ _ _ (nth_error_In _ _ E1)). pose proof (Hw _ _ _ (nth_error_In _ _ E2)). nia.
    - intros x Hx. apply in_map_iff in Hx. destruct Hx as (((p1 & e1) & v1) & <- & Hr). pose proof (Hw _ _ _ Hr). rewrite map_length. unfold zlen in Hn. rewrite Hn.
      unfold code. cbn [fst snd]. nia.
    - rewrite nth_error_map, Hk. reflexivity. }
  lia.
Qed.

(** the rows of given periods, period by period *)
Definition pick (f : labelled) (ts : list Z) : labelled := flat_map (fun t => filter (fun r => fst (fst r) =? t)%Z f) ts.

Lemma pick_In f ts p e v : In (p, e, v) (pick f ts) <-> In p ts /\ In (p, e, v) f.
Proof.
  unfold pick. rewrite in_flat_map. split.
  - intros (t & Ht & Hr). apply filter_In in Hr. destruct Hr as [Hr Q]. cbn [fst] in Q. apply Z.eqb_eq in Q. subst t. split; assumption.
  - intros [Ht Hr]. exists p. split; [exact Ht|]. apply filter_In. split; [exact Hr|]. cbn [fst]. apply Z.eqb_refl.
Qed.
Lemma pick_order f : in_order_within f -> forall ts, (forall i j x y, (i < j)%nat -> nth_error ts i = Some x -> nth_error ts j = Some y -> (x < y)%Z) ->
  in_order (pick f ts).
Proof.
  intros Hf. induction ts as [|t ts IH]; intros Hts; [intros i j p e v p' e' v' _ H; destruct i; discriminate|].
  assert (Ht : forall i j x y, (i < j)%nat -> nth_error ts i = Some x -> nth_error ts j = Some y -> (x < y)%Z).
  { intros i' j' x' y' H1 H2 H3. apply (Hts (S i') (S j')); [lia|exact H2|exact H3]. }
  specialize (IH Ht). intros i j p e v p' e' v' Hij Hx Hy. unfold pick in Hx, Hy. cbn [flat_map] in Hx, Hy.
  set (b := filter (fun r => fst (fst r) =? t)%Z f) in *. fold (pick f ts) in Hx, Hy.
  assert (Hb : forall r, In r b -> fst (fst r) = t) by (intros r Hr; apply filter_In in Hr; apply Z.eqb_eq; tauto).
  destruct (Nat.lt_ge_cases i (List.length b)) as [Li|Li].
  - rewrite nth_error_app1 in Hx by exact Li. pose proof (Hb _ (nth_error_In _ _ Hx)) as Ep. cbn [fst] in Ep. subst p.
    destruct (Nat.lt_ge_cases j (List.length b)) as [Lj|Lj].
    + rewrite nth_error_app1 in Hy by exact Lj. pose proof (Hb _ (nth_error_In _ _ Hy)) as Ep. cbn [fst] in Ep. subst p'. right. split; [reflexivity|].
      apply (filter_pairs (fun r r' => fst (fst r) = t -> fst (fst r') = t -> (snd (fst r) < snd (fst r'))%Z) (fun r => fst (fst r) =? t)%Z f) with (i := i) (j := j) (x := (t, e, v)) (y := (t, e', v'));
        [|exact Hij|exact Hx|exact Hy|reflexivity|reflexivity].
      intros i1 j1 ((p1 & e1) & v1) ((p2 & e2) & v2) H1 H2 H3 Q1 Q2. cbn [fst snd] in *. subst p1 p2. exact (Hf i1 j1 t e1 v1 e2 v2 H1 H2 H3).
    + rewrite nth_error_app2 in Hy by exact Lj. apply nth_error_In, pick_In in Hy. destruct Hy as [Hy _]. apply In_nth_error in Hy. destruct Hy as (k & Hk).
      left. apply (Hts 0%nat (S k)); [lia|reflexivity|exact Hk].
  - rewrite nth_error_app2 in Hx by exact Li. rewrite nth_error_app2 in Hy by lia. apply (IH (i - List.length b)%nat (j - List.length b)%nat p e v p' e' v'); [lia|exact Hx|exact Hy].
Qed.
Lemma range_increasing n i j x y : (i < j)%nat -> nth_error (range n) i = Some x -> nth_error (range n) j = Some y -> (x < y)%Z.
Proof.
  intros Hij Hx Hy. rewrite range_nth in Hx, Hy. destruct (Z.of_nat i <? n)%Z; [|discriminate]. destruct (Z.of_nat j <? n)%Z; [|discriminate].
  injection Hx as <-. injection Hy as <-. lia.
Qed.
Lemma in_range t n : In t (range n) -> (0 <= t < n)%Z.
Proof. unfold range, range2. intros H. apply in_map_iff in H. destruct H as (k & <- & Hk). apply in_seq in Hk. lia. Qed.

(** entries of a reshaped table *)
Lemma table_entry (f : labelled) P L tab : (0 <= P)%Z -> (0 <= L)%Z -> in_order f -> (forall p e v, In (p, e, v) f -> (0 <= p < P /\ 0 <= e < L)%Z) ->
  reshape2 P L (map snd f) = Ok tab -> zlen tab = P /\
  forall t, (0 <= t < P)%Z -> exists row, nth_error tab (Z.to_nat t) = Some row /\ zlen row = L /\
    forall e, (0 <= e < L)%Z -> exists v, nth_error row (Z.to_nat e) = Some v /\ In (t, e, v) f.
Proof.
  intros HP HL Ho Hw H. assert (Sh := reshape2_shape P L (map snd f) tab HP HL H). destruct Sh as [S1 S2]. unfold reshape2 in H.
  destruct (zlen (map snd f) =? P * L)%Z eqn:E; [|discriminate]. apply Z.eqb_eq in E. unfold zlen in E. rewrite map_length in E. fold (zlen f) in E. injection H as H.
  split; [exact S1|]. intros t Ht. destruct (nth_error tab (Z.to_nat t)) as [row|] eqn:Er.
  2:{ apply nth_error_None in Er. unfold zlen in S1. lia. }
  exists row. assert (Lr := S2 row (nth_error_In _ _ Er)). split; [reflexivity|]. split; [exact Lr|]. intros e He.
  destruct (nth_error row (Z.to_nat e)) as [v|] eqn:Ev.
  2:{ apply nth_error_None in Ev. unfold zlen in Lr. lia. }
  exists v. split; [reflexivity|]. rewrite <- H in Er. pose proof (chunks_entry _ _ _ _ _ _ _ Er Ev) as Q. rewrite nth_error_map in Q.
  destruct (nth_error f _) as [((p1 & e1) & v1)|] eqn:Ef; [|discriminate]. cbn [option_map snd] in Q. injection Q as ->.
  pose proof (place_of_label f P L HP HL Ho Hw E _ _ _ _ Ef) as Pl. pose proof (Hw _ _ _ (nth_error_In _ _ Ef)) as W.
  assert (Pl' : (t * L + e = p1 * L + e1)%Z) by nia. assert (p1 = t) by nia. subst p1. assert (e1 = e) by lia. subst e1. exact (nth_error_In _ _ Ef).
Qed.
