(** Binary searches find the place of a number in a sorted list. *)
From Coq Require Import Reals Lra Lia ZArith List Bool.
From Verif Require Import Base Num M_Experience M_Numpy M_Search S_Interp S_Search L_Num.
Import ListNotations.

Section Search.
  Context {T : Type} {NT : Num T}.
  Local Open Scope num_scope.

  (** the entries up to [q] come first *)
  Variable arr : list T.
  Variable q : T.
  Variable c : Z.
  Hypothesis Hc : (0 <= c <= zlen arr)%Z.
  Hypothesis Hle : forall i, (0 <= i < c)%Z -> (q <? aget arr i) = false.
  Hypothesis Hgt : forall i, (c <= i < zlen arr)%Z -> (q <? aget arr i) = true.

  Definition reached (j : nat) (s : Z * Z) : Prop :=
    (0 <= fst s /\ fst s <= snd s <= zlen arr /\ c <= snd s)%Z /\
    ((fst s < c /\ snd s - fst s <= 2 ^ Z.of_nat j)%Z \/ (c = 0 /\ fst s = 0 /\ snd s < 2 ^ Z.of_nat j)%Z).

  Lemma search_step_reached j s : (0 < zlen arr)%Z -> reached (S j) s -> reached j (search_step arr q s).
  Proof.
    destruct s as [l h]. unfold reached. cbn [fst snd search_step]. intros Hn ((H1 & H2 & H3) & H4).
    rewrite Nat2Z.inj_succ, Z.pow_succ_r in H4 by lia. set (P := (2 ^ Z.of_nat j)%Z) in *.
    assert (HP : (0 < P)%Z) by (apply Z.pow_pos_nonneg; lia).
    pose proof (Z.div_mod (l + h) 2 ltac:(lia)) as Hd. pose proof (Z.mod_pos_bound (l + h) 2 ltac:(lia)) as Hm.
    set (mid := ((l + h) / 2)%Z) in *. clearbody mid.
    destruct (Z_lt_le_dec mid c) as [Hlt|Hge].
    - rewrite Hle by lia. split; [lia|]. left. destruct H4 as [(A & B)|(A & B & C)]; lia.
    - assert (Hb : (mid < zlen arr)%Z) by (destruct H4 as [(A & B)|(A & B & C)]; lia).
      rewrite Hgt by lia. split; [lia|]. destruct H4 as [(A & B)|(A & B & C)]; [left; lia|right; lia].
  Qed.
  Lemma iter_reached k : forall j s, (0 < zlen arr)%Z -> reached (k + j) s -> reached j (Nat.iter k (search_step arr q) s).
  Proof.
    induction k as [|k IH]; intros j s Hn H; [exact H|]. cbn [Nat.iter nat_rect]. apply search_step_reached; [exact Hn|]. apply IH; [exact Hn|].
    replace (k + S j)%nat with (S k + j)%nat by lia. exact H.
  Qed.

  Lemma search_found : jnp_searchsorted_right arr q = c.
  Proof.
    unfold jnp_searchsorted_right. destruct (Z.eq_dec (zlen arr) 0) as [E|E]; [rewrite E; cbn; lia|].
    assert (Hn : (0 < zlen arr)%Z) by lia.
    set (k := Z.to_nat (Z.log2_up (zlen arr + 1))).
    assert (Hk : (zlen arr + 1 <= 2 ^ Z.of_nat k)%Z).
    { unfold k. rewrite Z2Nat.id by apply Z.log2_up_nonneg. apply Z.log2_log2_up_spec. lia. }
    assert (H0 : reached (k + 0) (0%Z, zlen arr)).
    { rewrite Nat.add_0_r. unfold reached. cbn [fst snd]. split; [lia|]. destruct (Z.eq_dec c 0); [right; lia|left; lia]. }
    apply iter_reached in H0; [|exact Hn]. destruct H0 as ((H1 & H2 & H3) & H4). change (2 ^ Z.of_nat 0)%Z with 1%Z in H4.
    destruct H4 as [(A & B)|(A & B & C)]; lia.
  Qed.

  (** numpy's loop *)
  Hypothesis Hle' : forall i, (0 <= i < c)%Z -> (aget arr i <=? q) = true.
  Hypothesis Hgt' : forall i, (c <= i < zlen arr)%Z -> (aget arr i <=? q) = false.
  Lemma loop_found fuel : forall lo hi, (0 <= lo <= c)%Z -> (c <= hi <= zlen arr)%Z -> (hi - lo <= Z.of_nat fuel)%Z ->
    binsearch_loop fuel arr q lo hi = (c, c).
  Proof.
    induction fuel as [|fuel IH]; intros lo hi H1 H2 H3; cbn [binsearch_loop]; [f_equal; lia|].
    destruct (Z.ltb_spec lo hi) as [Hl|Hl]; [|f_equal; lia].
    rewrite Z.shiftr_div_pow2 by lia. change (2 ^ 1)%Z with 2%Z.
    pose proof (Z.div_mod (hi - lo) 2 ltac:(lia)) as Hd. pose proof (Z.mod_pos_bound (hi - lo) 2 ltac:(lia)) as Hm.
    set (m := ((hi - lo) / 2)%Z) in *. clearbody m.
    destruct (Z_lt_le_dec (lo + m) c) as [A|A].
    - rewrite Hle' by lia. apply IH; lia.
    - rewrite Hgt' by lia. apply IH; lia.
  Qed.
End Search.

Open Scope R_scope.

(** the number of entries up to [x] *)
Definition upto (g : list R) (x : R) : Z := zlen (filter (fun y => Rleb y x) g).

Lemma upto_bound g x : (0 <= upto g x <= zlen g)%Z.
Proof. unfold upto, zlen. induction g as [|y g IH]; cbn; [lia|]. destruct (Rleb y x); cbn [List.length]; lia. Qed.

Lemma split_count (g : list R) x : nondecreasing g ->
  forall i, (i < List.length g)%nat -> (nth i g 0 <= x <-> (Z.of_nat i < upto g x)%Z).
Proof.
  unfold upto, zlen. induction g as [|y g IH]; intros H i Hi; [cbn in Hi; lia|].
  assert (Ht : nondecreasing g).
  { intros a b Hab. apply (H (S a) (S b)). cbn [List.length]. lia. }
  cbn [filter]. destruct (Rleb_spec y x) as [Hy|Hy].
  - cbn [List.length]. destruct i as [|i]; [cbn [nth]; split; [lia|intros _; exact Hy]|]. cbn [nth]. cbn [List.length] in Hi. rewrite (IH Ht i ltac:(lia)). lia.
  - assert (Hall : forall k, (k < List.length g)%nat -> x < nth k g 0).
    { intros k Hk. pose proof (H 0%nat (S k)) as Q. cbn [nth List.length] in Q. specialize (Q ltac:(lia)). lra. }
    assert (E : filter (fun y => Rleb y x) g = []).
    { clear -Hall. induction g as [|z g IH]; [reflexivity|]. cbn [filter]. pose proof (Hall 0%nat ltac:(cbn; lia)) as Q. cbn [nth] in Q.
      destruct (Rleb_spec z x); [lra|]. apply IH. intros k Hk. apply (Hall (S k)). cbn. lia. }
    rewrite E. cbn [List.length]. split; [|lia]. intros Hle. destruct i as [|i]; cbn [nth] in Hle; [lra|]. cbn [List.length] in Hi. specialize (Hall i ltac:(lia)). lra.
Qed.

Lemma belongs_upto g x : nondecreasing g -> belongs g x (upto g x).
Proof.
  intros H. split; [apply upto_bound|]. intros i Hi. pose proof (split_count g x H i Hi) as Q.
  destruct (Z.ltb_spec (Z.of_nat i) (upto g x)) as [A|A]; [tauto|]. apply Rnot_le_lt. intros B. apply Q in B. lia.
Qed.
Lemma belongs_unique g x r s : belongs g x r -> belongs g x s -> r = s.
Proof.
  intros (B1 & H1) (B2 & H2). destruct (Z.lt_trichotomy r s) as [L|[L|L]]; [|exact L|]; exfalso.
  - specialize (H1 (Z.to_nat r) ltac:(lia)). specialize (H2 (Z.to_nat r) ltac:(lia)). rewrite Z2Nat.id in * by lia.
    rewrite Z.ltb_irrefl in H1. destruct (Z.ltb_spec r s); [lra|lia].
  - specialize (H1 (Z.to_nat s) ltac:(lia)). specialize (H2 (Z.to_nat s) ltac:(lia)). rewrite Z2Nat.id in * by lia.
    rewrite Z.ltb_irrefl in H2. destruct (Z.ltb_spec s r); [lra|lia].
Qed.

Section Rounded.
  Variable rnd : R -> R.

  Lemma rget (g : list R) i : (0 <= i < zlen g)%Z -> @aget R (RndNum rnd) g i = nth (Z.to_nat i) g 0.
  Proof. intros Hi. unfold aget. rewrite jget_nth by exact Hi. apply nth_indep. unfold zlen in Hi. lia. Qed.

  Lemma jax_upto g x : nondecreasing g -> @jnp_searchsorted_right R (RndNum rnd) g x = upto g x.
  Proof.
    intros H. apply search_found; [apply upto_bound| |]; intros i Hi; pose proof (upto_bound g x) as Hb; rewrite rget by lia; cbn [nltb RndNum];
      pose proof (split_count g x H (Z.to_nat i) ltac:(unfold zlen in *; lia)) as Q; rewrite Z2Nat.id in Q by lia;
      destruct (Rltb_spec x (nth (Z.to_nat i) g 0)) as [A|A]; try reflexivity.
    - assert (nth (Z.to_nat i) g 0 <= x) by (apply Q; lia). lra.
    - apply Q in A. lia.
  Qed.
  Lemma model_jax_upto g x : @M_Experience.searchsorted_right R (RndNum rnd) g x = upto g x.
  Proof. reflexivity. Qed.

  Lemma np_loop_upto g x fuel lo hi : nondecreasing g -> (0 <= lo <= upto g x)%Z -> (upto g x <= hi <= zlen g)%Z -> (hi - lo <= Z.of_nat fuel)%Z ->
    @binsearch_loop R (RndNum rnd) fuel g x lo hi = (upto g x, upto g x).
  Proof.
    intros H H1 H2 H3. apply loop_found; try assumption; intros i Hi; rewrite rget by lia; cbn [nleb RndNum];
      pose proof (split_count g x H (Z.to_nat i) ltac:(unfold zlen in *; lia)) as Q; rewrite Z2Nat.id in Q by lia;
      destruct (Rleb_spec (nth (Z.to_nat i) g 0) x) as [A|A]; try reflexivity.
    - assert (nth (Z.to_nat i) g 0 <= x) by (apply Q; lia). lra.
    - apply Q in A. lia.
  Qed.
  Lemma upto_mono g x y : x <= y -> (upto g x <= upto g y)%Z.
  Proof.
    intros H. unfold upto, zlen. induction g as [|z g IH]; cbn; [lia|]. destruct (Rleb_spec z x), (Rleb_spec z y); cbn [List.length]; try lia. lra.
  Qed.
  Lemma np_keys_upto g : nondecreasing g -> forall keys last lo hi, (0 <= lo <= upto g last)%Z -> (upto g last <= hi <= zlen g)%Z ->
    @binsearch_keys R (RndNum rnd) g last lo hi keys = map (upto g) keys.
  Proof.
    intros H. induction keys as [|k keys IH]; intros last lo hi H1 H2; [reflexivity|]. cbn [binsearch_keys map]. cbn [nleb RndNum].
    destruct (Rleb_spec last k) as [A|A].
    - pose proof (upto_mono g last k A). pose proof (upto_bound g k). rewrite np_loop_upto by (try assumption; unfold zlen in *; lia).
      f_equal. apply IH; lia.
    - pose proof (upto_mono g k last ltac:(lra)). pose proof (upto_bound g k). destruct (Z.ltb_spec hi (zlen g)).
      + rewrite np_loop_upto by (try assumption; unfold zlen in *; lia). f_equal. apply IH; lia.
      + rewrite np_loop_upto by (try assumption; unfold zlen in *; lia). f_equal. apply IH; lia.
  Qed.
  Lemma np_upto g keys : nondecreasing g -> @np_searchsorted_right R (RndNum rnd) g keys = map (upto g) keys.
  Proof.
    intros H. destruct keys as [|k keys]; [reflexivity|]. unfold np_searchsorted_right. pose proof (upto_bound g k). apply np_keys_upto; [exact H|lia|lia].
  Qed.
  Lemma model_np_upto g x : nondecreasing g -> @M_Numpy.searchsorted_right R (RndNum rnd) g x = upto g x.
  Proof.
    induction g as [|y g IH]; intros H; [reflexivity|].
    assert (Ht : nondecreasing g).
    { intros a b Hab. apply (H (S a) (S b)). cbn [List.length]. lia. }
    cbn [M_Numpy.searchsorted_right]. cbn [nltb RndNum]. destruct (Rltb_spec x y) as [A|A].
    - pose proof (split_count (y :: g) x H 0%nat ltac:(cbn; lia)) as Q. cbn [nth] in Q. pose proof (upto_bound (y :: g) x).
      destruct (Z.eq_dec (upto (y :: g) x) 0) as [E|E]; [symmetry; exact E|]. assert (y <= x) by (apply Q; lia). lra.
    - rewrite IH by exact Ht. unfold upto, zlen. cbn [filter]. destruct (Rleb_spec y x); [cbn [List.length]; lia|lra].
  Qed.

  (** sums of numbers that are not negative do not fall, also when rounded *)
  Hypothesis mono : forall x y, x <= y -> rnd x <= rnd y.
  Hypothesis fixed : forall x, rnd (rnd x) = rnd x.
  Lemma nondecreasing_cons x g : nondecreasing g -> (forall y, In y g -> x <= y) -> nondecreasing (x :: g).
  Proof.
    intros H Hx i j [A B]. destruct i as [|i], j as [|j]; cbn [nth List.length] in *; [lra| |lia|].
    - apply Hx, nth_In. lia.
    - apply H. lia.
  Qed.
  Lemma cumsum_from_sorted p : forall a, rnd a = a -> Forall (fun x => 0 <= x) p ->
    nondecreasing (@cumsum_from R (RndNum rnd) a p) /\ forall y, In y (@cumsum_from R (RndNum rnd) a p) -> a <= y.
  Proof.
    induction p as [|x p IH]; intros a Ha Hp; cbn [cumsum_from]; [split; [intros i j [_ B]; cbn in B; lia|intros y []]|].
    inversion Hp as [|x' p' H1 H2]; subst. cbn [nadd RndNum]. destruct (IH (rnd (a + x)) (fixed _) H2) as (I1 & I2).
    assert (L : a <= rnd (a + x)) by (rewrite <- Ha at 1; apply mono; lra). split.
    - apply nondecreasing_cons; assumption.
    - intros y [<-|Hy]; [exact L|]. specialize (I2 y Hy). lra.
  Qed.
  Lemma cumsum_sorted p : Forall (fun x => 0 <= x /\ rnd x = x) p ->
    nondecreasing (@cumsum R (RndNum rnd) p) /\ forall y, In y (@cumsum R (RndNum rnd) p) -> 0 <= y.
  Proof.
    destruct p as [|x p]; intros Hp; cbn [cumsum]; [split; [intros i j [_ B]; cbn in B; lia|intros y []]|].
    inversion Hp as [|x' p' [H1 H1'] H2]; subst.
    assert (Hp' : Forall (fun x => 0 <= x) p) by (eapply Forall_impl; [|exact H2]; cbn; tauto).
    destruct (cumsum_from_sorted p x H1' Hp') as (I1 & I2). split; [apply nondecreasing_cons; assumption|].
    intros y [<-|Hy]; [exact H1|]. specialize (I2 y Hy). lra.
  Qed.
  Lemma last_In {A} (d : A) l : l <> [] -> In (last l d) l.
  Proof. induction l as [|x [|y l] IH]; intros H; [congruence|left; reflexivity|]. right. apply IH. discriminate. Qed.
  Lemma cdf_sorted p d : Forall (fun x => 0 <= x /\ rnd x = x) p -> 0 <= d ->
    nondecreasing (map (fun c => rnd (c / last (@cumsum R (RndNum rnd) p) d)) (@cumsum R (RndNum rnd) p)).
  Proof.
    intros Hp Hd. destruct (cumsum_sorted p Hp) as (S & N). set (c := @cumsum R (RndNum rnd) p) in *.
    intros i j [A B]. rewrite map_length in B. set (h := fun z => rnd (z / last c d)).
    rewrite (nth_indep _ 0 (h 0)) by (rewrite map_length; lia). rewrite (nth_indep (map h c) 0 (h 0)) by (rewrite map_length; lia). rewrite !map_nth.
    unfold h. apply mono. specialize (S i j (conj A B)).
    assert (L : 0 <= last c d) by (destruct c as [|z c']; [exact Hd|apply N, last_In; discriminate]).
    unfold Rdiv. apply Rmult_le_compat_r; [|exact S]. destruct (Req_dec (last c d) 0) as [E|E]; [rewrite E, Rinv_0; lra|].
    left. apply Rinv_0_lt_compat. lra.
  Qed.
End Rounded.
