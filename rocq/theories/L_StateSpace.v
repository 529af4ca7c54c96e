From Verif Require Import Base Num M_Params M_StateSpace L_Num S_StateSpace.
Open Scope Z_scope.

(** ** lists indexed by Z *)
Lemma of_nat_ltb0 n : (Z.of_nat n <? 0) = false.
Proof. apply Z.ltb_ge. lia. Qed.
Definition zat {A} (l : list A) (i : Z) : option A :=
  if i <? 0 then None else nth_error l (Z.to_nat i).

Lemma zat_some {A} (l : list A) i x : zat l i = Some x -> 0 <= i < zlen l.
Proof.
  unfold zat. destruct (i <? 0) eqn:E; [discriminate|]. intros H.
  assert (nth_error l (Z.to_nat i) <> None) by congruence.
  apply nth_error_Some in H0. unfold zlen. lia.
Qed.
Lemma zat_exists {A} (l : list A) i : 0 <= i < zlen l -> exists x, zat l i = Some x.
Proof.
  intros H. unfold zat. destruct (i <? 0) eqn:E; [lia|].
  destruct (nth_error l (Z.to_nat i)) eqn:E1; [eauto|]. apply nth_error_None in E1. unfold zlen in H. lia.
Qed.
Lemma zat_in {A} (l : list A) i x : zat l i = Some x -> In x l.
Proof. unfold zat. destruct (i <? 0); [discriminate|]. apply nth_error_In. Qed.
Lemma in_zat {A} (l : list A) x : In x l -> exists i, zat l i = Some x.
Proof.
  intros H. apply In_nth_error in H. destruct H as [n H]. exists (Z.of_nat n). unfold zat.
  rewrite of_nat_ltb0. rewrite Nat2Z.id. assumption.
Qed.
Lemma np_get_zat {A} (l : list A) i x : zat l i = Some x -> np_get l i = Ok x.
Proof.
  intros H. pose proof (zat_some _ _ _ H) as Hi. unfold zat in H.
  destruct (i <? 0) eqn:E; [discriminate|]. unfold np_get, np_norm.
  replace ((0 <=? i) && (i <? zlen l)) with true by lia. rewrite H. reflexivity.
Qed.
Lemma np_get_zat_inv {A} (l : list A) i x : 0 <= i -> np_get l i = Ok x -> zat l i = Some x.
Proof.
  unfold np_get, np_norm, zat. intros Hi H. replace (i <? 0) with false by lia.
  destruct ((0 <=? i) && (i <? zlen l)) eqn:E.
  - destruct (nth_error l (Z.to_nat i)); [injection H as ->; reflexivity|discriminate].
  - replace ((- zlen l <=? i) && (i <? 0)) with false in H by lia. discriminate.
Qed.
Lemma zat_map {A B} (f : A -> B) l i : zat (map f l) i = option_map f (zat l i).
Proof. unfold zat. destruct (i <? 0); [reflexivity|]. rewrite nth_error_map. reflexivity. Qed.
Lemma zat_range2 lo hi i : 0 <= i < hi - lo -> zat (range2 lo hi) i = Some (lo + i).
Proof.
  intros H. unfold zat. replace (i <? 0) with false by lia.
  rewrite (nth_error_nth' _ 0) by (rewrite range2_length; lia).
  rewrite nth_range2 by lia. f_equal. lia.
Qed.
Lemma zat_range2_inv lo hi i v : zat (range2 lo hi) i = Some v -> 0 <= i < hi - lo /\ v = lo + i.
Proof.
  intros H. pose proof (zat_some _ _ _ H) as Hi. unfold zlen in Hi. rewrite range2_length in Hi.
  assert (Hi' : 0 <= i < hi - lo) by lia. split; [assumption|].
  rewrite zat_range2 in H by assumption. congruence.
Qed.
Lemma zat_range n i : 0 <= i < n -> zat (range n) i = Some i.
Proof. intros. unfold range. rewrite zat_range2 by lia. f_equal; lia. Qed.
Lemma zat_range_inv n i v : zat (range n) i = Some v -> 0 <= i < n /\ v = i.
Proof. intros H. apply zat_range2_inv in H. lia. Qed.

Lemma zat_cons_0 {A} (a : A) l : zat (a :: l) 0 = Some a.
Proof. reflexivity. Qed.
Lemma zat_cons {A} (a : A) l i : 0 < i -> zat (a :: l) i = zat l (i - 1).
Proof.
  intros H. unfold zat. replace (i <? 0) with false by lia. replace (i - 1 <? 0) with false by lia.
  replace (Z.to_nat i) with (S (Z.to_nat (i - 1))) by lia. reflexivity.
Qed.
Lemma zat_app_l {A} (l m : list A) i : i < zlen l -> zat (l ++ m) i = zat l i.
Proof.
  intros H. unfold zat. destruct (i <? 0) eqn:E; [reflexivity|].
  apply nth_error_app1. unfold zlen in H. lia.
Qed.
Lemma zat_app_r {A} (l m : list A) i : zlen l <= i -> zat (l ++ m) i = zat m (i - zlen l).
Proof.
  intros H. pose proof (zlen_nonneg l). unfold zat. replace (i <? 0) with false by lia.
  replace (i - zlen l <? 0) with false by lia. rewrite nth_error_app2 by (unfold zlen in H; lia).
  f_equal. unfold zlen in *. lia.
Qed.

Lemma zat_flat_map {A B} (f : A -> list B) (l : list A) (n i j : Z) a :
  (forall x, In x l -> zlen (f x) = n) -> zat l i = Some a -> 0 <= j < n ->
  zat (flat_map f l) (i * n + j) = zat (f a) j.
Proof.
  revert i; induction l as [|x l IH]; intros i Hn Hi Hj.
  - apply zat_some in Hi. unfold zlen in Hi; simpl in Hi; lia.
  - pose proof (zat_some _ _ _ Hi) as Hr. simpl. assert (Hx : zlen (f x) = n) by (apply Hn; left; auto).
    destruct (Z.eq_dec i 0) as [->|Hne].
    + rewrite zat_cons_0 in Hi. injection Hi as ->. rewrite Z.mul_0_l, Z.add_0_l.
      apply zat_app_l. lia.
    + rewrite zat_cons in Hi by lia. rewrite zat_app_r by nia. rewrite Hx.
      replace (i * n + j - n) with ((i - 1) * n + j) by lia.
      apply IH; try assumption. intros y Hy. apply Hn. right; assumption.
Qed.

Lemma zat_flat_map_inv {A B} (f : A -> list B) (l : list A) (n k : Z) b :
  (forall x, In x l -> zlen (f x) = n) -> zat (flat_map f l) k = Some b ->
  exists i j a, k = i * n + j /\ 0 <= j < n /\ zat l i = Some a /\ zat (f a) j = Some b.
Proof.
  revert k; induction l as [|x l IH]; intros k Hn Hk.
  - apply zat_some in Hk. unfold zlen in Hk; simpl in Hk; lia.
  - simpl in Hk. assert (Hx : zlen (f x) = n) by (apply Hn; left; auto).
    pose proof (zat_some _ _ _ Hk) as Hr.
    destruct (Z.lt_ge_cases k n) as [Hlt|Hge].
    + rewrite zat_app_l in Hk by lia. exists 0, k, x. repeat split; try lia; assumption.
    + rewrite zat_app_r in Hk by lia. rewrite Hx in Hk.
      destruct (IH (k - n)) as (i & j & a & E & Hj & Hi & Hf);
        [intros y Hy; apply Hn; right; assumption|assumption|].
      exists (i + 1), j, a. pose proof (zat_some _ _ _ Hi). repeat split; try lia.
      * rewrite zat_cons by lia. replace (i + 1 - 1) with i by lia. assumption.
      * assumption.
Qed.

Lemma zlen_flat_map {A B} (f : A -> list B) (l : list A) n :
  (forall x, In x l -> zlen (f x) = n) -> zlen (flat_map f l) = zlen l * n.
Proof.
  induction l as [|x l IH]; intros H; [reflexivity|]. cbn [flat_map].
  rewrite zlen_app, zlen_cons, IH by (intros; apply H; right; auto).
  rewrite (H x) by (left; auto). lia.
Qed.

(** ** python for loops *)
Lemma for_each_err {A S} (l : list A) (b : A -> S -> result S) e : for_each l b (Err e) = Err e.
Proof. unfold for_each. induction l as [|a l IH]; simpl; [reflexivity|apply IH]. Qed.
Lemma for_each_cons {A S} (a : A) l (b : A -> S -> result S) s :
  for_each (a :: l) b (Ok s) = for_each l b (b a s).
Proof. reflexivity. Qed.
Lemma for_each_app {A S} (l m : list A) (b : A -> S -> result S) r :
  for_each (l ++ m) b r = for_each m b (for_each l b r).
Proof. unfold for_each. apply fold_left_app. Qed.
Lemma for_each_flat_map {A B S} (f : A -> list B) (l : list A) (b : B -> S -> result S) r :
  for_each (flat_map f l) b r = for_each l (fun a s => for_each (f a) b (Ok s)) r.
Proof.
  revert r; induction l as [|a l IH]; intros r; [reflexivity|]; cbn [flat_map].
  rewrite for_each_app, IH. destruct r as [s|e]; [reflexivity|].
  rewrite !for_each_err. reflexivity.
Qed.
Lemma for_each_map {A B S} (f : A -> B) (l : list A) (b : B -> S -> result S) r :
  for_each (map f l) b r = for_each l (fun a s => b (f a) s) r.
Proof.
  revert r; induction l as [|a l IH]; intros r; [reflexivity|].
  destruct r as [s|e]; [|rewrite !for_each_err; reflexivity].
  cbn [map]. rewrite !for_each_cons. apply IH.
Qed.

Lemma for_each_ext {A S} (l : list A) (b b' : A -> S -> result S) r :
  (forall a s, In a l -> b a s = b' a s) -> for_each l b r = for_each l b' r.
Proof.
  revert r; induction l as [|a l IH]; intros r H; [reflexivity|].
  destruct r as [s|e]; [|rewrite !for_each_err; reflexivity].
  rewrite !for_each_cons, H by (left; reflexivity). apply IH. intros; apply H; right; assumption.
Qed.

(** ** the enumeration *)
Section Space.
  Context {T : Type} {NT : Num T}.
  Variable sp : model_spec T.
  Hypothesis Hsz : sizes_ok sp.
  Notation P := (num_periods sp).
  Notation E := (num_educ_levels sp).
  Notation Ty := (num_types sp).
  Notation A := (child_age_max sp).

  Definition key5 : Type := Z * Z * Z * Z * Z.   (* period, educ, type, partner, age *)
  Definition keys5 : list key5 :=
    flat_map (fun p => flat_map (fun e => flat_map (fun t => flat_map (fun m =>
      map (fun a => (p, e, t, m, a)) (range2 (-1) (A + 1))) (range 2)) (range Ty)) (range E)) (range P).
  Definition block5 (k : key5) : list row :=
    let '(p, e, t, m, a) := k in map (fun l => [p; e; l; t; a; m]) (range 3).
  Definition states_list : list row := flat_map block5 keys5.
  Definition pos5 (p e t m a : Z) : Z := (((p * E + e) * Ty + t) * 2 + m) * (A + 2) + (a + 1).
  Definition row_number (p e l t a m : Z) : Z := pos5 p e t m a * 3 + l.

  Lemma len_ages : zlen (range2 (-1) (A + 1)) = A + 2.
  Proof. destruct Hsz as (_ & _ & _ & H). rewrite zlen_range2; lia. Qed.

  Lemma len_k4 (p e t x : Z) : zlen (map (fun a => (p, e, t, x, a)) (range2 (-1) (A + 1))) = A + 2.
  Proof. rewrite zlen_map. apply len_ages. Qed.
  Lemma len_k3 (p e t : Z) : zlen (flat_map (fun m =>
      map (fun a => (p, e, t, m, a)) (range2 (-1) (A + 1))) (range 2)) = 2 * (A + 2).
  Proof. rewrite zlen_flat_map with (n := A + 2); [|intros; apply len_k4]. rewrite zlen_range; lia. Qed.
  Lemma len_k2 (p e : Z) : zlen (flat_map (fun t => flat_map (fun m =>
      map (fun a => (p, e, t, m, a)) (range2 (-1) (A + 1))) (range 2)) (range Ty)) = Ty * (2 * (A + 2)).
  Proof.
    destruct Hsz as (_ & _ & H & _).
    rewrite zlen_flat_map with (n := 2 * (A + 2)); [|intros; apply len_k3]. rewrite zlen_range; lia.
  Qed.
  Lemma len_k1 (p : Z) : zlen (flat_map (fun e => flat_map (fun t => flat_map (fun m =>
      map (fun a => (p, e, t, m, a)) (range2 (-1) (A + 1))) (range 2)) (range Ty)) (range E))
      = E * (Ty * (2 * (A + 2))).
  Proof.
    destruct Hsz as (_ & H & _ & _).
    rewrite zlen_flat_map with (n := Ty * (2 * (A + 2))); [|intros; apply len_k2]. rewrite zlen_range; lia.
  Qed.

  Lemma keys5_length : zlen keys5 = P * (E * (Ty * (2 * (A + 2)))).
  Proof.
    destruct Hsz as (H & _). unfold keys5.
    rewrite zlen_flat_map with (n := E * (Ty * (2 * (A + 2)))); [|intros; apply len_k1]. rewrite zlen_range; lia.
  Qed.

  Lemma keys5_at p e t m a : 0 <= p < P -> 0 <= e < E -> 0 <= t < Ty -> 0 <= m < 2 -> -1 <= a <= A ->
    zat keys5 (pos5 p e t m a) = Some (p, e, t, m, a).
  Proof.
    intros Hp He Ht Hm Ha. unfold keys5, pos5.
    replace ((((p * E + e) * Ty + t) * 2 + m) * (A + 2) + (a + 1))
      with (p * (E * (Ty * (2 * (A + 2)))) + (e * (Ty * (2 * (A + 2))) + (t * (2 * (A + 2)) + (m * (A + 2) + (a + 1))))) by ring.
    assert (B1 : 0 <= m * (A + 2) + (a + 1) < 2 * (A + 2)) by nia.
    assert (B2 : 0 <= t * (2 * (A + 2)) + (m * (A + 2) + (a + 1)) < Ty * (2 * (A + 2))) by nia.
    assert (B3 : 0 <= e * (Ty * (2 * (A + 2))) + (t * (2 * (A + 2)) + (m * (A + 2) + (a + 1))) < E * (Ty * (2 * (A + 2)))) by nia.
    rewrite zat_flat_map with (a := p) (n := E * (Ty * (2 * (A + 2))));
      [|intros; apply len_k1|apply zat_range; assumption|assumption].
    rewrite zat_flat_map with (a := e) (n := Ty * (2 * (A + 2)));
      [|intros; apply len_k2|apply zat_range; assumption|assumption].
    rewrite zat_flat_map with (a := t) (n := 2 * (A + 2));
      [|intros; apply len_k3|apply zat_range; assumption|assumption].
    rewrite zat_flat_map with (a := m) (n := A + 2);
      [|intros; apply len_k4|apply zat_range; assumption|lia].
    rewrite zat_map, zat_range2 by lia. cbn [option_map]. do 2 f_equal. lia.
  Qed.

  Lemma keys5_at_inv k q : zat keys5 q = Some k ->
    exists p e t m a, k = (p, e, t, m, a) /\ q = pos5 p e t m a /\
      0 <= p < P /\ 0 <= e < E /\ 0 <= t < Ty /\ 0 <= m < 2 /\ -1 <= a <= A.
  Proof.
    intros H. unfold keys5 in H.
    apply zat_flat_map_inv with (n := E * (Ty * (2 * (A + 2)))) in H; [|intros; apply len_k1].
    destruct H as (ip & j1 & p & E1 & B1 & Hp & H). apply zat_range_inv in Hp. destruct Hp as [Hp ->].
    apply zat_flat_map_inv with (n := Ty * (2 * (A + 2))) in H; [|intros; apply len_k2].
    destruct H as (ie & j2 & e & E2 & B2 & He & H). apply zat_range_inv in He. destruct He as [He ->].
    apply zat_flat_map_inv with (n := 2 * (A + 2)) in H; [|intros; apply len_k3].
    destruct H as (it & j3 & t & E3 & B3 & Ht & H). apply zat_range_inv in Ht. destruct Ht as [Ht ->].
    apply zat_flat_map_inv with (n := A + 2) in H; [|intros; apply len_k4].
    destruct H as (im & j4 & m & E4 & B4 & Hm & H). apply zat_range_inv in Hm. destruct Hm as [Hm ->].
    rewrite zat_map in H. destruct (zat (range2 (-1) (A + 1)) j4) as [a|] eqn:Ea; [|discriminate].
    apply zat_range2_inv in Ea. destruct Ea as [Ha ->]. injection H as <-.
    exists ip, ie, it, im, (-1 + j4). repeat split; try lia.
    subst. unfold pos5. ring.
  Qed.

  Lemma in_keys5 p e t m a : In (p, e, t, m, a) keys5 <->
    0 <= p < P /\ 0 <= e < E /\ 0 <= t < Ty /\ 0 <= m < 2 /\ -1 <= a <= A.
  Proof.
    split.
    - intros H. apply in_zat in H. destruct H as [i H]. apply keys5_at_inv in H.
      destruct H as (p' & e' & t' & m' & a' & Eq & _ & H). injection Eq as -> -> -> -> ->. exact H.
    - intros (Hp & He & Ht & Hm & Ha). eapply zat_in. apply keys5_at; eassumption.
  Qed.

  Lemma zat_NoDup {X} (l : list X) : (forall i j x, zat l i = Some x -> zat l j = Some x -> i = j) -> NoDup l.
  Proof.
    intros H. apply NoDup_nth_error. intros i j Hi Hij.
    destruct (nth_error l i) as [x|] eqn:Ei.
    - assert (Z.of_nat i = Z.of_nat j); [|lia]. apply (H _ _ x).
      + unfold zat. rewrite of_nat_ltb0. rewrite Nat2Z.id. assumption.
      + unfold zat. rewrite of_nat_ltb0. rewrite Nat2Z.id. congruence.
    - apply nth_error_None in Ei. lia.
  Qed.

  Lemma keys5_NoDup : NoDup keys5.
  Proof.
    apply zat_NoDup. intros i j x Hi Hj.
    apply keys5_at_inv in Hi. apply keys5_at_inv in Hj.
    destruct Hi as (? & ? & ? & ? & ? & -> & -> & _). destruct Hj as (? & ? & ? & ? & ? & Eq & -> & _).
    injection Eq as <- <- <- <- <-. reflexivity.
  Qed.

  Lemma block5_len k : zlen (block5 k) = 3.
  Proof. destruct k as [[[[p e] t] m] a]. reflexivity. Qed.

  Lemma states_at p e l t a m : in_space sp p e l t a m ->
    zat states_list (row_number p e l t a m) = Some [p; e; l; t; a; m].
  Proof.
    intros (Hp & He & Hl & Ht & Ha & Hm). unfold states_list, row_number.
    rewrite zat_flat_map with (a := (p, e, t, m, a)) (n := 3);
      [|intros; apply block5_len|apply keys5_at; assumption|lia].
    unfold block5. rewrite zat_map, zat_range by lia. reflexivity.
  Qed.

  Lemma states_at_inv i r : zat states_list i = Some r ->
    exists p e l t a m, in_space sp p e l t a m /\ r = [p; e; l; t; a; m] /\ i = row_number p e l t a m.
  Proof.
    intros H. unfold states_list in H.
    apply zat_flat_map_inv with (n := 3) in H; [|intros; apply block5_len].
    destruct H as (q & l & k & -> & Hl & Hq & H). apply keys5_at_inv in Hq.
    destruct Hq as (p & e & t & m & a & -> & -> & Hp & He & Ht & Hm & Ha).
    unfold block5 in H. rewrite zat_map, zat_range in H by lia. injection H as <-.
    exists p, e, l, t, a, m. repeat split; try lia.
  Qed.

  Lemma states_length : zlen states_list = P * states_per_period sp.
  Proof.
    unfold states_list. rewrite zlen_flat_map with (n := 3) by (intros; apply block5_len).
    rewrite keys5_length. unfold states_per_period. ring.
  Qed.

  Lemma states_NoDup : NoDup states_list.
  Proof.
    apply zat_NoDup. intros i j x Hi Hj.
    apply states_at_inv in Hi. apply states_at_inv in Hj.
    destruct Hi as (? & ? & ? & ? & ? & ? & _ & -> & ->).
    destruct Hj as (? & ? & ? & ? & ? & ? & _ & Eq & ->).
    injection Eq as <- <- <- <- <- <-. reflexivity.
  Qed.

  (** *** the loop *)
  Definition cell (k : key5) (l : Z) : key6 :=
    let '(p, e, t, m, a) := k in (p, e, l, t, kid_age_to_index a (A + 2), m).
  Definition shape : key6 := (P, E, NUM_CHOICES, Ty, A + 2, 2).
  Definition body5 (k : key5) (s : ss_acc) : result ss_acc :=
    let '(p, e, t, m, a) := k in ss_body (A + 2) p e t m a s.

  Lemma cell_norm k l : In k keys5 -> 0 <= l < 3 -> ix_norm shape (cell k l) = Some (cell k l).
  Proof.
    destruct k as [[[[p e] t] m] a]. rewrite in_keys5. intros (Hp & He & Ht & Hm & Ha) Hl.
    unfold ix_norm, shape, cell, np_norm, NUM_CHOICES, kid_age_to_index.
    replace ((0 <=? p) && (p <? P)) with true by lia. replace ((0 <=? e) && (e <? E)) with true by lia.
    replace ((0 <=? l) && (l <? 3)) with true by lia. replace ((0 <=? t) && (t <? Ty)) with true by lia.
    replace ((0 <=? m) && (m <? 2)) with true by lia.
    destruct (a =? -1) eqn:Ea.
    - replace ((0 <=? A + 2 - 1) && (A + 2 - 1 <? A + 2)) with true by lia. reflexivity.
    - replace ((0 <=? a) && (a <? A + 2)) with true by lia. reflexivity.
  Qed.

  Lemma cell_inj k l k' l' : In k keys5 -> In k' keys5 -> cell k l = cell k' l' -> k = k' /\ l = l'.
  Proof.
    destruct k as [[[[p e] t] m] a]. destruct k' as [[[[p' e'] t'] m'] a']. rewrite !in_keys5.
    intros (Hp & He & Ht & Hm & Ha) (Hp' & He' & Ht' & Hm' & Ha') Eq.
    unfold cell, kid_age_to_index in Eq. injection Eq as -> -> -> -> Eq ->.
    split; [|reflexivity]. f_equal.
    destruct (a =? -1) eqn:E1; destruct (a' =? -1) eqn:E2; lia.
  Qed.

  Lemma key6_eqb_true a b : key6_eqb a b = true <-> a = b.
  Proof.
    destruct a as [[[[[? ?] ?] ?] ?] ?]. destruct b as [[[[[? ?] ?] ?] ?] ?]. unfold key6_eqb.
    rewrite !andb_true_iff, !Z.eqb_eq. split.
    - intros [[[[[-> ->] ->] ->] ->] ->]. reflexivity.
    - intros H. injection H as -> -> -> -> -> ->. repeat split.
  Qed.
  Lemma key6_eqb_refl a : key6_eqb a a = true.
  Proof. apply key6_eqb_true. reflexivity. Qed.
  Lemma key6_eqb_false a b : a <> b -> key6_eqb a b = false.
  Proof. intros H. destruct (key6_eqb a b) eqn:E0; [|reflexivity]. apply key6_eqb_true in E0. contradiction. Qed.

  Lemma body_step k s : In k keys5 -> ix_shape (acc_ix s) = shape ->
    exists s', body5 k s = Ok s' /\ acc_blocks s' = acc_blocks s ++ [block5 k] /\
      acc_i s' = acc_i s + 3 /\ ix_shape (acc_ix s') = shape /\
      (forall l, 0 <= l < 3 -> ix_data (acc_ix s') (cell k l) = acc_i s + l) /\
      (forall q, (forall l, 0 <= l < 3 -> q <> cell k l) -> ix_data (acc_ix s') q = ix_data (acc_ix s) q).
  Proof.
    intros Hk Hs. destruct k as [[[[p e] t] m] a].
    unfold body5, ss_body. change (range NUM_CHOICES) with [0; 1; 2].
    change (zlen [0; 1; 2]) with 3.
    rewrite (range2_cons (acc_i s)), (range2_cons (acc_i s + 1)), (range2_cons (acc_i s + 1 + 1)),
      (range2_nil (acc_i s + 1 + 1 + 1)) by lia.
    pose proof (cell_norm _ 0 Hk ltac:(lia)) as N0.
    pose proof (cell_norm _ 1 Hk ltac:(lia)) as N1.
    pose proof (cell_norm _ 2 Hk ltac:(lia)) as N2.
    set (k := (p, e, t, m, a)) in *. unfold cell in N0, N1, N2. cbn [k] in N0, N1, N2.
    cbn [combine fold_left bind fst snd]. unfold ix_set.
    rewrite Hs. rewrite N0. cbn [bind ix_shape]. rewrite N1. cbn [bind ix_shape]. rewrite N2. cbn [bind].
    eexists. split; [reflexivity|]. cbn [acc_blocks acc_i acc_ix ix_shape ix_data].
    split; [reflexivity|]. split; [reflexivity|]. split; [reflexivity|]. split.
    - intros l Hl. change (cell k l) with (p, e, l, t, kid_age_to_index a (A + 2), m).
      assert (Hc : l = 0 \/ l = 1 \/ l = 2) by lia. destruct Hc as [-> | [-> | ->]].
      + rewrite key6_eqb_false by congruence. rewrite key6_eqb_false by congruence.
        rewrite key6_eqb_refl. lia.
      + rewrite key6_eqb_false by congruence. rewrite key6_eqb_refl. lia.
      + rewrite key6_eqb_refl. lia.
    - intros q Hq.
      rewrite key6_eqb_false by (apply (Hq 2); lia).
      rewrite key6_eqb_false by (apply (Hq 1); lia).
      rewrite key6_eqb_false by (apply (Hq 0); lia). reflexivity.
  Qed.

  Lemma loop_spec ks : NoDup ks -> (forall k, In k ks -> In k keys5) -> forall s, ix_shape (acc_ix s) = shape ->
    exists s', for_each ks body5 (Ok s) = Ok s' /\
      acc_blocks s' = acc_blocks s ++ map block5 ks /\ ix_shape (acc_ix s') = shape /\
      (forall j k l, zat ks j = Some k -> 0 <= l < 3 ->
         ix_data (acc_ix s') (cell k l) = acc_i s + j * 3 + l) /\
      (forall q, (forall k l, In k ks -> 0 <= l < 3 -> q <> cell k l) ->
         ix_data (acc_ix s') q = ix_data (acc_ix s) q).
  Proof.
    induction ks as [|k ks IH]; intros Hnd Hin s Hs.
    - exists s. split; [reflexivity|]. split; [rewrite app_nil_r; reflexivity|]. split; [exact Hs|]. split.
      + intros j k l Hj. apply zat_some in Hj. unfold zlen in Hj; simpl in Hj; lia.
      + reflexivity.
    - inversion Hnd as [|? ? Hnin Hnd']; subst.
      destruct (body_step k s) as (s1 & E1 & Eb & Ei & Esh & Hd & Ho); [apply Hin; left; auto|exact Hs|].
      destruct (IH Hnd' ltac:(intros; apply Hin; right; auto) s1 Esh) as (s2 & E2 & Eb2 & Esh2 & Hd2 & Ho2).
      exists s2. rewrite for_each_cons, E1. split; [exact E2|].
      split; [rewrite Eb2, Eb, <- app_assoc; reflexivity|]. split; [exact Esh2|]. split.
      + intros j k' l Hj Hl. pose proof (zat_some _ _ _ Hj) as Hjr.
        destruct (Z.eq_dec j 0) as [->|Hj0].
        * rewrite zat_cons_0 in Hj. injection Hj as <-. rewrite Ho2.
          -- rewrite Hd by assumption. lia.
          -- intros k2 l2 Hk2 Hl2 Eq. apply cell_inj in Eq;
               [|apply Hin; left; auto|apply Hin; right; auto]. destruct Eq as [-> _]. contradiction.
        * rewrite zat_cons in Hj by lia. rewrite (Hd2 (j - 1) k' l Hj Hl). rewrite Ei. lia.
      + intros q Hq. rewrite Ho2 by (intros; apply Hq; [right|]; assumption).
        apply Ho. intros; apply Hq; [left; reflexivity|assumption].
  Qed.

  Lemma create_states :
    exists ix, create_discrete_state_space sp = Ok (states_list, ix) /\ ix_shape ix = shape /\
      (forall p e l t a m, in_space sp p e l t a m ->
         ix_get ix (p, e, l, t, a, m) = Ok (row_number p e l t a m)).
  Proof.
    set (ix0 := mkIndexer shape (fun _ => MISSING_INT)).
    destruct (loop_spec keys5 keys5_NoDup (fun k H => H) (mkAcc [] ix0 0) eq_refl)
      as (s' & E1 & Eb & Esh & Hd & _).
    exists (acc_ix s'). split; [|split; [exact Esh|]].
    - unfold create_discrete_state_space. rewrite len_ages.
      assert (Hf : np_full_shape [P; E; NUM_CHOICES; Ty; A + 2; 2] = Ok tt).
      { destruct Hsz as (S1 & S2 & S3 & S4). unfold np_full_shape. cbn [existsb]. replace (P <? 0) with false by lia. replace (E <? 0) with false by lia.
        replace (Ty <? 0) with false by lia. replace (A + 2 <? 0) with false by lia. reflexivity. }
      rewrite Hf. cbn [bind].
      match goal with |- (do acc <- ?x; _) = _ => assert (Ex : x = Ok s') end.
      { rewrite <- E1. unfold keys5.
        rewrite for_each_flat_map. apply for_each_ext. intros p a0 _.
        rewrite for_each_flat_map. apply for_each_ext. intros e a1 _.
        rewrite for_each_flat_map. apply for_each_ext. intros t a2 _.
        rewrite for_each_flat_map. apply for_each_ext. intros m a3 _.
        rewrite for_each_map. reflexivity. }
      rewrite Ex. cbn [bind]. rewrite Eb. unfold states_list. cbn [acc_blocks app]. rewrite flat_map_concat_map. reflexivity.
    - intros p e l t a m Hsp. pose proof Hsp as (Hp & He & Hl & Ht & Ha & Hm).
      unfold ix_get. rewrite Esh.
      assert (Hk : In (p, e, t, m, a) keys5) by (apply in_keys5; tauto).
      assert (N : ix_norm shape (p, e, l, t, a, m) = Some (cell (p, e, t, m, a) l)).
      { rewrite <- (cell_norm _ l Hk Hl). unfold ix_norm, shape, cell, np_norm, kid_age_to_index.
        destruct (a =? -1) eqn:Ea; [|reflexivity].
        replace ((0 <=? a) && (a <? A + 2)) with false by lia.
        replace ((- (A + 2) <=? a) && (a <? 0)) with true by lia.
        replace ((0 <=? A + 2 - 1) && (A + 2 - 1 <? A + 2)) with true by lia.
        replace (a + (A + 2)) with (A + 2 - 1) by lia. reflexivity. }
      rewrite N. f_equal. rewrite (Hd (pos5 p e t m a)) by (try apply keys5_at; assumption).
      unfold row_number. cbn [acc_i]. lia.
  Qed.
End Space.

(** ** ageing, successors, covariates *)
Section Objects.
  Context {T : Type} {NT : Num T}.
  Variable sp : model_spec T.
  Hypothesis Hsz : sizes_ok sp.
  Notation P := (num_periods sp).
  Notation A := (child_age_max sp).
  Notation rn := (row_number sp).

  Lemma update_aged p e l t a m : in_space sp p e l t a m ->
    child_age_update sp [p; e; l; t; a; m] = aged sp a.
  Proof.
    intros (_ & _ & _ & _ & Ha & _). unfold child_age_update, aged, col.
    cbn [nth AGE_YOUNGEST_CHILD]. destruct (a =? -1) eqn:E; cbn [negb].
    - replace (A <? -1) with false by lia. reflexivity.
    - destruct (a <? A) eqn:E2.
      + replace (A <? a + 1) with false by lia. reflexivity.
      + replace (A <? a + 1) with true by lia. reflexivity.
  Qed.

  Lemma aged_range a : -1 <= a <= A -> -1 <= aged sp a <= A.
  Proof. intros. unfold aged. destruct (a =? -1) eqn:E1; [lia|]. destruct (a <? A) eqn:E2; lia. Qed.

  (** index 0 of the age axis: age 0, or the childless slot if no ages are modelled *)
  Definition newborn : Z := if A <? 0 then -1 else 0.

  Definition children_of (p e t a : Z) : list (list (list Z)) :=
    map (fun c => [[rn (p + 1) e c t (aged sp a) 0; rn (p + 1) e c t (aged sp a) 1];
                   [rn (p + 1) e c t newborn 0; rn (p + 1) e c t newborn 1]]) (range NUM_CHOICES).

  Definition child_row (r : row) : list (list (list Z)) :=
    if col PERIOD r <? P - 1
    then children_of (col PERIOD r) (col EDUC_LEVEL r) (col TYPE r) (col AGE_YOUNGEST_CHILD r)
    else missing_block.

  Lemma ix_get_newborn ix p e l t m :
    ix_shape ix = shape sp ->
    (forall p e l t a m, in_space sp p e l t a m -> ix_get ix (p, e, l, t, a, m) = Ok (rn p e l t a m)) ->
    in_space sp p e l t newborn m -> ix_get ix (p, e, l, t, 0, m) = Ok (rn p e l t newborn m).
  Proof.
    intros Hs H Hin. destruct Hsz as (_ & _ & _ & HA). unfold newborn in *. destruct (A <? 0) eqn:EA.
    - rewrite <- H by assumption. unfold ix_get. rewrite Hs. unfold shape, ix_norm.
      assert (A = -1) by lia. 
      assert (E0 : np_norm (A + 2) 0 = np_norm (A + 2) (-1)).
      { rewrite H0. reflexivity. }
      rewrite E0. reflexivity.
    - apply H. assumption.
  Qed.

  Lemma child_row_ok ix r :
    ix_shape ix = shape sp ->
    (forall p e l t a m, in_space sp p e l t a m -> ix_get ix (p, e, l, t, a, m) = Ok (rn p e l t a m)) ->
    In r (states_list sp) ->
    child_indexes_row sp ix (define_child_age_update_rule sp (states_list sp)) r = Ok (child_row r).
  Proof.
    intros Hs H Hr. apply in_zat in Hr. destruct Hr as [i Hr].
    destruct (states_at_inv sp Hsz _ _ Hr) as (p & e & l & t & a & m & Hin & -> & ->).
    unfold child_indexes_row, child_row, col.
    cbn [nth PERIOD EDUC_LEVEL TYPE AGE_YOUNGEST_CHILD LAGGED_CHOICE PARTNER].
    destruct (p <? P - 1) eqn:Ep; [|reflexivity].
    assert (Eix : ix_get ix (p, e, l, t, if a =? -1 then ix_shape4 ix - 1 else a, m)
                  = Ok (rn p e l t a m)).
    { rewrite <- H by assumption. destruct (a =? -1) eqn:Ea; [|reflexivity].
      unfold ix_get, ix_shape4. rewrite Hs. unfold shape, ix_norm.
      destruct Hsz as (_ & _ & _ & HA).
      assert (E0 : np_norm (A + 2) (A + 2 - 1) = np_norm (A + 2) a).
      { unfold np_norm. replace ((0 <=? A + 2 - 1) && (A + 2 - 1 <? A + 2)) with true by lia.
        replace ((0 <=? a) && (a <? A + 2)) with false by lia.
        replace ((- (A + 2) <=? a) && (a <? 0)) with true by lia. f_equal. lia. }
      rewrite E0. reflexivity. }
    rewrite Eix. cbn [bind].
    assert (Er : np_get (define_child_age_update_rule sp (states_list sp)) (rn p e l t a m)
                 = Ok (aged sp a)).
    { apply np_get_zat. unfold define_child_age_update_rule. rewrite zat_map, Hr. cbn [option_map].
      rewrite update_aged by assumption. reflexivity. }
    rewrite Er. cbn [bind].
    assert (Hag : -1 <= aged sp a <= A) by (apply aged_range; destruct Hin as (_ & _ & _ & _ & Ha & _); lia).
    assert (Hnb : -1 <= newborn <= A).
    { unfold newborn. destruct Hsz as (_ & _ & _ & HA). destruct (A <? 0) eqn:EA; lia. }
    unfold children_of. apply mapM_Ok. intros c Hc. apply in_range in Hc. unfold NUM_CHOICES in Hc.
    destruct Hin as (Hp & He & Hl & Ht & Ha & Hm).
    rewrite !H by (unfold in_space; lia). cbn [bind].
    rewrite !ix_get_newborn by (try assumption; unfold in_space; lia). reflexivity.
  Qed.

  (** *** covariates *)
  Definition bin_fun (a : Z) : Z :=
    if a =? -1 then 0 else if a <=? 2 then 1 else if a <=? 5 then 2 else if a <=? 10 then 3 else 4.

  Lemma bin_fun_spec a : -1 <= a -> bin_of a (bin_fun a).
  Proof.
    intros H. unfold bin_fun. destruct (a =? -1) eqn:E0; [assert (a = -1) as -> by lia; constructor|].
    destruct (a <=? 2) eqn:E1; [constructor; lia|]. destruct (a <=? 5) eqn:E2; [constructor; lia|].
    destruct (a <=? 10) eqn:E3; constructor; lia.
  Qed.
  Lemma bin_of_fun a b : bin_of a b -> b = bin_fun a.
  Proof.
    unfold bin_fun. destruct 1; [reflexivity| | | |];
      repeat match goal with |- context [if ?c then _ else _] => destruct c eqn:? end; lia.
  Qed.

  Lemma cut_bin a : -1 <= a <= A ->
    pd_cut [-2; -1; 2; 5; 10; Z.max A 11] 0 a = Some (bin_fun a).
  Proof.
    intros H. unfold bin_fun. cbn [pd_cut].
    destruct ((-2 <? a) && (a <=? -1)) eqn:E0; [replace (a =? -1) with true by lia; reflexivity|].
    replace (a =? -1) with false by lia.
    destruct ((-1 <? a) && (a <=? 2)) eqn:E1; [replace (a <=? 2) with true by lia; reflexivity|].
    replace (a <=? 2) with false by lia.
    destruct ((2 <? a) && (a <=? 5)) eqn:E2; [replace (a <=? 5) with true by lia; reflexivity|].
    replace (a <=? 5) with false by lia.
    destruct ((5 <? a) && (a <=? 10)) eqn:E3; [replace (a <=? 10) with true by lia; reflexivity|].
    replace (a <=? 10) with false by lia.
    replace ((10 <? a) && (a <=? Z.max A 11)) with true by lia. reflexivity.
  Qed.

  Definition cov_of (r : row) : cov T :=
    match construct_covariates_row sp r with
    | Ok c => c
    | Err _ => mkCov 0 (nofZ 0) (nofZ 0) (nofZ 0)
    end.

  Lemma cov_total p e l t a m : in_space sp p e l t a m ->
    exists c, construct_covariates_row sp [p; e; l; t; a; m] = Ok c.
  Proof.
    intros (_ & _ & _ & _ & Ha & _). unfold construct_covariates_row, col.
    cbn [nth AGE_YOUNGEST_CHILD PARTNER]. rewrite cut_bin by assumption.
    unfold create_equivalence_scale. destruct (a =? -1), (m =? 1); cbn; eexists; reflexivity.
  Qed.

  Lemma cov_ok r : In r (states_list sp) -> construct_covariates_row sp r = Ok (cov_of r).
  Proof.
    intros Hr. apply in_zat in Hr. destruct Hr as [i Hr].
    destruct (states_at_inv sp Hsz _ _ Hr) as (p & e & l & t & a & m & Hin & -> & ->).
    destruct (cov_total _ _ _ _ _ _ Hin) as [c Hc]. unfold cov_of. rewrite Hc. reflexivity.
  Qed.

  Lemma state_space_objects :
    exists ix, ix_shape ix = shape sp /\
      (forall p e l t a m, in_space sp p e l t a m -> ix_get ix (p, e, l, t, a, m) = Ok (rn p e l t a m)) /\
      create_state_space_objects sp =
        Ok (mkSS (states_list sp) ix (map cov_of (states_list sp))
              (map (child_age_update sp) (states_list sp)) (map child_row (states_list sp))).
  Proof.
    destruct (create_states sp Hsz) as (ix & E1 & Hs & Hg).
    exists ix. split; [exact Hs|]. split; [exact Hg|].
    unfold create_state_space_objects. rewrite E1. cbn [bind].
    unfold construct_covariates. rewrite (mapM_Ok _ cov_of) by (intros; apply cov_ok; assumption).
    cbn [bind]. unfold create_child_indexes.
    rewrite (mapM_Ok _ child_row) by (intros; apply child_row_ok; assumption). reflexivity.
  Qed.
End Objects.

Open Scope R_scope.
Lemma cov_of_R (sp : model_spec R) p e l t a m : in_space sp p e l t a m ->
  construct_covariates_row sp [p; e; l; t; a; m]
  = Ok (mkCov (bin_fun a) (partner_wage sp p e m) (equivalence a m)
          (if (a =? -1)%Z then 0 else child_benefits sp)).
Proof.
  intros (_ & _ & _ & _ & Ha & _). unfold construct_covariates_row, col.
  cbn [nth AGE_YOUNGEST_CHILD PARTNER PERIOD EDUC_LEVEL]. rewrite cut_bin by assumption.
  unfold create_equivalence_scale, partner_wage, equivalence. rewrite !nlit_R, nsq_R.
  change (hours_of 2) with 38. rn.
  destruct (a =? -1)%Z, (m =? 1)%Z; cbn; do 2 f_equal; ring.
Qed.

Open Scope Z_scope.
(** ** reshape into periods *)
Lemma nth_error_skip {X} (l : list X) n k : nth_error (skipn n l) k = nth_error l (n + k).
Proof.
  revert l; induction n as [|n IH]; intros l; [reflexivity|].
  destruct l as [|x l]; [destruct k; reflexivity|]. apply IH.
Qed.
Lemma zat_skipn {X} (l : list X) n i : 0 <= i -> zat (skipn n l) i = zat l (Z.of_nat n + i).
Proof.
  intros Hi. unfold zat. replace (i <? 0) with false by lia.
  replace (Z.of_nat n + i <? 0) with false by (symmetry; apply Z.ltb_ge; lia).
  rewrite nth_error_skip. f_equal. lia.
Qed.
Lemma zat_firstn {X} (l : list X) n i : i < Z.of_nat n -> zat (firstn n l) i = zat l i.
Proof.
  intros Hi. unfold zat. destruct (i <? 0) eqn:E; [reflexivity|].
  revert l i Hi E; induction n as [|n IH]; intros l i Hi E; [lia|].
  destruct l as [|x l]; [destruct (Z.to_nat i); reflexivity|].
  destruct (Z.to_nat i) as [|k] eqn:Ek; [reflexivity|]. cbn.
  specialize (IH l (Z.of_nat k)). rewrite Nat2Z.id in IH. apply IH; [lia|apply of_nat_ltb0].
Qed.
Lemma zat_firstn_none {X} (l : list X) n i : Z.of_nat n <= i -> zat (firstn n l) i = None.
Proof.
  intros Hi. destruct (zat (firstn n l) i) eqn:E; [|reflexivity]. apply zat_some in E.
  unfold zlen in E. rewrite firstn_length in E. lia.
Qed.

Lemma chunks_length {X} k n (l : list X) : List.length (chunks k n l) = k.
Proof. revert l; induction k as [|k IH]; intros l; simpl; auto. Qed.

Lemma chunks_at {X} k n (l : list X) p i : (p < k)%nat -> 0 <= i < Z.of_nat n ->
  zat (nth p (chunks k n l) []) i = zat l (Z.of_nat p * Z.of_nat n + i).
Proof.
  revert l p; induction k as [|k IH]; intros l p Hp Hi; [lia|]. cbn [chunks].
  destruct p as [|p].
  - cbn [nth]. rewrite zat_firstn by lia. f_equal.
  - cbn [nth]. rewrite IH by lia. rewrite zat_skipn by nia. f_equal. lia.
Qed.
Lemma chunks_zlen {X} k n (l : list X) p : (p < k)%nat -> List.length l = (k * n)%nat ->
  List.length (nth p (chunks k n l) []) = n.
Proof.
  revert l p; induction k as [|k IH]; intros l p Hp Hl; [lia|]. cbn [chunks]. simpl in Hl. destruct p as [|p]; cbn [nth].
  - rewrite firstn_length. nia.
  - apply IH; [lia|]. rewrite skipn_length. lia.
Qed.

Section Public.
  Context {T : Type} {NT : Num T}.
  Variable sp : model_spec T.
  Hypothesis Hsz : sizes_ok sp.

  Lemma ss_total : exists ss, create_state_space_objects sp = Ok ss.
  Proof. destruct (state_space_objects sp Hsz) as (ix & _ & _ & ->). eauto. Qed.

  Variable ss : state_space T.
  Hypothesis Hss : create_state_space_objects sp = Ok ss.

  Lemma ss_inv : ss_states ss = states_list sp /\
    (forall p e l t a m, in_space sp p e l t a m ->
       ix_get (ss_indexer ss) (p, e, l, t, a, m) = Ok (row_number sp p e l t a m)) /\
    ss_covariates ss = map (cov_of sp) (states_list sp) /\
    ss_child_age_update_rule ss = map (child_age_update sp) (states_list sp) /\
    ss_child_state_indexes ss = map (child_row sp) (states_list sp) /\
    ix_shape (ss_indexer ss) = shape sp.
  Proof.
    destruct (state_space_objects sp Hsz) as (ix & Hs & Hg & E). rewrite E in Hss.
    injection Hss as <-. cbn. repeat split; assumption.
  Qed.

  Lemma ss_lookup p e l t a m : in_space sp p e l t a m ->
    exists i, ix_get (ss_indexer ss) (p, e, l, t, a, m) = Ok i /\ 0 <= i < zlen (ss_states ss) /\
      np_get (ss_states ss) i = Ok [p; e; l; t; a; m] /\ i <> MISSING_INT.
  Proof.
    intros H. destruct ss_inv as (-> & Hg & _). exists (row_number sp p e l t a m).
    pose proof (states_at sp Hsz _ _ _ _ _ _ H) as Ha. pose proof (zat_some _ _ _ Ha).
    repeat split; try lia; [apply Hg; assumption|apply np_get_zat; assumption|unfold MISSING_INT; lia].
  Qed.

  Lemma ss_rows i r : 0 <= i -> np_get (ss_states ss) i = Ok r ->
    exists p e l t a m, in_space sp p e l t a m /\ r = [p; e; l; t; a; m] /\
      ix_get (ss_indexer ss) (p, e, l, t, a, m) = Ok i.
  Proof.
    intros Hi H. destruct ss_inv as (Es & Hg & _). rewrite Es in H. apply np_get_zat_inv in H; [|assumption].
    destruct (states_at_inv sp Hsz _ _ H) as (p & e & l & t & a & m & Hin & -> & ->).
    exists p, e, l, t, a, m. repeat split; try apply Hin. apply Hg. assumption.
  Qed.

  Lemma ss_nodup : NoDup (ss_states ss).
  Proof. destruct ss_inv as (-> & _). apply states_NoDup. assumption. Qed.

  Lemma ss_len : zlen (ss_states ss) = num_periods sp * states_per_period sp.
  Proof. destruct ss_inv as (-> & _). apply states_length. assumption. Qed.

  Lemma row_number_period p e l t a m : in_space sp p e l t a m ->
    p * states_per_period sp <= row_number sp p e l t a m < (p + 1) * states_per_period sp.
  Proof.
    intros (Hp & He & Hl & Ht & Ha & Hm). unfold row_number, pos5, states_per_period.
    assert (B1 : 0 <= m * (child_age_max sp + 2) + (a + 1) < 2 * (child_age_max sp + 2)) by nia.
    assert (B2 : 0 <= t * (2 * (child_age_max sp + 2)) + (m * (child_age_max sp + 2) + (a + 1))
                 < num_types sp * (2 * (child_age_max sp + 2))) by nia.
    assert (B3 : 0 <= e * (num_types sp * (2 * (child_age_max sp + 2)))
                 + (t * (2 * (child_age_max sp + 2)) + (m * (child_age_max sp + 2) + (a + 1)))
                 < num_educ_levels sp * (num_types sp * (2 * (child_age_max sp + 2)))) by nia.
    split; nia.
  Qed.

  Lemma ss_period i r : 0 <= i -> np_get (ss_states ss) i = Ok r ->
    col PERIOD r * states_per_period sp <= i < (col PERIOD r + 1) * states_per_period sp.
  Proof.
    intros Hi H. destruct ss_inv as (Es & _). rewrite Es in H. apply np_get_zat_inv in H; [|assumption].
    destruct (states_at_inv sp Hsz _ _ H) as (p & e & l & t & a & m & Hin & -> & ->).
    change (col PERIOD [p; e; l; t; a; m]) with p. apply row_number_period. assumption.
  Qed.

  Lemma ss_chunks p : 0 <= p < num_periods sp ->
    let c := nth (Z.to_nat p)
               (chunks (Z.to_nat (num_periods sp)) (Z.to_nat (states_per_period sp)) (ss_states ss)) [] in
    zlen c = states_per_period sp /\
    (forall r, In r c <-> In r (ss_states ss) /\ col PERIOD r = p).
  Proof.
    intros Hp c. pose proof ss_len as Hl.
    assert (HN : 0 <= states_per_period sp).
    { destruct Hsz as (_ & H1 & H2 & H3). unfold states_per_period. nia. }
    assert (Hc : List.length c = Z.to_nat (states_per_period sp)).
    { apply chunks_zlen; [lia|]. unfold zlen in Hl. nia. }
    split; [unfold zlen; lia|]. intros r. split.
    - intros H. apply in_zat in H. destruct H as [i H]. pose proof (zat_some _ _ _ H) as Hi.
      unfold zlen in Hi. rewrite Hc in Hi. unfold c in H.
      rewrite chunks_at in H by lia. split; [eapply zat_in; eauto|].
      pose proof (zat_some _ _ _ H) as Hj.
      apply np_get_zat in H. apply ss_period in H; [|lia]. nia.
    - intros [Hin Hper]. apply in_zat in Hin. destruct Hin as [i Hi].
      pose proof (zat_some _ _ _ Hi). pose proof (np_get_zat _ _ _ Hi) as Hg. apply ss_period in Hg; [|lia].
      rewrite Hper in Hg. apply zat_in with (i := i - p * states_per_period sp). unfold c.
      rewrite chunks_at by lia. rewrite <- Hi. f_equal. nia.
  Qed.

  Lemma ss_children i p e l t a m : in_space sp p e l t a m ->
    ix_get (ss_indexer ss) (p, e, l, t, a, m) = Ok i ->
    exists ll, np_get (ss_child_state_indexes ss) i = Ok ll /\
    (p = num_periods sp - 1 -> forall c b m', 0 <= c < 3 -> 0 <= b < 2 -> 0 <= m' < 2 ->
       entry ll c b m' = Ok MISSING_INT) /\
    (p < num_periods sp - 1 -> forall c b m', 0 <= c < 3 -> 0 <= b < 2 -> 0 <= m' < 2 ->
       (b = 1 -> 0 <= child_age_max sp) ->
       exists j, entry ll c b m' = Ok j /\
         np_get (ss_states ss) j = Ok [p + 1; e; c; t; if b =? 1 then 0 else aged sp a; m'] /\
         ix_get (ss_indexer ss) (p + 1, e, c, t, if b =? 1 then 0 else aged sp a, m') = Ok j /\
         0 <= j - (p + 1) * states_per_period sp < states_per_period sp).
  Proof.
    intros Hin Hix. destruct ss_inv as (Es & Hg & _ & _ & Ec & _).
    rewrite Hg in Hix by assumption. injection Hix as <-.
    pose proof (states_at sp Hsz _ _ _ _ _ _ Hin) as Ha.
    exists (child_row sp [p; e; l; t; a; m]). split.
    { rewrite Ec. apply np_get_zat. rewrite zat_map, Ha. reflexivity. }
    unfold child_row, col. cbn [nth PERIOD EDUC_LEVEL TYPE AGE_YOUNGEST_CHILD].
    split.
    - intros -> c b m' Hc Hb Hm. replace (num_periods sp - 1 <? num_periods sp - 1) with false by lia.
      assert (Hc' : c = 0 \/ c = 1 \/ c = 2) by lia. assert (Hb' : b = 0 \/ b = 1) by lia.
      assert (Hm' : m' = 0 \/ m' = 1) by lia.
      destruct Hc' as [->|[->| ->]], Hb' as [->| ->], Hm' as [->| ->]; reflexivity.
    - intros Hp c b m' Hc Hb Hm HA. replace (p <? num_periods sp - 1) with true by lia.
      set (a' := if b =? 1 then 0 else aged sp a).
      exists (row_number sp (p + 1) e c t a' m').
      assert (Hin' : in_space sp (p + 1) e c t a' m').
      { pose proof Hin as (Hp0 & He & Hl & Ht & Hage & Hm0). pose proof (aged_range sp a Hage).
        unfold a'. destruct (b =? 1) eqn:Eb; unfold in_space; lia. }
      split; [|split; [rewrite Es; apply np_get_zat, states_at; assumption
                      |split; [apply Hg; assumption|]]].
      + assert (Hc' : c = 0 \/ c = 1 \/ c = 2) by lia.
        assert (Hb' : b = 0 \/ b = 1) by lia. assert (Hm' : m' = 0 \/ m' = 1) by lia.
        unfold a', children_of. unfold newborn. change (range NUM_CHOICES) with [0; 1; 2].
        destruct Hb' as [->| ->]; cbn [Z.eqb Pos.eqb].
        * destruct Hc' as [->|[->| ->]], Hm' as [->| ->]; reflexivity.
        * replace (child_age_max sp <? 0) with false by lia.
          destruct Hc' as [->|[->| ->]], Hm' as [->| ->]; reflexivity.
      + pose proof (row_number_period _ _ _ _ _ _ Hin'). lia.
  Qed.

  Lemma ss_rule i p e l t a m : in_space sp p e l t a m ->
    ix_get (ss_indexer ss) (p, e, l, t, a, m) = Ok i ->
    np_get (ss_child_age_update_rule ss) i = Ok (aged sp a) /\ -1 <= aged sp a <= child_age_max sp.
  Proof.
    intros Hin Hix. destruct ss_inv as (Es & Hg & _ & Er & _).
    rewrite Hg in Hix by assumption. injection Hix as <-.
    pose proof (states_at sp Hsz _ _ _ _ _ _ Hin) as Ha. split.
    - rewrite Er. apply np_get_zat. rewrite zat_map, Ha. cbn [option_map].
      rewrite update_aged by assumption. reflexivity.
    - apply aged_range. apply Hin.
  Qed.
End Public.

Lemma ss_cov (sp : model_spec R) ss i p e l t a m :
  sizes_ok sp -> create_state_space_objects sp = Ok ss -> in_space sp p e l t a m ->
  ix_get (ss_indexer ss) (p, e, l, t, a, m) = Ok i ->
  exists c, np_get (ss_covariates ss) i = Ok c /\
    bin_of a (cov_bin c) /\ cov_male_wage c = partner_wage sp p e m /\
    cov_equiv c = equivalence a m /\ cov_child_ben c = (if a =? -1 then 0%R else child_benefits sp).
Proof.
  intros Hsz Hss Hin Hix. destruct (ss_inv sp Hsz ss Hss) as (Es & Hg & Ec & _).
  rewrite Hg in Hix by assumption. injection Hix as <-.
  pose proof (states_at sp Hsz _ _ _ _ _ _ Hin) as Ha.
  eexists. split; [rewrite Ec; apply np_get_zat; rewrite zat_map, Ha; reflexivity|].
  unfold cov_of. rewrite (cov_of_R sp p e l t a m Hin). cbn.
  repeat split. apply bin_fun_spec. apply Hin.
Qed.

Lemma partner_wage_sign (sp : model_spec R) p e m : (m = 0 \/ m = 1)%Z ->
  (m = 1%Z <-> (0 < partner_wage sp p e m)%R) /\ (m = 0%Z <-> partner_wage sp p e m = 0%R).
Proof.
  intros [-> | ->]; unfold partner_wage; cbn [Z.eqb Pos.eqb].
  - repeat split; intros; try reflexivity; try discriminate; lra.
  - match goal with |- context [exp ?x] => pose proof (exp_pos x) end.
    repeat split; intros; try reflexivity; try discriminate; lra.
Qed.
