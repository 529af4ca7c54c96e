(** Lemmas about M_Numpy.v: the sampling algorithms of numpy meet the contract of S_Rng.v. *)
From Coq Require Import Reals Lra Lia ZArith List Arith Bool.
From Verif Require Import Base Num M_Exog M_Numpy S_Rng S_Numpy L_Num L_Interp.
Import ListNotations.
Open Scope R_scope.

(** ** The twister yields numbers in [0, 1) *)
Lemma w32_bound x : (0 <= w32 x < 4294967296)%Z.
Proof.
  unfold w32. change 4294967295%Z with (Z.ones 32). rewrite Z.land_ones by lia. change 4294967296%Z with (2 ^ 32)%Z.
  apply Z.mod_pos_bound. reflexivity.
Qed.
Lemma mt_next_bound w : (0 <= fst (mt_next w) < 4294967296)%Z.
Proof. apply w32_bound. Qed.
Lemma mt_unit : unit_source mt_source.
Proof.
  intros w. change (src_next mt_source w) with (mt_double w). unfold mt_double.
  pose proof (mt_next_bound w) as Ha. destruct (mt_next w) as [a w1]. pose proof (mt_next_bound w1) as Hb. destruct (mt_next w1) as [b w2].
  cbn [fst] in *. rn. rewrite !Z.shiftr_div_pow2 by lia.
  assert (H1 : (0 <= a / 2 ^ 5 <= 134217727)%Z).
  { split; [apply Z.div_pos; [lia|reflexivity]|]. change (2 ^ 5)%Z with 32%Z. apply Z.lt_succ_r. apply Z.div_lt_upper_bound; lia. }
  assert (H2 : (0 <= b / 2 ^ 6 <= 67108863)%Z).
  { split; [apply Z.div_pos; [lia|reflexivity]|]. change (2 ^ 6)%Z with 64%Z. apply Z.lt_succ_r. apply Z.div_lt_upper_bound; lia. }
  destruct H1 as [H1a H1b], H2 as [H2a H2b]. apply IZR_le in H1a, H1b, H2a, H2b.
  split.
  - apply Rmult_le_pos; [|left; apply Rinv_0_lt_compat; lra]. apply Rplus_le_le_0_compat; [apply Rmult_le_pos; lra|lra].
  - apply Rmult_lt_reg_r with 9007199254740992; [lra|]. unfold Rdiv. rewrite Rmult_assoc, Rinv_l by lra. lra.
Qed.

Lemma mt_bits w : let a := fst (mt_next w) in let b := fst (mt_next (snd (mt_next w))) in
  exists k, (0 <= k < 2 ^ 53)%Z /\ fst (src_next (T := R) mt_source w) = IZR k / IZR (2 ^ 53) /\
    (k / 2 ^ 26 = a / 2 ^ 5)%Z /\ (k mod 2 ^ 26 = b / 2 ^ 6)%Z /\
    snd (src_next (T := R) mt_source w) = snd (mt_next (snd (mt_next w))).
Proof.
  change (src_next mt_source w) with (mt_double (T := R) w). unfold mt_double.
  pose proof (mt_next_bound w) as Ha. destruct (mt_next w) as [a w1]. cbn [fst snd]. pose proof (mt_next_bound w1) as Hb. destruct (mt_next w1) as [b w2].
  cbn [fst snd] in *. rn. rewrite !Z.shiftr_div_pow2 by lia.
  assert (H1 : (0 <= a / 2 ^ 5 < 134217728)%Z) by (split; [apply Z.div_pos; lia|apply Z.div_lt_upper_bound; lia]).
  assert (H2 : (0 <= b / 2 ^ 6 < 67108864)%Z) by (split; [apply Z.div_pos; lia|apply Z.div_lt_upper_bound; lia]).
  set (x := (a / 2 ^ 5)%Z) in *. set (y := (b / 2 ^ 6)%Z) in *. exists (x * 2 ^ 26 + y)%Z. change (2 ^ 53)%Z with 9007199254740992%Z. change (2 ^ 26)%Z with 67108864%Z.
  split; [lia|]. split; [rewrite plus_IZR, mult_IZR; reflexivity|].
  split; [rewrite Z.div_add_l by lia; rewrite Z.div_small by lia; lia|].
  split; [rewrite Z.add_comm, Z.mod_add by lia; apply Z.mod_small; lia|reflexivity].
Qed.

Section Sampling.
  Context (src : random_source R).
  Hypothesis U : unit_source src.

  Lemma uniforms_spec n : forall g, fst (uniforms src n g) = map (rand src g) (seq 0 n) /\ snd (uniforms src n g) = skip src n g.
  Proof.
    induction n as [|n IH]; intros g; cbn [uniforms]; [split; reflexivity|].
    destruct (src_next src g) as [u g1] eqn:E. specialize (IH g1). destruct (uniforms src n g1) as [l g2]. cbn [fst snd] in *.
    destruct IH as [-> ->]. cbn [skip]. rewrite E. cbn [snd]. split; [|reflexivity].
    cbn [seq map]. f_equal; [unfold rand; cbn [skip]; rewrite E; reflexivity|].
    rewrite <- seq_shift, map_map. apply map_ext. intros k. unfold rand. cbn [skip]. rewrite E. reflexivity.
  Qed.
  Lemma rand_unit g k : 0 <= rand src g k < 1.
  Proof. apply U. Qed.

  (** *** choice *)
  Lemma kahan_R p : kahan_sum p = Rsum p.
  Proof.
    destruct p as [|x xs]; [reflexivity|]. cbn [kahan_sum Rsum].
    assert (H : forall xs s, fold_left (fun '(sum, c) x => let y := (x - c)%num in let t := (sum + y)%num in (t, (t - sum - y)%num)) xs (s, 0) = (s + Rsum xs, 0)).
    { clear. induction xs as [|x xs IH]; intros s; cbn [fold_left Rsum]; [rewrite Rplus_0_r; reflexivity|].
      cbv zeta. rn. replace (s + (x - 0)) with (s + x) by ring. replace (s + x - s - (x - 0)) with 0 by ring. rewrite IH. f_equal. ring. }
    change (#0)%num with 0. rewrite H. reflexivity.
  Qed.

  Lemma mass_all p n : (List.length p <= n)%nat -> mass p n = Rsum p.
  Proof. revert n. induction p as [|x p IH]; intros [|n] H; cbn in *; try reflexivity; [lia|]. rewrite IH by lia. reflexivity. Qed.
  Lemma mass_S p i x : nth_error p i = Some x -> mass p (S i) = mass p i + x.
  Proof.
    revert i. induction p as [|y p IH]; intros [|i] H; try discriminate.
    - cbn in H. injection H as ->. cbn. destruct p; cbn; ring.
    - cbn [nth_error] in H. cbn [mass]. change (mass p (S i)) with (mass p (S i)). rewrite (IH i H). ring.
  Qed.

  Lemma cumsum_from_mass p a : cumsum_from a p = map (fun i => a + mass p (S i)) (seq 0 (List.length p)).
  Proof.
    revert a. induction p as [|x p IH]; intros a; [reflexivity|]. cbn [cumsum_from List.length seq map]. rn. f_equal.
    - cbn [mass]. destruct p; cbn; ring.
    - rewrite IH, <- seq_shift, map_map. apply map_ext. intros i. cbn [mass]. ring.
  Qed.
  Lemma cumsum_mass p : cumsum p = map (fun i => mass p (S i)) (seq 0 (List.length p)).
  Proof.
    destruct p as [|x p]; [reflexivity|]. cbn [cumsum List.length seq map]. f_equal; [cbn; destruct p; cbn; ring|].
    rewrite cumsum_from_mass, <- seq_shift, map_map. reflexivity.
  Qed.
  Lemma cumsum_last p : p <> [] -> last (cumsum p) 0 = Rsum p.
  Proof.
    intros H. rewrite cumsum_mass. destruct p as [|x p]; [congruence|]. cbn [List.length]. rewrite seq_S, map_app. cbn [map]. rewrite last_last.
    cbn [plus]. apply mass_all. cbn. lia.
  Qed.

  (** searching in a table given by a function *)
  Lemma searchsorted_map f u n : forall s, exists k, searchsorted_right (map f (seq s n)) u = Z.of_nat k /\ (k <= n)%nat /\
    (forall j, (j < k)%nat -> f (s + j)%nat <= u) /\ ((k < n)%nat -> u < f (s + k)%nat).
  Proof.
    induction n as [|n IH]; intros s; cbn [seq map searchsorted_right].
    - exists 0%nat. split; [reflexivity|]. repeat split; lia.
    - rn. destruct (Rltb_spec u (f s)) as [H|H].
      + exists 0%nat. split; [reflexivity|]. split; [lia|]. split; [lia|]. intros _. rewrite Nat.add_0_r. exact H.
      + destruct (IH (S s)) as (k & -> & Hk & Hb & Ha). exists (S k). split; [lia|]. split; [lia|]. split.
        * intros [|j] Hj; [rewrite Nat.add_0_r; exact H|]. replace (s + S j)%nat with (S s + j)%nat by lia. apply Hb. lia.
        * intros Hkn. replace (s + S k)%nat with (S s + k)%nat by lia. apply Ha. lia.
  Qed.

  Definition normed (p : list R) : list R := map (fun x => x / Rsum p) p.
  Lemma mass_normed p c i : mass (map (fun x => x / c) p) i = mass p i / c.
  Proof.
    revert i. induction p as [|x p IH]; intros [|i]; cbn [map mass]; unfold Rdiv in *; try (rewrite Rmult_0_l; reflexivity).
    rewrite IH. ring.
  Qed.
  Lemma mass_le p i j : (forall x, In x p -> 0 <= x) -> (i <= j)%nat -> mass p i <= mass p j.
  Proof.
    revert i j. induction p as [|x p IH]; intros i j H Hij; [destruct i, j; cbn; lra|].
    destruct i as [|i], j as [|j]; cbn [mass]; try lra; try lia.
    - pose proof (H x (or_introl eq_refl)). assert (mass p 0 <= mass p j) by (apply IH; [intros; apply H; right; assumption|lia]).
      destruct p; cbn in *; lra.
    - apply Rplus_le_compat_l. apply IH; [intros; apply H; right; assumption|lia].
  Qed.

  (** one draw *)
  Lemma search_mass p u : p <> [] -> 0 < Rsum p -> 0 <= u < 1 ->
    let c := cumsum p in
    exists k, searchsorted_right (map (fun x => x / last c 0) c) u = Z.of_nat k /\ (k < List.length p)%nat /\
      mass (normed p) k <= u < mass (normed p) (S k).
  Proof.
    intros Hp Hpos Hu c. unfold c. rewrite (cumsum_last p Hp), cumsum_mass, map_map.
    destruct (searchsorted_map (fun i => mass p (S i) / Rsum p) u (List.length p) 0) as (k & -> & Hk & Hb & Ha).
    assert (Hk' : (k < List.length p)%nat).
    { destruct (Nat.eq_dec k (List.length p)) as [E|]; [exfalso|lia]. destruct p as [|x p]; [congruence|].
      cbn [List.length] in E. specialize (Hb (List.length p)). cbn [plus] in Hb.
      rewrite mass_all in Hb by (cbn; lia). unfold Rdiv in Hb. rewrite Rinv_r in Hb by lra. assert (1 <= u) by (apply Hb; lia). lra. }
    exists k. split; [reflexivity|]. split; [exact Hk'|]. unfold normed. rewrite !mass_normed. split; [|exact (Ha Hk')].
    destruct k as [|k]; [|exact (Hb k ltac:(lia))]. destruct p; cbn; unfold Rdiv; rewrite Rmult_0_l; lra.
  Qed.

  Lemma choice_spec g vals n p l g' : np_choice src g vals n p = Ok (l, g') ->
    (n = 0%nat \/ 0 < Rsum p) /\ List.length p = List.length vals /\ (forall x, In x p -> 0 <= x) /\ g' = skip src n g /\
    List.length l = n /\ forall k, (k < n)%nat -> exists x, nth_error l k = Some x /\ stands_for vals (normed p) (rand src g k) x.
  Proof.
    unfold np_choice. destruct ((zlen vals =? 0)%Z && negb (Nat.eqb n 0)) eqn:E0; [discriminate|].
    destruct (Z.eqb_spec (zlen p) (zlen vals)) as [Hl|]; [|discriminate]. cbn [negb].
    destruct (existsb (fun x => (x <? #0)%num) p) eqn:E1; [discriminate|].
    destruct (nlit 1 67108864 <? nabs (kahan_sum p - #1))%num eqn:E2; [discriminate|].
    pose proof (uniforms_spec n g) as [Hu Hg]. destruct (uniforms src n g) as [us g1]. cbn [fst snd] in *. subst us g1.
    destruct (mapM _ _) as [l0|] eqn:E3; [|discriminate]. cbn [bind]. intros H. injection H as <- <-.
    assert (Hl' : List.length p = List.length vals) by (unfold zlen in Hl; lia).
    assert (Hp : forall x, In x p -> 0 <= x).
    { intros x Hx. destruct (Rle_dec 0 x) as [|Hn]; [assumption|exfalso]. apply (eq_true_false_abs _ (proj2 (existsb_exists _ p)
        (ex_intro _ x (conj Hx (proj2 (Rltb_true x 0) (Rnot_le_lt _ _ Hn))))) E1). }
    assert (Hpos : n = 0%nat \/ 0 < Rsum p).
    { right. rewrite kahan_R in E2. unfold nabs in E2. rewrite nlit_R in E2. rn. destruct (Rltb_spec (Rsum p - 1) 0); apply Rltb_false in E2; lra. }
    split; [exact Hpos|]. split; [exact Hl'|]. split; [exact Hp|]. split; [reflexivity|].
    pose proof (mapM_length _ _ _ E3) as L. rewrite map_length, seq_length in L. split; [exact L|].
    intros k Hk. destruct Hpos as [->|Hpos]; [lia|].
    assert (Hne : p <> []). { intros ->. cbn in Hpos. lra. }
    apply mapM_inv in E3. clear -E3 Hk Hne Hpos Hl' L U. rewrite <- L in Hk.
    destruct (nth_error l0 k) as [x|] eqn:Ex; [|apply nth_error_None in Ex; lia]. exists x. split; [reflexivity|].
    assert (Hx : forall us l0 k x, Forall2 (fun u y => np_get vals (searchsorted_right (map (fun c => (c / last (cumsum p) #0)%num) (cumsum p)) u) = Ok y) us l0 ->
      nth_error l0 k = Some x -> exists u, nth_error us k = Some u /\ np_get vals (searchsorted_right (map (fun c => (c / last (cumsum p) #0)%num) (cumsum p)) u) = Ok x).
    { clear. intros us l0. revert us. induction l0 as [|y l0 IH]; intros us [|k] x HF Hk; inversion HF; subst; try discriminate.
      - cbn in *. injection Hk as ->. eexists. split; [reflexivity|assumption].
      - cbn in *. eapply IH; eassumption. }
    destruct (Hx _ _ _ _ E3 Ex) as (u & Hu & Hget). rewrite nth_error_map in Hu.
    destruct (nth_error (seq 0 n) k) as [k'|] eqn:Ek; [|discriminate]. cbn in Hu. injection Hu as <-.
    assert (k' = k).
    { pose proof (nth_error_nth _ _ 0%nat Ek) as E. rewrite seq_nth in E by lia. cbn in E. congruence. }
    subst k'. destruct (search_mass p (rand src g k) Hne Hpos (rand_unit g k)) as (i & Hi & Hil & Hm). cbv zeta in Hi.
    rn. change (#0)%num with 0 in Hget. rewrite Hi in Hget. exists i. split; [|exact Hm].
    unfold np_get, np_norm in Hget. unfold zlen in Hget.
    destruct ((0 <=? Z.of_nat i) && (Z.of_nat i <? Z.of_nat (List.length vals)))%Z eqn:Eb.
    - rewrite Nat2Z.id in Hget. destruct (nth_error vals i); [|discriminate]. congruence.
    - exfalso. apply andb_false_iff in Eb. rewrite Z.leb_gt, Z.ltb_ge in Eb. lia.
  Qed.

  (** every number stands for exactly one position *)
  Lemma mass_cover p u : (forall x, In x p -> 0 <= x) -> Rsum p = 1 -> 0 <= u < 1 ->
    exists! i, (i < List.length p)%nat /\ mass p i <= u < mass p (S i).
  Proof.
    intros Hp Hs Hu. assert (Hne : p <> []). { intros ->. cbn in Hs. lra. }
    destruct (search_mass p u Hne ltac:(lra) Hu) as (k & _ & Hk & Hm).
    assert (En : normed p = p).
    { unfold normed. rewrite Hs. rewrite <- (map_id p) at 2. apply map_ext. intros x. unfold Rdiv. rewrite Rinv_1. ring. }
    rewrite En in Hm. exists k. split; [split; assumption|]. intros j [Hj Hmj].
    destruct (lt_eq_lt_dec k j) as [[H|H]|H]; [exfalso|exact H|exfalso].
    - pose proof (mass_le p (S k) j Hp ltac:(lia)). lra.
    - pose proof (mass_le p (S j) k Hp ltac:(lia)). lra.
  Qed.

  Lemma choice_succeeds g vals n p : List.length p = List.length vals -> (forall x, In x p -> 0 <= x) -> Rsum p = 1 ->
    exists r, np_choice src g vals n p = Ok r.
  Proof.
    intros Hl Hp Hs. unfold np_choice.
    assert (Hne : p <> []). { intros ->. cbn in Hs. lra. }
    assert (Hz : (zlen vals =? 0)%Z = false). { apply Z.eqb_neq. unfold zlen. destruct p; [congruence|]. destruct vals; [discriminate|]. cbn. lia. }
    rewrite Hz. cbn [andb]. rewrite (proj2 (Z.eqb_eq (zlen p) (zlen vals))) by (unfold zlen; lia). cbn [negb].
    destruct (existsb (fun x => (x <? #0)%num) p) eqn:E1.
    { exfalso. apply existsb_exists in E1. destruct E1 as (x & Hx & E). rn. apply Rltb_true in E. specialize (Hp x Hx). lra. }
    rewrite kahan_R, Hs. unfold nabs. rewrite nlit_R. rn.
    destruct (Rltb_spec (1 - 1) 0); [lra|]. destruct (Rltb_spec (1 / 67108864) (1 - 1)); [lra|].
    pose proof (uniforms_spec n g) as [Hu Hg]. destruct (uniforms src n g) as [us g1]. cbn [fst snd] in *. subst us g1.
    match goal with |- context [mapM ?f ?l] => destruct (mapM_total f l) as (ys & ->) end; [|eexists; reflexivity].
    intros u Hu. apply in_map_iff in Hu. destruct Hu as (k & <- & _).
    destruct (search_mass p (rand src g k) Hne ltac:(lra) (rand_unit g k)) as (i & Hi & Hil & _). cbv zeta in Hi.
    change (#0)%num with 0. rewrite Hi. exists (nth i vals 0%Z). rewrite (np_get_nth 0%Z); [rewrite Nat2Z.id; reflexivity|unfold zlen; lia].
  Qed.

  (** *** binomial *)
  Lemma inv_bound_R p : 0 <= p <= 1 -> inv_bound sqrt p = 1%Z.
  Proof.
    intros Hp. unfold inv_bound. rn. assert (1 <= sqrt (p * (1 - p) + 1)).
    { rewrite <- sqrt_1 at 1. apply sqrt_le_1_alt. assert (0 <= p * (1 - p)) by (apply Rmult_le_pos; lra). lra. }
    destruct (Rltb_spec 1 (p + 10 * sqrt (p * (1 - p) + 1))); [|lra]. unfold ntrunc. rn. destruct (Rleb_spec 0 1); [|lra].
    apply (L_Interp.Int_part_spec 1 1). lra.
  Qed.

  Lemma inv_stop fuel p X u px g : u <= px -> inv_loop src sqrt fuel p X u px g = Ok (X, g).
  Proof. intros H. destruct fuel; cbn [inv_loop]; rn; (destruct (Rltb_spec px u); [lra|reflexivity]). Qed.
  Lemma inv_step fuel p u g : 0 <= p < 1 -> 1 - p < u < 1 -> inv_loop src sqrt (S fuel) p 0 u (1 - p) g = Ok (1%Z, g).
  Proof.
    intros Hp Hu. cbn [inv_loop]. rn. rewrite inv_bound_R by lra. destruct (Rltb_spec (1 - p) u) as [H|H]; [|lra].
    change (1 <? 0 + 1)%Z with false. cbv iota. change (1 - (0 + 1) + 1)%Z with 1%Z. change (0 + 1)%Z with 1%Z.
    replace (1 * p * (1 - p) / (1 * (1 - p))) with p by (field; lra). apply inv_stop. lra.
  Qed.
  Lemma inversion_spec p g : 0 <= p < 1 ->
    random_binomial_inversion src sqrt p g =
      Ok (if Rltb (1 - p) (rand src g 0) then 1%Z else 0%Z, skip src 1 g).
  Proof.
    intros Hp. unfold random_binomial_inversion. pose proof (U g) as Hu. unfold rand, skip. destruct (src_next src g) as [u g1]. cbn [fst snd] in *.
    unfold inversion_fuel. rn. assert (E : exp (1 * ln (1 - p)) = 1 - p) by (rewrite Rmult_1_l; apply exp_ln; lra). rewrite E.
    destruct (Rltb_spec (1 - p) u) as [H|H]; [apply inv_step; lra|apply inv_stop; exact H].
  Qed.

  Definition outcome (p u : R) : Z := if Rle_dec p (1 / 2) then (if Rltb (1 - p) u then 1 else 0)%Z else (if Rltb p u then 0 else 1)%Z.
  Definition used (p : R) : nat := if Req_EM_T p 0 then 0%nat else 1%nat.

  Lemma binomial_spec p g : 0 <= p <= 1 ->
    random_binomial src sqrt p g = Ok (outcome p (rand src g 0), skip src (used p) g).
  Proof.
    intros Hp. unfold random_binomial, used, outcome. rewrite nlit_R. rn. pose proof (rand_unit g 0) as Hu.
    destruct (Req_EM_T p 0) as [->|Hn].
    { destruct (Rleb_spec 0 0); [|lra]. cbn [andb]. destruct (Rle_dec 0 (1 / 2)); [|lra]. destruct (Rltb_spec (1 - 0) (rand src g 0)); [lra|reflexivity]. }
    destruct (Rleb_spec p 0); [lra|]. cbn [andb]. destruct (Rleb_spec p (1 / 2)).
    - rewrite inversion_spec by lra. destruct (Rle_dec p (1 / 2)); [reflexivity|lra].
    - rewrite inversion_spec by lra. cbn [bind fst snd]. replace (1 - (1 - p)) with p by ring. destruct (Rle_dec p (1 / 2)); [lra|].
      destruct (Rltb p (rand src g 0)); reflexivity.
  Qed.

  Fixpoint outcomes (g : src_state src) (ps : list R) : list Z :=
    match ps with [] => [] | p :: ps => outcome p (rand src g 0) :: outcomes (skip src (used p) g) ps end.
  Fixpoint after (g : src_state src) (ps : list R) : src_state src :=
    match ps with [] => g | p :: ps => after (skip src (used p) g) ps end.
  Lemma binomials_spec ps : (forall p, In p ps -> 0 <= p <= 1) -> forall g, binomials src sqrt g ps = Ok (outcomes g ps, after g ps).
  Proof.
    induction ps as [|p ps IH]; intros H g; [reflexivity|]. cbn [binomials]. rewrite binomial_spec by (apply H; left; reflexivity).
    cbn [bind fst snd]. rewrite IH by (intros; apply H; right; assumption). reflexivity.
  Qed.
  Lemma np_binomial_inv g ps l g' : np_binomial src sqrt g ps = Ok (l, g') ->
    (forall p, In p ps -> 0 <= p <= 1) /\ l = outcomes g ps /\ g' = after g ps.
  Proof.
    unfold np_binomial. destruct (existsb _ ps) eqn:E; [discriminate|].
    assert (Hp : forall p, In p ps -> 0 <= p <= 1).
    { intros p Hp. apply Bool.not_true_iff_false in E. rewrite existsb_exists in E.
      destruct (Rleb_spec 0 p) as [H1|H1], (Rleb_spec p 1) as [H2|H2]; try lra; exfalso; apply E; exists p; split; try assumption; rn;
        destruct (Rleb_spec 0 p), (Rleb_spec p 1); try lra; reflexivity. }
    rewrite binomials_spec by exact Hp. intros H. injection H as <- <-. repeat split; try reflexivity; apply Hp; assumption.
  Qed.
  Lemma np_binomial_ok g ps : (forall p, In p ps -> 0 <= p <= 1) -> np_binomial src sqrt g ps = Ok (outcomes g ps, after g ps).
  Proof.
    intros Hp. unfold np_binomial. destruct (existsb _ ps) eqn:E.
    - exfalso. apply existsb_exists in E. destruct E as (p & Hin & E). rn. specialize (Hp p Hin).
      destruct (Rleb_spec 0 p), (Rleb_spec p 1); try lra; discriminate.
    - apply binomials_spec. exact Hp.
  Qed.

  Lemma outcome_success p u : 0 <= p <= 1 -> 0 <= u < 1 -> (outcome p u = 1%Z <-> success p u) /\ (outcome p u = 0%Z \/ outcome p u = 1%Z).
  Proof.
    intros Hp Hu. unfold outcome, success. destruct (Rle_dec p (1 / 2)).
    - destruct (Rltb_spec (1 - p) u); (split; [split; [first [discriminate|intros _; assumption]|intros; first [reflexivity|exfalso; lra]]|auto]).
    - destruct (Rltb_spec p u); (split; [split; [first [discriminate|intros _; assumption]|intros; first [reflexivity|exfalso; lra]]|auto]).
  Qed.
  Lemma outcomes_length ps : forall g, List.length (outcomes g ps) = List.length ps.
  Proof. induction ps as [|p ps IH]; intros g; cbn; [reflexivity|]. rewrite IH. reflexivity. Qed.
  (** every outcome comes from a number of its own, except for impossible events *)
  Definition position (ps : list R) (k : nat) : nat := numbers_used (firstn k ps).
  Lemma skip_skip a b g : skip src a (skip src b g) = skip src (b + a) g.
  Proof. revert g. induction b as [|b IH]; intros g; [reflexivity|]. cbn [skip plus]. apply IH. Qed.
  Lemma outcomes_nth ps : forall g k p, nth_error ps k = Some p ->
    nth_error (outcomes g ps) k = Some (outcome p (rand src g (position ps k))).
  Proof.
    induction ps as [|q ps IH]; intros g [|k] p H; try discriminate.
    - cbn in H. injection H as ->. reflexivity.
    - cbn [nth_error outcomes] in *. rewrite (IH _ _ _ H). do 2 f_equal. unfold rand, position, used. cbn [firstn numbers_used].
      rewrite skip_skip. reflexivity.
  Qed.

  Lemma after_skip ps : forall g, after g ps = skip src (numbers_used ps) g.
  Proof.
    induction ps as [|p ps IH]; intros g; [reflexivity|]. cbn [after numbers_used]. rewrite IH, skip_skip. reflexivity.
  Qed.

  (** *** normal *)
  Lemma gausses_length n : forall g, List.length (fst (gausses src sqrt n g)) = n.
  Proof.
    induction n as [|n IH]; intros g; [reflexivity|]. cbn [gausses]. destruct (legacy_gauss src sqrt g) as [x g1].
    specialize (IH g1). destruct (gausses src sqrt n g1) as [l g2]. cbn in *. lia.
  Qed.
  Lemma chunks_length {A} k n (l : list A) : List.length (chunks k n l) = k.
  Proof. revert l. induction k as [|k IH]; intros l; cbn; [reflexivity|]. rewrite IH. reflexivity. Qed.
  Lemma chunks_cols {A} k n : forall (l : list A), List.length l = (k * n)%nat -> forall r, In r (chunks k n l) -> List.length r = n.
  Proof.
    induction k as [|k IH]; intros l Hl r Hr; [destruct Hr|]. cbn [chunks] in Hr. cbn in Hl. destruct Hr as [<-|Hr].
    - apply firstn_length_le. lia.
    - apply (IH (skipn n l)); [rewrite skipn_length; lia|exact Hr].
  Qed.

  (** ** The contract *)
  Lemma numpy_rng_ok : rng_ok (numpy_rng src sqrt).
  Proof.
    constructor.
    - intros g vals n p l g' H. cbn in H. destruct (np_choice src (fst g) vals n p) as [[l0 g0]|] eqn:E; [|discriminate].
      cbn in H. injection H as <- <-. apply choice_spec in E. apply E.
    - intros g vals n p l g' H x Hx. cbn in H. destruct (np_choice src (fst g) vals n p) as [[l0 g0]|] eqn:E; [|discriminate].
      cbn in H. injection H as <- <-. apply choice_spec in E. destruct E as (_ & _ & _ & _ & Hl & Hs).
      apply In_nth_error in Hx. destruct Hx as [k Hk].
      assert (Hkn : (k < n)%nat). { rewrite <- Hl. apply nth_error_Some. congruence. }
      destruct (Hs k Hkn) as (y & Hy & i & Hi & _). rewrite Hk in Hy. injection Hy as ->. apply (nth_error_In _ _ Hi).
    - intros g vals n p l g' H Hnd i x Hi Hp Hx. cbn in H. destruct (np_choice src (fst g) vals n p) as [[l0 g0]|] eqn:E; [|discriminate].
      cbn in H. injection H as <- <-. apply choice_spec in E. destruct E as (_ & _ & _ & _ & Hl & Hs).
      apply In_nth_error in Hx. destruct Hx as [k Hk].
      assert (Hkn : (k < n)%nat). { rewrite <- Hl. apply nth_error_Some. congruence. }
      destruct (Hs k Hkn) as (y & Hy & j & Hj & Hm). rewrite Hk in Hy. injection Hy as ->.
      assert (i = j). { rewrite NoDup_nth_error in Hnd. apply Hnd; [apply nth_error_Some; congruence|congruence]. } subst j.
      rewrite (mass_S (normed p) i 0) in Hm; [lra|]. unfold normed. rewrite nth_error_map, Hp. cbn. f_equal. unfold Rdiv. apply Rmult_0_l.
    - intros g ps l g' H. cbn in H. destruct (np_binomial src sqrt (fst g) ps) as [[l0 g0]|] eqn:E; [|discriminate].
      cbn in H. injection H as <- <-. apply np_binomial_inv in E. destruct E as (_ & -> & _). apply outcomes_length.
    - intros g ps l g' H x Hx. cbn in H. destruct (np_binomial src sqrt (fst g) ps) as [[l0 g0]|] eqn:E; [|discriminate].
      cbn in H. injection H as <- <-. apply np_binomial_inv in E. destruct E as (Hp & -> & _).
      apply In_nth_error in Hx. destruct Hx as [k Hk].
      destruct (nth_error ps k) as [p|] eqn:Ep.
      + rewrite (outcomes_nth _ _ _ _ Ep) in Hk. injection Hk as <-.
        apply (outcome_success p); [apply Hp; apply (nth_error_In _ _ Ep)|apply rand_unit].
      + apply nth_error_None in Ep. assert (nth_error (outcomes (fst g) ps) k <> None) by congruence.
        apply nth_error_Some in H. rewrite outcomes_length in H. lia.
    - intros g ps l g' k H Hk. cbn in H. destruct (np_binomial src sqrt (fst g) ps) as [[l0 g0]|] eqn:E; [|discriminate].
      cbn in H. injection H as <- <-. apply np_binomial_inv in E. destruct E as (Hp & -> & _).
      rewrite (outcomes_nth _ _ _ _ Hk). f_equal. rn. set (u := rand src (fst g) (position ps k)).
      assert (Hu : 0 <= u < 1) by apply rand_unit. unfold outcome.
      destruct (Rle_dec 0 (1 / 2)); [|lra]. destruct (Rltb_spec (1 - 0) u); [lra|reflexivity].
    - intros g ps l g' k H Hk. cbn in H. destruct (np_binomial src sqrt (fst g) ps) as [[l0 g0]|] eqn:E; [|discriminate].
      cbn in H. injection H as <- <-. apply np_binomial_inv in E. destruct E as (Hp & -> & _).
      rewrite (outcomes_nth _ _ _ _ Hk). f_equal. rn. set (u := rand src (fst g) (position ps k)).
      assert (Hu : 0 <= u < 1) by apply rand_unit. unfold outcome.
      destruct (Rle_dec 1 (1 / 2)); [lra|]. destruct (Rltb_spec 1 u); [lra|reflexivity].
    - intros g n m. cbn. unfold np_normal. destruct (gausses src sqrt (n * m) g). cbn. apply chunks_length.
    - intros g n m r. cbn. unfold np_normal. pose proof (gausses_length (n * m) g) as L. destruct (gausses src sqrt (n * m) g) as [l g1]. cbn in *.
      apply chunks_cols. exact L.
  Qed.

  Lemma numpy_rng_total : rng_total (numpy_rng src sqrt).
  Proof.
    constructor.
    - intros g vals n p Hl Hp Hs. cbn. destruct (choice_succeeds (fst g) vals n p Hl Hp Hs) as (r & ->). eexists. reflexivity.
    - intros g ps Hp. cbn. rewrite np_binomial_ok by exact Hp. eexists. reflexivity.
  Qed.

  (** the numbers of the polar method *)
  Lemma gauss_pair_inside fuel g : inside (rand src g 0) (rand src g 1) ->
    gauss_pair src sqrt (S fuel) g = (polar (rand src g 0) (rand src g 1), skip src 2 g).
  Proof.
    unfold inside, polar. cbv zeta. intros [H1 H2]. cbn [gauss_pair]. unfold rand in *. cbn [skip] in *.
    destruct (src_next src g) as [u1 g1]. cbn [fst snd] in *. destruct (src_next src g1) as [u2 g2]. cbn [fst snd] in *.
    unfold nneg. rn. replace ((2 * u1 - 1) * (2 * u1 - 1) + (2 * u2 - 1) * (2 * u2 - 1)) with ((2 * u1 - 1) ^ 2 + (2 * u2 - 1) ^ 2) by ring.
    set (r := (2 * u1 - 1) ^ 2 + (2 * u2 - 1) ^ 2) in *. destruct (Rleb_spec 1 r); [lra|]. destruct (Rleb_spec r 0); [lra|]. cbn [orb andb].
    replace ((0 - 2) * ln r / r) with (- (2 * ln r) / r) by (field; lra). reflexivity.
  Qed.
  Lemma gauss_pair_outside fuel g : ~ inside (rand src g 0) (rand src g 1) ->
    gauss_pair src sqrt (S fuel) g = gauss_pair src sqrt fuel (skip src 2 g).
  Proof.
    unfold inside. cbv zeta. intros H. cbn [gauss_pair]. unfold rand in *. cbn [skip] in *.
    destruct (src_next src g) as [u1 g1]. cbn [fst snd] in *. destruct (src_next src g1) as [u2 g2]. cbn [fst snd] in *.
    unfold nneg. rn. replace ((2 * u1 - 1) * (2 * u1 - 1) + (2 * u2 - 1) * (2 * u2 - 1)) with ((2 * u1 - 1) ^ 2 + (2 * u2 - 1) ^ 2) by ring.
    assert (Hr : 0 <= (2 * u1 - 1) ^ 2 + (2 * u2 - 1) ^ 2) by (apply Rplus_le_le_0_compat; apply pow2_ge_0).
    set (r := (2 * u1 - 1) ^ 2 + (2 * u2 - 1) ^ 2) in *. destruct (Rleb_spec 1 r); [reflexivity|]. destruct (Rleb_spec r 0); [|exfalso; apply H; lra].
    destruct (Rleb_spec 0 r); [reflexivity|lra].
  Qed.
  Lemma gauss_pair_after k g p g' : polar_after src k g p g' -> forall fuel, (k < fuel)%nat -> gauss_pair src sqrt fuel g = (p, g').
  Proof.
    induction 1 as [g H|k g p g' H _ IH]; intros [|fuel] Hf; try lia; [apply gauss_pair_inside; exact H|].
    rewrite gauss_pair_outside by exact H. apply IH. lia.
  Qed.
  Lemma gausses_normals st l st' : normals src st l st' -> gausses src sqrt (List.length l) st = (l, st').
  Proof.
    induction 1 as [st|s x l st _ IH|k s a b s' l st Hk Hp _ IH]; [reflexivity| |]; cbn [List.length gausses legacy_gauss].
    - rewrite IH. rn. f_equal. f_equal. ring.
    - rewrite (gauss_pair_after k s (a, b) s' Hp gauss_fuel Hk). rewrite IH. rn. f_equal. f_equal. ring.
  Qed.
End Sampling.
