(** The numpy implementation of test_full_solve_continuous.py computes the recursion of the
    economy without shocks, taxes and benefits, and the solver's table is close to it. *)
From Coq Require Import Reals Lra Lia ZArith List Arith.
From Verif Require Import Base Num M_Params M_Experience M_StateSpace M_Solve M_Reference
  L_Num S_Experience L_Experience S_Interp L_Interp S_Tax S_Benefits S_StateSpace L_StateSpace S_Bellman L_Bellman L_Solve
  S_Solver L_Value L_Solver S_Stability L_Mono L_Reform L_Stability S_Reference.
Import ListNotations.
Open Scope R_scope.

Lemma linspace_uniform n : (2 <= n)%Z -> linspace01 n = uniform_grid (Z.to_nat n).
Proof.
  intros Hn. unfold linspace01, uniform_grid. destruct (Z.leb_spec n 1); [lia|].
  replace (seq 0 (Z.to_nat n)) with (seq 0 (Z.to_nat n - 1) ++ [Z.to_nat n - 1]%nat).
  - rewrite map_app. f_equal.
    + unfold range, range2. rewrite map_map. replace (Z.to_nat (n - 1 - 0)) with (Z.to_nat n - 1)%nat by lia.
      apply map_ext_in. intros i Hi. apply in_seq in Hi. rn. rewrite !INR_IZR_INZ. replace (Z.of_nat (Z.to_nat n - 1)) with (n - 1)%Z by lia.
      replace (0 + Z.of_nat i)%Z with (Z.of_nat i) by lia. unfold Rdiv. lra.
    + cbn [map]. f_equal. rn. symmetry. apply Rinv_r. apply not_0_INR. lia.
  - replace (Z.to_nat n) with (S (Z.to_nat n - 1)) at 3 by lia. rewrite seq_S. reflexivity.
Qed.

Lemma np_interp_spec g : forall v x, increasing g -> List.length v = List.length g -> nth 0 g 0 <= x <= nth (List.length g - 1) g 0 ->
  np_interp g v x = interpolate g v x.
Proof.
  induction g as [|x0 g IH]; intros v x Hi Hv Hx; [destruct v; reflexivity|].
  destruct g as [|x1 g]; [destruct v as [|v0 [|]]; reflexivity|].
  destruct v as [|v0 [|v1 v]]; try (cbn in Hv; lia).
  assert (H01 : x0 < x1) by (apply (increasing_head _ _ _ Hi); left; reflexivity).
  assert (Hi' : increasing (x1 :: g)) by (eapply increasing_tail; eauto).
  assert (E : np_interp (x0 :: x1 :: g) (v0 :: v1 :: v) x
    = if Rleb x x0 then v0 else if Rltb x x1 then (v1 - v0) / (x1 - x0) * (x - x0) + v0 else np_interp (x1 :: g) (v1 :: v) x) by reflexivity.
  rewrite E. clear E. change (nth 0 (x0 :: x1 :: g) 0) with x0 in Hx.
  assert (A : x < x1 -> (if Rleb x x0 then v0 else if Rltb x x1 then (v1 - v0) / (x1 - x0) * (x - x0) + v0 else np_interp (x1 :: g) (v1 :: v) x)
    = chord x0 x1 v0 v1 x).
  { intros Hlt. unfold chord. destruct (Rleb_spec x x0); [replace x with x0 by lra; field; lra|]. destruct (Rltb_spec x x1); [field; lra|lra]. }
  assert (B : ~ x < x1 -> (if Rleb x x0 then v0 else if Rltb x x1 then (v1 - v0) / (x1 - x0) * (x - x0) + v0 else np_interp (x1 :: g) (v1 :: v) x)
    = np_interp (x1 :: g) (v1 :: v) x).
  { intros Hge. destruct (Rleb_spec x x0); [lra|]. destruct (Rltb_spec x x1); [lra|reflexivity]. }
  destruct g as [|x2 g].
  - cbn [List.length nth Nat.sub] in Hx. cbn [interpolate]. destruct (Rlt_dec x x1) as [Hlt|Hge]; [apply A; exact Hlt|].
    rewrite B by exact Hge. destruct v; [|cbn in Hv; lia]. cbn [np_interp]. unfold chord. replace x with x1 by lra. field. lra.
  - change (interpolate (x0 :: x1 :: x2 :: g) (v0 :: v1 :: v) x)
      with (if Rlt_dec x x1 then chord x0 x1 v0 v1 x else interpolate (x1 :: x2 :: g) (v1 :: v) x).
    destruct (Rlt_dec x x1) as [Hlt|Hge]; [apply A; exact Hlt|]. rewrite B by exact Hge. apply IH; [exact Hi'|cbn in *; lia|].
    change (nth 0 (x1 :: x2 :: g) 0) with x1. split; [lra|]. destruct Hx as [_ Hx]. cbn [List.length] in Hx |- *.
    replace (S (S (S (List.length g))) - 1)%nat with (S (S (S (List.length g)) - 1)) in Hx by lia. exact Hx.
Qed.

Section Reference.
  Variable sp : model_spec R.
  Variable mp : model_params R.
  Hypothesis Hsp : spec_ok sp.
  Hypothesis Hmp : params_ok sp mp.
  Variable prob_child : list (list R).
  Variable prob_partner : list (list (list (R * R))).
  Hypothesis Hpc : child_table_ok sp prob_child.
  Hypothesis Hpp : partner_table_ok sp prob_partner.
  Hypothesis Hgu : spans_unit (exp_grid sp).

  Notation grid := (exp_grid sp).
  Notation N := (states_per_period sp).
  Notation P := (num_periods sp).
  Notation pc := (child_fun prob_child).
  Notation pp := (partner_fun prob_partner).
  Notation V := (plain_value sp mp pc pp).
  Notation C := (plain_continuation sp mp pc pp).
  Notation lpos t e l ty a m := (row_number sp t e l ty a m - t * N)%Z.

  Definition ref_cell (n : nat) (t e l ty a m : Z) (x : R) : list R :=
    [C n t e ty a m 0%Z x; C n t e ty a m 1%Z x; C n t e ty a m 2%Z x; V n t e l ty a m x].
  Definition ref_state (n : nat) (t e l ty a m : Z) : list (list R) := map (ref_cell n t e l ty a m) grid.

  Definition ref_next (n : nat) (t : Z) (v_next : list (list R)) : Prop :=
    match n with
    | O => True
    | S n' => forall e l ty a m, in_space sp (t + 1) e l ty a m ->
        zat v_next (lpos (t + 1)%Z e l ty a m) = Some (map (V n' (t + 1)%Z e l ty a m) grid)
    end.

  Lemma next_stock_np_eq x t i p c : next_stock_np x t i p c = next_stock (T := R) x t i p c.
  Proof.
    unfold next_stock_np, next_stock, exp_years_to_stock, next_exp_years, stock_to_exp_years, max_exp_years. f_equal. f_equal. rn. ring.
  Qed.

  Lemma local_index_spec t e l ty a m c b m' : in_space sp t e l ty a m -> (t < P - 1)%Z -> (0 <= c < 3)%Z -> (b = 0 \/ b = 1)%Z -> (m' = 0 \/ m' = 1)%Z ->
    local_index (child_local sp t [t; e; l; ty; a; m]) c b m' = Ok (lpos (t + 1)%Z e c ty (if (b =? 1)%Z then 0%Z else aged sp a) m').
  Proof.
    intros Hin Ht Hc Hb Hm'. pose proof Hsp as (_ & _ & _ & HA & _).
    unfold local_index, child_local, child_row, col. cbn [nth PERIOD EDUC_LEVEL TYPE AGE_YOUNGEST_CHILD].
    replace (t <? P - 1)%Z with true by lia. unfold children_of, newborn.
    replace (child_age_max sp <? 0)%Z with false by lia.
    change (range NUM_CHOICES) with [0; 1; 2]%Z.
    assert (Hc' : (c = 0 \/ c = 1 \/ c = 2)%Z) by lia.
    destruct Hc' as [->|[->| ->]], Hb as [->| ->], Hm' as [->| ->]; reflexivity.
  Qed.

  Lemma reference_continuation_spec n t e l ty a m v_next c :
    in_space sp t e l ty a m -> (Z.of_nat n = P - 1 - t)%Z -> (0 <= c < 3)%Z -> ref_next n t v_next ->
    reference_continuation sp grid v_next t (t =? P - 1)%Z (child_local sp t [t; e; l; ty; a; m])
      (get_pt_increment mp e a false) (pc t e) (pp t e m 0%Z, pp t e m 1%Z) c
    = Ok (map (C n t e ty a m c) grid).
  Proof.
    intros Hin Hn Hc Hnext. pose proof Hin as (Ht & He & Hl & Hty & Ha & Hm).
    pose proof Hsp as (_ & _ & _ & HA & _ & Hinc & Hne & _). unfold reference_continuation. destruct n as [|n'].
    - replace (t =? P - 1)%Z with true by lia. reflexivity.
    - replace (t =? P - 1)%Z with false by lia. cbn [ref_next] in Hnext.
      rewrite !(local_index_spec t e l ty a m) by (try assumption; lia). cbn [bind Z.eqb Pos.eqb].
      pose proof (aged_range sp HA a Ha) as Hag.
      assert (Hrow : forall age m', (age = aged sp a \/ age = 0)%Z -> (0 <= m' < 2)%Z ->
        np_get v_next (lpos (t + 1)%Z e c ty age m') = Ok (map (V n' (t + 1)%Z e c ty age m') grid)).
      { intros age m' Hage Hm'. apply np_get_zat, Hnext. unfold in_space. lia. }
      rewrite !Hrow by lia. cbn [bind]. f_equal. rewrite map_map. apply map_ext. intros x. cbn [fst snd].
      rewrite next_stock_np_eq, (next_stock_spec sp mp Hsp Hmp) by lia.
      assert (Hx : nth 0 grid 0 <= stock_next sp mp false t e a c x <= nth (List.length grid - 1) grid 0).
      { destruct Hgu as (_ & -> & ->). apply stock_next_unit. }
      rewrite !np_interp_spec by (try assumption; apply map_length). reflexivity.
  Qed.

  Lemma reference_state_spec n t e l ty a m v_next :
    in_space sp t e l ty a m -> (Z.of_nat n = P - 1 - t)%Z -> ref_next n t v_next ->
    reference_state mp sp grid v_next t (t =? P - 1)%Z (nth (Z.to_nat t) prob_child []) (nth (Z.to_nat t) prob_partner [])
      [t; e; l; ty; a; m] (cov_of sp [t; e; l; ty; a; m]) (child_local sp t [t; e; l; ty; a; m])
    = Ok (ref_state n t e l ty a m).
  Proof.
    intros Hin Hn Hnext. pose proof Hin as (Ht & He & Hl & Hty & Ha & Hm).
    unfold cov_of. rewrite (cov_of_R sp t e l ty a m Hin).
    unfold reference_state, col. cbn [nth EDUC_LEVEL PARTNER TYPE AGE_YOUNGEST_CHILD cov_equiv].
    assert (E1 : np_get (nth (Z.to_nat t) prob_child []) e = Ok (pc t e)).
    { destruct Hpc as [H1 H2]. unfold child_fun, at_. apply np_get_nth.
      assert (H : In (nth (Z.to_nat t) prob_child []) prob_child) by (apply nth_In; unfold zlen in H1; lia). apply H2 in H. lia. }
    rewrite E1. cbn [bind].
    destruct Hpp as [H1 H2].
    assert (Hi : In (nth (Z.to_nat t) prob_partner []) prob_partner) by (apply nth_In; unfold zlen in H1; lia).
    destruct (H2 _ Hi) as [H3 H4]. rewrite (np_get_nth [] _ e) by lia. cbn [bind].
    assert (Hi' : In (nth (Z.to_nat e) (nth (Z.to_nat t) prob_partner []) []) (nth (Z.to_nat t) prob_partner [])) by (apply nth_In; unfold zlen in H3; lia).
    rewrite (np_get_nth (0, 0) _ m) by (rewrite (H4 _ Hi'); lia). cbn [bind].
    assert (E2 : nth (Z.to_nat m) (nth (Z.to_nat e) (nth (Z.to_nat t) prob_partner []) []) (0, 0) = (pp t e m 0%Z, pp t e m 1%Z)).
    { unfold partner_fun. cbn [Z.eqb]. apply surjective_pairing. }
    rn. rewrite E2. cbn [mapM].
    rewrite !(reference_continuation_spec n t e l ty a m) by (try assumption; lia). cbn [bind].
    f_equal. unfold ref_state. rewrite <- (map_range_aget grid (ref_cell n t e l ty a m)). apply map_ext_in. intros g Hg. apply in_range in Hg.
    set (k0 := map (C n t e ty a m 0) grid). set (k1 := map (C n t e ty a m 1) grid). set (k2 := map (C n t e ty a m 2) grid).
    change (jget [] [k0; k1; k2] 0) with k0. change (jget [] [k0; k1; k2] 1) with k1. change (jget [] [k0; k1; k2] 2) with k2. unfold k0, k1, k2.
    rewrite !aget_map by assumption. set (x := aget grid g). unfold ref_cell. do 4 f_equal.
    assert (Ew : forall h, hours_of h * exp (aget (gamma_0 mp) e + aget (gamma_1 mp) e * ln (x * (IZR (init_exp_max sp) + nmax (IZR t) (IZR t * get_pt_increment mp e a false)) + 1))
      = hours_of h * exp (at_ (gamma_0 mp) e + at_ (gamma_1 mp) e * ln (years_of x (init_exp_max sp) t (pt_credit mp false e a) + 1))).
    { intros h. rewrite (increment_spec sp mp Hmp) by assumption.
      assert (e < zlen (gamma_0 mp))%Z by (apply (at_educ sp mp Hmp); [simpl; tauto|assumption]).
      assert (e < zlen (gamma_1 mp))%Z by (apply (at_educ sp mp Hmp); [simpl; tauto|assumption]).
      rewrite !aget_R by lia. unfold years_of. rewrite <- max_exp_years_R by lia. reflexivity. }
    pose proof (Ew 1%nat) as W1. pose proof (Ew 2%nat) as W2. rn. rewrite W1, W2. rewrite !nmax_R, nlit_R.
    change (hours_of 1) with 18. change (hours_of 2) with 38.
    assert (Ev : V n t e l ty a m x = best3 (fun c => plain_flow sp mp t e a m x c + delta mp * C n t e ty a m c x)) by (destruct n; reflexivity).
    rewrite Ev. unfold best3, plain_flow. cbn [Z.eqb Pos.eqb hours]. rewrite Rplus_0_l, <- Rmax_assoc. reflexivity.
  Qed.

  (** *** one period *)
  Notation chunk t := (nth t (chunks (Z.to_nat P) (Z.to_nat N) (states_list sp)) []).
  Definition ref_period_ok (n : nat) (t : Z) (out : list (list (list R))) : Prop :=
    zlen out = N /\
    forall e l ty a m, in_space sp t e l ty a m -> zat out (lpos t e l ty a m) = Some (ref_state n t e l ty a m).
  Notation step := (reference_period mp sp grid (states_list sp) (map (cov_of sp) (states_list sp))
      (map (child_row sp) (states_list sp)) prob_child prob_partner).

  Lemma per_period : (zlen (states_list sp) / P = N)%Z.
  Proof. rewrite states_length by (apply sizes; assumption). rewrite Z.mul_comm. apply Z.div_mul. destruct Hsp; lia. Qed.

  Lemma reference_period_spec n t emaxs_next : (0 <= t < P)%Z -> (Z.of_nat n = P - 1 - t)%Z ->
    ref_next n t (map (map (fun quad => aget quad 3)) emaxs_next) ->
    exists out, step t emaxs_next = Ok out /\ ref_period_ok n t out.
  Proof.
    intros Ht Hn Hnext. unfold reference_period. rewrite per_period.
    destruct Hpc as [C1 _]. destruct Hpp as [P1 _].
    rewrite (np_get_nth [] prob_child t) by lia. cbn [bind]. rewrite (np_get_nth [] prob_partner t) by lia. cbn [bind].
    rewrite !chunks_map_nth, map_map.
    change (combine (combine (chunk (Z.to_nat t)) (map (cov_of sp) (chunk (Z.to_nat t))))
              (map (fun x => map (map (map (fun v => (v - (t + 1) * N)%Z))) (child_row sp x)) (chunk (Z.to_nat t))))
      with (combine (combine (chunk (Z.to_nat t)) (map (cov_of sp) (chunk (Z.to_nat t)))) (map (child_local sp t) (chunk (Z.to_nat t)))).
    rewrite combine_maps, mapM_map.
    set (out_of := fun r : row => ref_state n t (col EDUC_LEVEL r) (col LAGGED_CHOICE r) (col TYPE r) (col AGE_YOUNGEST_CHILD r) (col PARTNER r)).
    pose proof (N_nonneg sp Hsp) as HN.
    rewrite (mapM_Ok _ out_of).
    - eexists. split; [reflexivity|]. split.
      + rewrite zlen_map. unfold zlen. rewrite chunks_zlen; [lia|lia|].
        pose proof (states_length sp (sizes sp Hsp)) as E. unfold zlen in E. nia.
      + intros e l ty a m Hin. rewrite zat_map. rewrite (chunk_at sp Hsp _ _ _ _ _ _ Hin). reflexivity.
    - intros r Hr. apply in_zat in Hr. destruct Hr as [i Hi].
      destruct (chunk_inv sp Hsp (Z.to_nat t) i r ltac:(lia) Hi) as (e & l & ty & a & m & Hin & -> & ->). rewrite Z2Nat.id in * by lia.
      apply (reference_state_spec n t e l ty a m); assumption.
  Qed.

  Fixpoint ref_periods_ok (t : Z) (outs : list (list (list (list R)))) : Prop :=
    match outs with
    | [] => True
    | out :: rest => ref_period_ok (List.length rest) t out /\ ref_periods_ok (t + 1) rest
    end.

  Lemma reference_loop_spec init k : forall t, (0 <= t)%Z -> (t + Z.of_nat k = P)%Z ->
    exists outs, reference_loop step init (map (fun i => t + Z.of_nat i)%Z (seq 0 k)) = Ok outs /\
      List.length outs = k /\ ref_periods_ok t outs.
  Proof.
    induction k as [|k IH]; intros t Ht Hk; [exists []; repeat split|].
    cbn [seq map reference_loop]. rewrite <- seq_shift, map_map.
    destruct (IH (t + 1)%Z ltac:(lia) ltac:(lia)) as (outs & E & Hl & Hok).
    rewrite (map_ext (fun x => (t + Z.of_nat (S x))%Z) (fun x => (t + 1 + Z.of_nat x)%Z)) by (intros; lia). rewrite E. cbn [bind].
    replace (t + Z.of_nat 0)%Z with t by lia.
    destruct (reference_period_spec k t (match outs with [] => init | next :: _ => next end)) as (out & Eo & Ho); [lia|lia| |].
    - destruct outs as [|o rest]; [cbn in Hl; subst k; exact I|]. cbn [List.length] in Hl. destruct k as [|k']; [discriminate|]. injection Hl as Hl.
      cbn [ref_next]. intros e l ty a m Hin. cbn [ref_periods_ok] in Hok. destruct Hok as [(_ & Ho) _]. specialize (Ho e l ty a m Hin).
      rewrite zat_map, Ho. cbn [option_map]. unfold ref_state. rewrite map_map, Hl. reflexivity.
    - rewrite Eo. cbn [bind]. exists (out :: outs). split; [reflexivity|]. split; [cbn [List.length]; lia|]. cbn [ref_periods_ok]. rewrite Hl. split; assumption.
  Qed.

  Lemma ref_periods_at outs t k : ref_periods_ok t outs -> (k < List.length outs)%nat ->
    ref_period_ok (List.length outs - 1 - k) (t + Z.of_nat k) (nth k outs []).
  Proof.
    revert t k; induction outs as [|o outs IH]; intros t k H Hk; [cbn in Hk; lia|].
    cbn [ref_periods_ok] in H. destruct H as [H1 H2]. destruct k as [|k].
    - cbn [nth List.length]. replace (S (List.length outs) - 1 - 0)%nat with (List.length outs) by lia.
      replace (t + Z.of_nat 0)%Z with t by lia. exact H1.
    - cbn [nth List.length] in *. specialize (IH _ k H2 ltac:(lia)).
      replace (S (List.length outs) - 1 - S k)%nat with (List.length outs - 1 - k)%nat by lia.
      replace (t + Z.of_nat (S k))%Z with (t + 1 + Z.of_nat k)%Z by lia. exact IH.
  Qed.

  Lemma reference_solve_spec n_grid : exp_grid sp = linspace01 n_grid ->
    exists ref, reference_solve (states_list sp) (map (cov_of sp) (states_list sp)) (map (child_row sp) (states_list sp))
        mp sp n_grid prob_child prob_partner = Ok ref /\ zlen ref = (P * N)%Z /\
      forall t e l ty a m, in_space sp t e l ty a m ->
        zat ref (row_number sp t e l ty a m) = Some (ref_state (Z.to_nat (P - 1 - t)) t e l ty a m).
  Proof.
    intros Hg. unfold reference_solve. rewrite <- Hg. set (init := repeat _ _).
    destruct (reference_loop_spec init (Z.to_nat P) 0 ltac:(lia) ltac:(destruct Hsp; lia)) as (outs & E & Hl & Hok).
    unfold range, range2. replace (Z.to_nat (P - 0)) with (Z.to_nat P) by lia. rewrite E. cbn [bind].
    assert (Hp : forall k, (k < Z.to_nat P)%nat -> ref_period_ok (Z.to_nat P - 1 - k) (Z.of_nat k) (nth k outs [])).
    { intros k Hk. pose proof (ref_periods_at outs 0 k Hok ltac:(lia)) as Hp. rewrite Hl in Hp. exact Hp. }
    assert (HnN : forall j, (j < List.length outs)%nat -> zlen (nth j outs []) = N) by (intros j Hj; apply (Hp j); lia).
    exists (List.concat outs). split; [reflexivity|]. split.
    - rewrite (zlen_concat outs N HnN). destruct Hsp. unfold zlen. rewrite Hl, Z2Nat.id by lia. reflexivity.
    - intros t e l ty a m Hin. pose proof Hin as (Ht & _).
      destruct (Hp (Z.to_nat t) ltac:(lia)) as [_ Hcell]. rewrite Z2Nat.id in Hcell by lia. specialize (Hcell e l ty a m Hin).
      apply (zat_concat outs N (Z.to_nat t)) in Hcell; [|assumption|lia]. rewrite Z2Nat.id in Hcell by lia.
      replace (t * N + (row_number sp t e l ty a m - t * N))%Z with (row_number sp t e l ty a m) in Hcell by lia.
      replace (Z.to_nat P - 1 - Z.to_nat t)%nat with (Z.to_nat (P - 1 - t)) in Hcell by lia. exact Hcell.
  Qed.
End Reference.

(** *** the economy without taxes and benefits *)
Lemma nth_zero l k : (forall x, In x l -> x = 0) -> nth k l 0 = 0.
Proof. intros H. destruct (nth_in_or_default k l 0) as [Hi|E]; [apply H; exact Hi|exact E]. Qed.

Section Plain.
  Variable sp : model_spec R.
  Variable mp : model_params R.
  Hypothesis Hpl : plain sp mp.
  Notation floor := (1 / 100000000000000).

  Lemma plain_tax y : tax_due (tax_params sp) y = 0.
  Proof.
    assert (H : forall l k, In l [tx_intercepts (tax_params sp); tx_linear (tax_params sp); tx_quadratic (tax_params sp)] -> nth k l 0 = 0).
    { intros l k Hl. apply nth_zero. intros x Hx. exact (pl_tax _ _ Hpl l x Hl Hx). }
    unfold tax_due. rewrite !(H (tx_intercepts (tax_params sp))) by (simpl; tauto). rewrite !(H (tx_linear (tax_params sp))) by (simpl; tauto).
    rewrite !(H (tx_quadratic (tax_params sp))) by (simpl; tauto). repeat destruct (Rlt_dec _ _); lra.
  Qed.
  Lemma plain_net own male : 0 <= male -> household_net sp own male = own + male.
  Proof.
    intros Hm. assert (A : forall w, after_contributions sp w = w).
    { intros w. unfold after_contributions, contribution. rewrite (pl_ssc _ _ Hpl). destruct (Rle_dec _ _); lra. }
    unfold household_net. rewrite !A, !plain_tax. destruct (Rlt_dec 0 male); [destruct (tax_splitting sp); lra|lra].
  Qed.
  Lemma plain_leisure e ty a c : leisure mp e ty a c = 1.
  Proof.
    assert (H : forall l k, In l [theta_p mp; theta_f mp; no_kids_f mp; no_kids_p mp; yes_kids_f mp; yes_kids_p mp] -> nth k l 0 = 0).
    { intros l k Hl. apply nth_zero. intros x Hx. exact (pl_tastes _ _ Hpl l x Hl Hx). }
    assert (Hc : forall x, In x [child_0_2_f mp; child_0_2_p mp; child_3_5_f mp; child_3_5_p mp; child_6_10_f mp; child_6_10_p mp] -> x = 0) by exact (pl_child_tastes _ _ Hpl).
    unfold leisure, part_time_term, full_time_term, at_.
    rewrite !(H (theta_p mp)), !(H (theta_f mp)), !(H (no_kids_f mp)), !(H (no_kids_p mp)), !(H (yes_kids_f mp)), !(H (yes_kids_p mp)) by (simpl; tauto).
    rewrite (Hc (child_0_2_f mp)), (Hc (child_0_2_p mp)), (Hc (child_3_5_f mp)), (Hc (child_3_5_p mp)), (Hc (child_6_10_f mp)), (Hc (child_6_10_p mp)) by (simpl; tauto).
    destruct (a =? -1)%Z; [|destruct (a <=? 2)%Z; [|destruct (a <=? 5)%Z; [|destruct (a <=? 10)%Z]]]; destruct (c =? 1)%Z; cbn;
      rewrite ?Rplus_0_l, ?Rplus_0_r; apply exp_0.
  Qed.
  Lemma plain_benefits_spec a l m w male : benefits_spec sp a l m w (child_benefit sp a) male true = 0.
  Proof.
    assert (H : forall x, In x [child_benefits sp; alg1_replacement_no_child sp; alg1_replacement_child sp; regelsatz_single sp; housing_single sp;
      regelsatz_child sp; addition_child_single sp; housing_addtion sp; elterngeld_replacement sp; elterngeld_min sp; elterngeld_max sp] -> x = 0) by exact (pl_benefits _ _ Hpl).
    unfold benefits_spec, parental_benefit, unemployment_benefit, basic_support, child_benefit.
    rewrite (H (child_benefits sp)), (H (alg1_replacement_no_child sp)), (H (alg1_replacement_child sp)), (H (regelsatz_single sp)), (H (housing_single sp)),
      (H (regelsatz_child sp)), (H (addition_child_single sp)), (H (housing_addtion sp)), (H (elterngeld_replacement sp)), (H (elterngeld_min sp)), (H (elterngeld_max sp)) by (simpl; tauto).
    rewrite !Rmult_0_l, !Rplus_0_l.
    destruct (a =? 0)%Z, (a =? -1)%Z, (worked l), (m =? 1)%Z; rewrite ?Rplus_0_l, ?Rplus_0_r; rmm; lra.
  Qed.
  Lemma plain_child_benefit a : child_benefit sp a = 0.
  Proof. unfold child_benefit. destruct (a =? -1)%Z; [reflexivity|]. apply (pl_benefits _ _ Hpl). simpl. tauto. Qed.
  Lemma plain_care a c : care_costs sp a c = 0.
  Proof.
    unfold care_costs, at_. apply nth_zero. intros x Hx.
    set (k := (if ((0 <=? a) && (a <=? 2))%Z then 1 else if ((3 <=? a) && (a <=? 5))%Z then 2 else 0)%nat) in *.
    destruct (nth_in_or_default k (child_care_costs sp) []) as [Hi|E]; [exact (pl_care _ _ Hpl _ x Hi Hx)|rewrite E in Hx; contradiction].
  Qed.
  Lemma plain_crra c : 0 <= c -> crra (mu mp) c = c.
  Proof.
    intros Hc. unfold crra. rewrite (pl_mu _ _ Hpl). destruct (Rlt_dec 0 c); [rewrite Rpower_1 by assumption; lra|lra].
  Qed.
  Lemma plain_wage t e a x : hourly_wage sp mp false t e a x
    = exp (at_ (gamma_0 mp) e + at_ (gamma_1 mp) e * ln (years_of x (init_exp_max sp) t (pt_credit mp false e a) + 1)).
  Proof. unfold hourly_wage. rewrite (pl_scale _ _ Hpl), ln_1, Rplus_0_r. reflexivity. Qed.
  Lemma equivalence_ge a m : 1 <= equivalence a m.
  Proof. unfold equivalence. destruct (a =? -1)%Z, (m =? 1)%Z; lra. Qed.
  Lemma partner_nonneg t e m : 0 <= partner_wage sp t e m.
  Proof. unfold partner_wage. destruct (m =? 1)%Z; [|lra]. pose proof (exp_pos (partner_cf_const sp + partner_cf_age sp * IZR t + partner_cf_age_sq sp * (IZR t * IZR t) + partner_cf_educ sp * IZR e)). lra. Qed.

  Lemma div_ge u q : 0 <= u -> 1 <= q -> 0 <= u / q <= u.
  Proof.
    intros Hu Hq. assert (0 < / q <= 1) by (split; [apply Rinv_0_lt_compat; lra|rewrite <- Rinv_1; apply Rinv_le_contravar; lra]). unfold Rdiv. nra.
  Qed.

  Lemma plain_flow_near eps t e l ty a m x c z : 0 <= eps -> partner_wage sp t e m <= eps -> (0 <= c < 3)%Z ->
    near (eps + floor) (flow sp mp true false t e l ty a m x c z) (plain_flow sp mp t e a m x c).
  Proof.
    intros He Hw Hc. pose proof (partner_nonneg t e m) as Hp. pose proof (equivalence_ge a m) as Hq. set (q := equivalence a m) in *.
    unfold near, flow, plain_flow. fold q. set (male := partner_wage sp t e m) in *. destruct (c =? 0)%Z.
    - rewrite plain_net, plain_benefits_spec by assumption. pose proof (div_ge male q Hp Hq).
      replace (0 + male + 0) with male by ring. rewrite plain_crra by lra. apply Rabs_le. lra.
    - rewrite plain_leisure, plain_child_benefit, plain_care, (pl_shock _ _ Hpl), plain_wage, plain_net by assumption.
      set (w := exp (at_ (gamma_0 mp) e + _)). assert (0 < w) by apply exp_pos. rewrite !Rmult_0_r, exp_0, !Rmult_1_r.
      unfold working_allowance. assert (Hh : 0 < hours c) by (unfold hours; destruct (c =? 1)%Z; lra). set (own := hours c * w).
      assert (Ho : 0 < own) by (unfold own; nra). replace (own + male + 0 + 0 - 0) with (own + male) by ring.
      assert (Hpos : 0 < Rmax (own + male) floor) by (rmm; lra). pose proof (div_ge _ q (Rlt_le _ _ Hpos) Hq).
      rewrite plain_crra by lra.
      pose proof (div_ge male q Hp Hq). pose proof (div_ge floor q ltac:(lra) Hq).
      assert (E : (own + male) / q = own / q + male / q) by (unfold Rdiv; ring).
      assert (M : Rmax (own + male) floor / q = Rmax (own / q + male / q) (floor / q)).
      { rewrite <- E. assert (Hi : 0 < / q) by (apply Rinv_0_lt_compat; lra). unfold Rdiv at 1. rewrite Rmult_comm, <- RmaxRmult by lra. rewrite !(Rmult_comm (/ q)). reflexivity. }
      rewrite M. apply Rabs_le. rmm; lra.
  Qed.
End Plain.

Section Close.
  Variable sp : model_spec R.
  Variable mp : model_params R.
  Variables zs ws : list R.
  Variable pc : list (list R).
  Variable pp : list (list (list (R * R))).
  Variable eps : R.
  Hypothesis Hok : inputs_ok sp mp pc pp.
  Hypothesis Hprob : probabilities sp pc pp.
  Hypothesis Hgu : spans_unit (exp_grid sp).
  Hypothesis Hpl : plain sp mp.
  Hypothesis Hd : 0 <= delta mp.
  Hypothesis Hw : nonneg_weights zs ws.
  Hypothesis Hw1 : average (fun _ => 1) (combine zs ws) = 1.
  Hypothesis He : 0 <= eps.
  Hypothesis Hpw : forall t e, (0 <= t < num_periods sp)%Z -> (0 <= e < num_educ_levels sp)%Z -> partner_wage sp t e 1 <= eps.
  Notation B := (eps + 1 / 100000000000000).
  Notation V := (value sp mp true false (combine zs ws) (child_fun pc) (partner_fun pp)).
  Notation C := (continuation sp mp true false (combine zs ws) (child_fun pc) (partner_fun pp)).
  Notation V' := (plain_value sp mp (child_fun pc) (partner_fun pp)).
  Notation C' := (plain_continuation sp mp (child_fun pc) (partner_fun pp)).

  Lemma wage_small t e m : (0 <= t < num_periods sp)%Z -> (0 <= e < num_educ_levels sp)%Z -> (0 <= m < 2)%Z -> partner_wage sp t e m <= eps.
  Proof. intros. assert (m = 0 \/ m = 1)%Z as [-> | ->] by lia; [unfold partner_wage; cbn [Z.eqb]; assumption|apply Hpw; assumption]. Qed.

  Lemma near_average r f v : (forall z w, In (z, w) (combine zs ws) -> near r (f z) v) -> near r (average f (combine zs ws)) v.
  Proof.
    intros H. replace v with (average (fun _ => v) (combine zs ws)) by (rewrite average_const, Hw1; ring).
    apply average_near; [exact Hw|exact Hw1|exact H].
  Qed.

  Lemma plain_near n : forall t e l ty a m x, in_space sp t e l ty a m -> (t + Z.of_nat n = num_periods sp - 1)%Z -> In x (exp_grid sp) ->
    near (B * geometric (delta mp) n) (V n t e l ty a m x) (V' n t e l ty a m x) /\
    (forall c, (0 <= c < 3)%Z -> near (B * geometric (delta mp) n) (C n t e ty a m c x) (C' n t e ty a m c x)).
  Proof.
    assert (HB : 0 <= B) by lra. destruct Hok as ((_ & _ & _ & HA & _ & Hgi & _) & _).
    induction n as [|n IH]; intros t e l ty a m x Hin Ht Hx; pose proof Hin as (Hint & Hine & _ & Hty & Ha & Hm).
    - assert (near (B * geometric (delta mp) 0) (V 0 t e l ty a m x) (V' 0 t e l ty a m x)).
      { cbn [geometric]. rewrite Rmult_1_r. cbn [value plain_value].
        apply near_average. intros z w _.
        apply best3_near. intros c Hc. unfold near. replace (_ - _) with (plain_flow sp mp t e a m x c - flow sp mp true false t e l ty a m x c z) by ring.
        apply plain_flow_near; try assumption. apply wage_small; assumption. }
      split; [assumption|]. intros c _. cbn [continuation plain_continuation geometric]. unfold near. rewrite Rminus_0_r, Rabs_R0. lra.
    - assert (Hcont : forall c, (0 <= c < 3)%Z -> near (B * geometric (delta mp) n) (C (S n) t e ty a m c x) (C' (S n) t e ty a m c x)).
      { intros c Hc. cbn [continuation plain_continuation].
        apply (expected_near sp mp false (child_fun pc) (partner_fun pp) Hgi Hgu); try lia.
        - intros t' e' Ht' He'. apply (Hprob t' e'); assumption.
        - intros t' e' m' Ht' He' Hm'. apply (Hprob t' e'); assumption.
        - intros age m' y Hag Hm' Hy. apply IH; [|lia|exact Hy]. pose proof (aged_range sp HA a Ha). unfold in_space. lia. }
      assert (Hg : 0 <= geometric (delta mp) n) by (apply geometric_pos; assumption).
      split.
      + cbn [geometric]. replace (B * (1 + delta mp * geometric (delta mp) n)) with (B + delta mp * (B * geometric (delta mp) n)) by ring.
        change (V' (S n) t e l ty a m x) with (best3 (fun c => plain_flow sp mp t e a m x c + delta mp * C' (S n) t e ty a m c x)).
        change (V (S n) t e l ty a m x) with (average (fun z => best3 (fun c => flow sp mp true false t e l ty a m x c z + delta mp * C (S n) t e ty a m c x)) (combine zs ws)).
        apply near_average. intros z w _.
        apply best3_near. intros c Hc. specialize (Hcont c Hc). unfold near in *.
        pose proof (plain_flow_near sp mp Hpl eps t e l ty a m x c z He (wage_small t e m Hint Hine Hm) Hc) as Hf. unfold near in Hf.
        apply Rabs_le_inv in Hcont. apply Rabs_le_inv in Hf. apply Rabs_le. nra.
      + intros c Hc. specialize (Hcont c Hc). unfold near in *. eapply Rle_trans; [exact Hcont|]. cbn [geometric].
        apply Rmult_le_compat_l; [exact HB|]. change (1 + delta mp * geometric (delta mp) n) with (geometric (delta mp) (S n)).
        clear - Hd. induction n as [|n IH]; cbn [geometric] in *; nra.
  Qed.
End Close.

Lemma Forall2_zat {A B} (Q : A -> B -> Prop) l m : zlen l = zlen m -> (forall i x y, zat l i = Some x -> zat m i = Some y -> Q x y) -> Forall2 Q l m.
Proof.
  unfold zlen. revert m. induction l as [|x l IH]; intros [|y m] Hl H; cbn in Hl; try lia; constructor.
  - apply (H 0%Z); reflexivity.
  - apply IH; [lia|]. intros i x' y' Hx Hy. pose proof (zat_some _ _ _ Hx). apply (H (i + 1)%Z); rewrite zat_cons by lia; replace (i + 1 - 1)%Z with i by lia; assumption.
Qed.
Lemma Forall2_maps {A B D} (Q : B -> D -> Prop) (f : A -> B) (g : A -> D) l : (forall x, In x l -> Q (f x) (g x)) -> Forall2 Q (map f l) (map g l).
Proof.
  induction l as [|x l IH]; intros H; [constructor|]. constructor; [apply H; left; reflexivity|]. apply IH. intros y Hy. apply H. right. exact Hy.
Qed.
Lemma geometric_le d n k : 0 <= d -> (n <= k)%nat -> geometric d n <= geometric d k.
Proof.
  intros Hd. revert k. induction n as [|n IH]; intros [|k] Hk; cbn [geometric]; try lia; try lra.
  - pose proof (geometric_mono d d k ltac:(lra)). nra.
  - specialize (IH k ltac:(lia)). nra.
Qed.

Section Tables.
  Variable sp : model_spec R.
  Variable mp : model_params R.
  Variable pc : list (list R).
  Variable pp : list (list (list (R * R))).
  Variable n_grid : Z.
  Hypothesis Hok : inputs_ok sp mp pc pp.
  Hypothesis Hn : (2 <= n_grid)%Z.
  Hypothesis Hg : exp_grid sp = uniform_grid (Z.to_nat n_grid).

  Lemma uniform_spans n : (2 <= n)%nat -> spans_unit (uniform_grid n).
  Proof.
    intros H. unfold spans_unit, uniform_grid. rewrite map_length, seq_length. split; [lia|]. split.
    - rewrite (nth_indep _ 0 (INR 0 / INR (n - 1))) by (rewrite map_length, seq_length; lia).
      rewrite (map_nth (fun i => INR i / INR (n - 1))), seq_nth by lia. cbn [Nat.add INR]. unfold Rdiv. ring.
    - rewrite (nth_indep _ 0 (INR 0 / INR (n - 1))) by (rewrite map_length, seq_length; lia).
      rewrite (map_nth (fun i => INR i / INR (n - 1))), seq_nth by lia. cbn [Nat.add]. apply Rinv_r. apply not_0_INR. lia.
  Qed.

  Lemma grid_spans : spans_unit (exp_grid sp).
  Proof. rewrite Hg. apply uniform_spans. lia. Qed.

  Lemma reference_run :
    exists ss ref, create_state_space_objects sp = Ok ss /\
      reference_solve (ss_states ss) (ss_covariates ss) (ss_child_state_indexes ss) mp sp n_grid pc pp = Ok ref /\
      zlen ref = zlen (ss_states ss) /\
      forall t e l ty a m, in_space sp t e l ty a m -> exists i rows,
        ix_get (ss_indexer ss) (t, e, l, ty, a, m) = Ok i /\ np_get ref i = Ok rows /\
        rows = ref_state sp mp pc pp (remaining sp t) t e l ty a m.
  Proof.
    destruct Hok as (Hsp & Hmp & Hpc & Hpp). pose proof (sizes sp Hsp) as Hsz.
    destruct (ss_total sp Hsz) as [ss Ess]. destruct (ss_inv sp Hsz ss Ess) as (Es & Hix & Ec & _ & Ei & _).
    destruct (reference_solve_spec sp mp Hsp Hmp pc pp Hpc Hpp grid_spans n_grid ltac:(rewrite Hg; symmetry; apply linspace_uniform; exact Hn))
      as (ref & E & Hl & Hcell).
    exists ss, ref. split; [exact Ess|]. rewrite Es, Ec, Ei. split; [exact E|]. split; [rewrite states_length by exact Hsz; exact Hl|].
    intros t e l ty a m Hin. exists (row_number sp t e l ty a m), (ref_state sp mp pc pp (remaining sp t) t e l ty a m).
    split; [apply Hix; exact Hin|]. split; [apply np_get_zat; apply Hcell; exact Hin|reflexivity].
  Qed.

  Variables zs ws : list R.
  Variable eps : R.
  Hypothesis Hprob : probabilities sp pc pp.
  Hypothesis Hpl : plain sp mp.
  Hypothesis Hd : 0 <= delta mp.
  Hypothesis Hw : nonneg_weights zs ws.
  Hypothesis Hw1 : average (fun _ => 1) (combine zs ws) = 1.
  Hypothesis He : 0 <= eps.
  Hypothesis Hpw : forall t e, (0 <= t < num_periods sp)%Z -> (0 <= e < num_educ_levels sp)%Z -> partner_wage sp t e 1 <= eps.

  Lemma tables_close :
    exists ss ncu emaxs ref, create_state_space_objects sp = Ok ss /\
      solve sp (ss_states ss) (ss_covariates ss) (ss_child_state_indexes ss) pc pp zs ws false mp = Ok (ncu, emaxs) /\
      reference_solve (ss_states ss) (ss_covariates ss) (ss_child_state_indexes ss) mp sp n_grid pc pp = Ok ref /\
      tables_near ((eps + 1 / 100000000000000) * geometric (delta mp) (Z.to_nat (num_periods sp - 1))) emaxs ref.
  Proof.
    pose proof Hok as (Hsp & Hmp & Hpc & Hpp). pose proof (sizes sp Hsp) as Hsz.
    destruct (ss_total sp Hsz) as [ss Ess]. destruct (ss_inv sp Hsz ss Ess) as (Es & Hix & Ec & _ & Ei & _).
    destruct (reference_solve_spec sp mp Hsp Hmp pc pp Hpc Hpp grid_spans n_grid ltac:(rewrite Hg; symmetry; apply linspace_uniform; exact Hn))
      as (ref & E & Hl & Hcell).
    destruct (solve_ok sp mp Hsp Hmp false zs ws pc pp Hpc Hpp) as (ncu & emaxs & E' & Hl' & _ & Hcell').
    exists ss, ncu, emaxs, ref. split; [exact Ess|]. rewrite Es, Ec, Ei. split; [exact E'|]. split; [exact E|].
    apply Forall2_zat; [lia|]. intros i x y Hx Hy.
    pose proof (zat_some _ _ _ Hx) as Hi. rewrite Hl', <- (states_length sp Hsz) in Hi.
    destruct (zat (states_list sp) i) as [r|] eqn:Er; [|exfalso; unfold zat in Er; replace (i <? 0)%Z with false in Er by lia; apply nth_error_None in Er; unfold zlen in Hi; lia].
    destruct (states_at_inv sp Hsz _ _ Er) as (t & e & l & ty & a & m & Hin & _ & ->).
    rewrite (proj1 (Hcell' _ _ _ _ _ _ Hin)) in Hx. rewrite (Hcell _ _ _ _ _ _ Hin) in Hy.
    injection Hx as <-. injection Hy as <-. unfold ref_state. apply Forall2_maps. intros x Hx.
    pose proof Hin as (Ht & _).
    destruct (plain_near sp mp zs ws pc pp eps Hok Hprob grid_spans Hpl Hd Hw Hw1 He Hpw (Z.to_nat (num_periods sp - 1 - t)) t e l ty a m x Hin ltac:(lia) Hx) as [A B].
    assert (Heg : is_elterngeld sp = true) by (unfold is_elterngeld; rewrite (pl_regime _ _ Hpl); reflexivity).
    unfold cell_out, ref_cell. rewrite Heg.
    assert (W : forall u v, near ((eps + 1 / 100000000000000) * geometric (delta mp) (Z.to_nat (num_periods sp - 1 - t))) u v ->
      near ((eps + 1 / 100000000000000) * geometric (delta mp) (Z.to_nat (num_periods sp - 1))) u v).
    { intros u v H. unfold near in *. eapply Rle_trans; [exact H|]. apply Rmult_le_compat_l; [lra|]. apply geometric_le; [exact Hd|lia]. }
    apply Forall2_cons; [apply W, B; lia|]. apply Forall2_cons; [apply W, B; lia|]. apply Forall2_cons; [apply W, B; lia|].
    apply Forall2_cons; [apply W, A|apply Forall2_nil].
  Qed.
End Tables.

Lemma Forall2_weaken {A B} (Q Q' : A -> B -> Prop) l m : (forall x y, Q x y -> Q' x y) -> Forall2 Q l m -> Forall2 Q' l m.
Proof. intros H. induction 1; constructor; auto. Qed.
Lemma tables_near_le r r' a b : r <= r' -> tables_near r a b -> tables_near r' a b.
Proof.
  intros Hr H. unfold tables_near in *. eapply Forall2_weaken; [|exact H]. intros x y Hx. eapply Forall2_weaken; [|exact Hx].
  intros u v Hu. eapply Forall2_weaken; [|exact Hu]. intros p q Hp. unfold near in *. lra.
Qed.
