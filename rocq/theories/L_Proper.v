(** When numpy's sampling functions refuse, and what a simulation that returns says about the
    probabilities it was given. *)
From Coq Require Import Reals Lra Lia ZArith List Arith Bool String.
From Verif Require Import Base Num M_Params M_StateSpace M_Solve M_Exog M_Sim M_Numpy S_Rng S_Numpy S_Proper S_Sim S_SimInputs S_SimEntry
  L_Num L_Numpy L_Trace L_Seed L_SimEntry.
Import ListNotations.
Open Scope R_scope.

Lemma tolerance_value : tolerance = 1 / 67108864.
Proof. unfold tolerance. replace (2 ^ 26) with 67108864 by (cbn; lra). lra. Qed.
Lemma sum_Rsum p : sum_of p = Rsum p.
Proof. induction p as [|x p IH]; [reflexivity|]. unfold sum_of in *. cbn [fold_right Rsum]. rewrite IH. reflexivity. Qed.
Lemma nabs_Rabs x : nabs x = Rabs x.
Proof. unfold nabs. rn. unfold Rabs. destruct (Rltb_spec x 0), (Rcase_abs x); lra. Qed.

Section Refusals.
  Context (src : random_source R).

  Lemma negative_entry p : existsb (fun x => (x <? #0)%num) p = true <-> exists x, In x p /\ x < 0.
  Proof.
    rewrite existsb_exists. split; intros (x & Hx & H); exists x; (split; [exact Hx|]).
    - apply Rltb_true in H. exact H.
    - apply Rltb_true. exact H.
  Qed.
  Lemma no_negative_entry p : existsb (fun x => (x <? #0)%num) p = false <-> forall x, In x p -> 0 <= x.
  Proof.
    split.
    - intros H x Hx. destruct (Rle_dec 0 x) as [|Hn]; [assumption|exfalso].
      assert (E : existsb (fun x => (x <? #0)%num) p = true) by (apply negative_entry; exists x; split; [exact Hx|lra]). congruence.
    - intros H. destruct (existsb _ p) eqn:E; [|reflexivity]. apply negative_entry in E. destruct E as (x & Hx & Hn). specialize (H x Hx). lra.
  Qed.

  (** the four checks of [choice] *)
  Inductive checks (g : src_state src) (vals : list Z) (n : nat) (p : list R) : Prop :=
  | refused e : objection (zlen vals) n p e -> np_choice src g vals n p = Err e -> checks g vals n p
  | accepted : distribution (zlen vals) p ->
      np_choice src g vals n p =
        (let cdf := map (fun c => (c / last (cumsum p) #0)%num) (cumsum p) in
         let (us, g1) := uniforms src n g in
         do idx <- mapM (fun u => np_get vals (searchsorted_right cdf u)) us; Ok (idx, g1)) -> checks g vals n p.
  Lemma choice_checks g vals n p : checks g vals n p.
  Proof.
    destruct ((zlen vals =? 0)%Z && negb (Nat.eqb n 0)) eqn:E0.
    { apply andb_true_iff in E0. destruct E0 as [A B]. apply Z.eqb_eq in A. apply negb_true_iff, Nat.eqb_neq in B.
      eapply refused; [exact (obj_empty _ _ _ A B)|]. unfold np_choice. rewrite A. apply Nat.eqb_neq in B. rewrite B. reflexivity. }
    assert (H0 : zlen vals <> 0%Z \/ n = 0%nat).
    { apply andb_false_iff in E0. destruct E0 as [A|A]; [left; apply Z.eqb_neq; exact A|right; apply negb_false_iff, Nat.eqb_eq in A; exact A]. }
    destruct (Z.eqb_spec (zlen p) (zlen vals)) as [Hl|Hl].
    2:{ eapply refused; [exact (obj_size _ _ _ H0 Hl)|]. unfold np_choice. rewrite E0. apply Z.eqb_neq in Hl. rewrite Hl. reflexivity. }
    destruct (existsb (fun x => (x <? #0)%num) p) eqn:E1.
    { pose proof (proj1 (negative_entry p) E1) as (x & Hx & Hn). eapply refused; [exact (obj_negative _ _ _ x H0 Hl Hx Hn)|].
      unfold np_choice. rewrite E0. apply Z.eqb_eq in Hl. rewrite Hl, E1. reflexivity. }
    pose proof (proj1 (no_negative_entry p) E1) as Hp.
    destruct (nlit 1 67108864 <? nabs (kahan_sum p - #1))%num eqn:E2.
    { eapply refused; [apply (obj_sum _ _ _ H0 Hl Hp)|].
      - rewrite tolerance_value, sum_Rsum. rewrite kahan_R, nabs_Rabs, nlit_R in E2. apply Rltb_true in E2. exact E2.
      - unfold np_choice. rewrite E0. apply Z.eqb_eq in Hl. rewrite Hl, E1, E2. reflexivity. }
    apply accepted.
    - assert (S : Rabs (sum_of p - 1) <= tolerance).
      { rewrite tolerance_value, sum_Rsum. rewrite kahan_R, nabs_Rabs, nlit_R in E2. apply Rltb_false in E2. exact E2. }
      split; [|split; [exact Hl|split; [exact Hp|exact S]]].
      destruct vals as [|v vals]; [|unfold zlen; cbn [List.length]; lia]. destruct p as [|x p]; [|discriminate Hl].
      rewrite tolerance_value in S. unfold sum_of in S. cbn [fold_right] in S. unfold Rabs in S. destruct (Rcase_abs (0 - 1)); lra.
    - unfold np_choice. rewrite E0. apply Z.eqb_eq in Hl. rewrite Hl, E1, E2. reflexivity.
  Qed.

  Lemma objection_no_distribution k n p e : objection k n p e -> ~ distribution k p.
  Proof. intros H (K & L & P & S). destruct H as [A _|_ A|x _ _ A B|_ _ _ A]; [lia|contradiction|specialize (P x A); lra|lra]. Qed.
  Lemma objection_unique k n p e e' : objection k n p e -> objection k n p e' -> e = e'.
  Proof.
    intros H H'. destruct H as [A B|A B|x A B C D|A B C D]; destruct H' as [A' B'|A' B'|x' A' B' C' D'|A' B' C' D']; try reflexivity; exfalso;
      repeat match goal with H : _ \/ _ |- _ => destruct H end; try contradiction; try lia;
      repeat match goal with H : forall x, In x p -> 0 <= x, I : In ?y p |- _ => specialize (H y I) end; lra.
  Qed.
  Lemma no_objection k n p : distribution k p <-> forall e, ~ objection k n p e.
  Proof.
    split; [intros H e O; exact (objection_no_distribution k n p e O H)|]. intros H.
    assert (K0 : k <> 0%Z \/ n = 0%nat).
    { destruct (Z.eq_dec k 0) as [E|]; [|left; assumption]. destruct n as [|n]; [right; reflexivity|]. destruct (H _ (obj_empty _ _ p E (Nat.neq_succ_0 n))). }
    destruct (Z.eq_dec (zlen p) k) as [L|L]; [|destruct (H _ (obj_size _ _ p K0 L))].
    assert (P : forall x, In x p -> 0 <= x).
    { intros x Hx. destruct (Rle_dec 0 x) as [|N]; [assumption|]. destruct (H _ (obj_negative _ _ p x K0 L Hx (Rnot_le_lt _ _ N))). }
    destruct (Rle_dec (Rabs (sum_of p - 1)) tolerance) as [S|S]; [|destruct (H _ (obj_sum _ _ p K0 L P (Rnot_le_lt _ _ S)))].
    split; [|split; [exact L|split; [exact P|exact S]]].
    destruct p as [|x p]; [|unfold zlen in L; cbn [List.length] in L; lia].
    rewrite tolerance_value in S. unfold sum_of in S. cbn [fold_right] in S. unfold Rabs in S. destruct (Rcase_abs (0 - 1)); lra.
  Qed.

  Lemma choice_drawn g vals n p r : rng_choice (numpy_rng src sqrt) g vals n p = Ok r -> distribution (zlen vals) p.
  Proof.
    cbn [numpy_rng rng_choice]. destruct (choice_checks (fst g) vals n p) as [e _ E|H _]; [rewrite E; discriminate|intros _; exact H].
  Qed.
  Lemma choice_refused g vals n p e : objection (zlen vals) n p e -> rng_choice (numpy_rng src sqrt) g vals n p = Err e.
  Proof.
    intros O. cbn [numpy_rng rng_choice]. destruct (choice_checks (fst g) vals n p) as [e' O' E|H _].
    - rewrite E, (objection_unique _ _ _ _ _ O' O). reflexivity.
    - destruct (objection_no_distribution _ _ _ _ O H).
  Qed.
  Lemma choice_returns (U : unit_source src) g vals n p : distribution (zlen vals) p -> exists r, rng_choice (numpy_rng src sqrt) g vals n p = Ok r.
  Proof.
    intros D. cbn [numpy_rng rng_choice]. destruct (choice_checks (fst g) vals n p) as [e O E|H E].
    - destruct (objection_no_distribution _ _ _ _ O D).
    - rewrite E. cbv zeta. destruct D as (K & L & P & S). rewrite sum_Rsum, tolerance_value in S.
      assert (Hpos : 0 < Rsum p) by (unfold Rabs in S; destruct (Rcase_abs (Rsum p - 1)); lra).
      assert (Hne : p <> []) by (intros ->; cbn in Hpos; lra).
      pose proof (uniforms_spec src n (fst g)) as [Hu Hg]. destruct (uniforms src n (fst g)) as [us g1]. cbn [fst snd] in Hu. subst us.
      match goal with |- context [mapM ?f ?l] => destruct (mapM_total f l) as (ys & ->) end; [|eexists; reflexivity].
      intros u Hu. apply in_map_iff in Hu. destruct Hu as (k & <- & _).
      destruct (search_mass p (rand src (fst g) k) Hne ltac:(lra) (rand_unit src U (fst g) k)) as (i & Hi & Hil & _). cbv zeta in Hi.
      rn. rewrite Hi. exists (nth i vals 0%Z). rewrite (np_get_nth 0%Z); [rewrite Nat2Z.id; reflexivity|unfold zlen in *; lia].
  Qed.

  (** *** binomial *)
  Lemma outside ps : existsb (fun p => negb ((#0 <=? p) && (p <=? #1))%num) ps = true <-> exists p, In p ps /\ ~ 0 <= p <= 1.
  Proof.
    rewrite existsb_exists. split; intros (x & Hx & H); exists x; (split; [exact Hx|]).
    - rn. destruct (Rleb_spec 0 x), (Rleb_spec x 1); cbn in H; try discriminate; lra.
    - rn. destruct (Rleb_spec 0 x), (Rleb_spec x 1); cbn; try reflexivity. destruct H. lra.
  Qed.
  Lemma binomial_refused g ps : (exists p, In p ps /\ ~ 0 <= p <= 1) ->
    rng_binomial (numpy_rng src sqrt) g ps = Err (ValueError "p < 0, p > 1 or p contains NaNs").
  Proof. intros H. apply outside in H. cbn [numpy_rng rng_binomial]. unfold np_binomial. rewrite H. reflexivity. Qed.
  Lemma binomial_drawn g ps r : rng_binomial (numpy_rng src sqrt) g ps = Ok r -> forall p, In p ps -> 0 <= p <= 1.
  Proof.
    intros H p Hp. destruct (Rle_dec 0 p) as [A|A]; [destruct (Rle_dec p 1) as [B|B]; [split; assumption|]|];
      exfalso; rewrite binomial_refused in H by (exists p; split; [exact Hp|lra]); discriminate.
  Qed.
  Lemma drawn_probability p x : drawn (numpy_rng src sqrt) p x -> 0 <= p <= 1.
  Proof. intros (g & ps & l & g' & j & E & Hp & _). apply nth_error_In in Hp. exact (binomial_drawn _ _ _ E p Hp). Qed.

  (** *** a simulation that returns *)
  Lemma zlen_range n : (0 < zlen (range n))%Z -> zlen (range n) = n.
  Proof. unfold zlen. rewrite L_Num.range_length. lia. Qed.
  Lemma range_distribution n p : distribution (zlen (range n)) p -> distribution n p.
  Proof. intros D. rewrite <- (zlen_range n (proj1 D)). exact D. Qed.

  Lemma prepare_distributions mp sp ip b g r :
    prepare_simulation_data (numpy_rng src sqrt) mp sp ip b g = Ok r ->
    distribution (num_educ_levels sp) (ip_educ ip) /\ distribution (num_types sp) (type_shares mp) /\
    forall e, (0 <= e < num_educ_levels sp)%Z -> exists pa pm pe pf,
      given_for (ip_child_age ip) e pa /\ distribution (child_age_init_max sp + 2) pa /\
      given_for (ip_partner_present ip) e pm /\ 0 <= pm <= 1 /\
      given_for (ip_exp_pt ip) e pe /\ distribution (init_exp_max sp + 1) pe /\
      given_for (ip_exp_ft ip) e pf /\ distribution (init_exp_max sp + 1) pf.
  Proof.
    intros H. unfold prepare_simulation_data in H. cbv zeta in H. set (n := Z.to_nat (num_agents_sim sp)) in *.
    destruct (rng_choice (numpy_rng src sqrt) g _ n (ip_educ ip)) as [[educs g1]|] eqn:Ee; cbn [bind] in H; [|discriminate].
    destruct (np_size (num_agents_sim sp)) as [n0|]; cbn [bind] in H; [|discriminate].
    destruct (mapM (np_get (educ_years sp)) educs) as [periods|] eqn:Ep; cbn [bind] in H; [|discriminate].
    destruct (for_each _ _ _) as [acc|] eqn:El; cbn [bind] in H; [|discriminate].
    destruct (rng_choice (numpy_rng src sqrt) (ia_g _ acc) _ n (type_shares mp)) as [[types g2]|] eqn:Et; cbn [bind] in H; [|discriminate].
    clear H. split; [exact (range_distribution _ _ (choice_drawn _ _ _ _ _ Ee))|]. split; [exact (range_distribution _ _ (choice_drawn _ _ _ _ _ Et))|].
    intros e He. rewrite <- (Z2Nat.id (num_educ_levels sp)) in El by lia.
    destruct (for_each_trace _ _ _ _ El) as (s & _ & _ & Hs). specialize (Hs (Z.to_nat e) ltac:(lia)). rewrite Z2Nat.id in Hs by lia.
    unfold init_body in Hs. cbv zeta in Hs.
    destruct (np_get (ip_child_age ip) e) as [pa|] eqn:Ga; cbn [bind] in Hs; [|discriminate].
    destruct (rng_choice _ _ _ _ pa) as [[ages g3]|] eqn:Ea; cbn [bind] in Hs; [|discriminate].
    destruct (np_get (ip_partner_present ip) e) as [pm|] eqn:Gm; cbn [bind] in Hs; [|discriminate].
    destruct (rng_binomial (numpy_rng src sqrt) g3 [pm]) as [r0|] eqn:Em; cbn [bind] in Hs; [|discriminate].
    destruct (rng_binomial (numpy_rng src sqrt) g3 (repeat pm _)) as [[ms g4]|]; cbn [bind] in Hs; [|discriminate].
    destruct (np_get (ip_exp_pt ip) e) as [pe|] eqn:Ge; cbn [bind] in Hs; [|discriminate].
    destruct (rng_choice _ _ _ _ pe) as [[pts g5]|] eqn:Ept; cbn [bind] in Hs; [|discriminate].
    destruct (np_get (ip_exp_ft ip) e) as [pf|] eqn:Gf; cbn [bind] in Hs; [|discriminate].
    destruct (rng_choice _ _ _ _ pf) as [[fts g6]|] eqn:Eft; cbn [bind] in Hs; [|discriminate].
    exists pa, pm, pe, pf. split; [apply np_get_given; [lia|exact Ga]|]. split.
    { apply choice_drawn in Ea. pose proof (proj1 Ea) as K. revert Ea K. unfold zlen at 1 2. rewrite range2_length. intros Ea K.
      replace (child_age_init_max sp + 2)%Z with (Z.of_nat (Z.to_nat (child_age_init_max sp + 1 - -1))) by lia. exact Ea. }
    split; [apply np_get_given; [lia|exact Gm]|]. split; [apply (binomial_drawn _ _ _ Em); left; reflexivity|].
    split; [apply np_get_given; [lia|exact Ge]|]. split; [exact (range_distribution _ _ (choice_drawn _ _ _ _ _ Ept))|].
    split; [apply np_get_given; [lia|exact Gf]|]. exact (range_distribution _ _ (choice_drawn _ _ _ _ _ Eft)).
  Qed.

  Lemma simulation_distributions mp sp sol ip pc pp b sparse g r :
    pyth_simulate (numpy_rng src sqrt) mp sp sol ip pc pp b sparse g = Ok r ->
    distribution (num_educ_levels sp) (ip_educ ip) /\ distribution (num_types sp) (type_shares mp) /\
    forall e, (0 <= e < num_educ_levels sp)%Z -> exists pa pm pe pf,
      given_for (ip_child_age ip) e pa /\ distribution (child_age_init_max sp + 2) pa /\
      given_for (ip_partner_present ip) e pm /\ 0 <= pm <= 1 /\
      given_for (ip_exp_pt ip) e pe /\ distribution (init_exp_max sp + 1) pe /\
      given_for (ip_exp_ft ip) e pf /\ distribution (init_exp_max sp + 1) pf.
  Proof.
    unfold pyth_simulate. destruct (np_seed _ _) as [g1|]; cbn [bind]; [|discriminate].
    destruct (prepare_simulation_data _ _ _ _ _ _) as [r1|] eqn:E; cbn [bind]; [|discriminate]. intros _. exact (prepare_distributions _ _ _ _ _ _ E).
  Qed.

  Lemma education_refused mp sp sol ip pc pp b sparse g e : valid_seed (seed_sim sp) -> (0 <= num_educ_levels sp)%Z ->
    objection (num_educ_levels sp) (Z.to_nat (num_agents_sim sp)) (ip_educ ip) e ->
    pyth_simulate (numpy_rng src sqrt) mp sp sol ip pc pp b sparse g = Err e.
  Proof.
    intros Hs HE O. unfold pyth_simulate. rewrite np_seed_ok by exact Hs. cbn [bind]. unfold prepare_simulation_data. cbv zeta.
    rewrite (choice_refused _ _ _ _ e); [reflexivity|]. unfold zlen. rewrite L_Num.range_length, Z2Nat.id by exact HE. exact O.
  Qed.
End Refusals.
