(** Lemmas for C101. *)
From Coq Require Import Reals Lra Lia ZArith List Arith String Permutation.
From Verif Require Import Base Num M_Params M_Exog M_Sim M_AuxFuncs M_Consistency L_Num S_StateSpace S_Bellman S_Solver S_Interp L_Interp
  S_Rng S_Sim S_SimInputs S_SimEntry S_Stability S_GridSim S_AuxFuncs S_Expect S_Consistency L_Bellman L_Value L_Solver L_Sim L_SimProps L_SimInvariance L_SimFlow L_SimCompare L_Trace L_SimPairs L_SimSame
  L_Stability L_Grid L_GridSim L_GridWitness L_AuxFuncs L_Expect L_Idle.
Import ListNotations.
Open Scope R_scope.

(** *** the numbers the test compares *)
Lemma where_map {A} (p : A -> bool) (g h : A -> R) l : np_where (map p l) (map g l) (map h l) = map (fun x => if p x then g x else h x) l.
Proof. induction l as [|x l IH]; [reflexivity|]. unfold np_where in *. cbn [map combine map2 fst snd]. rewrite IH. reflexivity. Qed.

Lemma where_chosen (data : list (out_row R)) : (forall r, In r data -> full_row r) -> chosen_where data = create_chosen_flow_util data.
Proof.
  intros H. unfold chosen_where, create_chosen_flow_util. rewrite !flow_column_ok by (try lia; assumption). cbn [bind].
  rewrite !map_map. rewrite (where_map (fun r => (o_choice r =? 1)%Z)), (where_map (fun r => (o_choice r =? 2)%Z)).
  rewrite (assign_select (fun r => (o_choice r =? 1)%Z)), (assign_select (fun r => (o_choice r =? 2)%Z)). reflexivity.
Qed.

Lemma unsorted_keys ids : NoDup (keys_unsorted ids) /\ forall x, In x (keys_unsorted ids) <-> In x ids.
Proof.
  unfold keys_unsorted.
  assert (H : forall l seen, NoDup seen -> NoDup (fold_left (fun seen k => if existsb (Z.eqb k) seen then seen else seen ++ [k]) l seen) /\
    forall x, In x (fold_left (fun seen k => if existsb (Z.eqb k) seen then seen else seen ++ [k]) l seen) <-> In x seen \/ In x l).
  { induction l as [|k l IH]; intros seen Hs; cbn [fold_left]; [split; [exact Hs|intros x; cbn [In]; tauto]|].
    destruct (existsb (Z.eqb k) seen) eqn:E.
    - destruct (IH seen Hs) as [A B]. split; [exact A|]. intros x. rewrite B. apply existsb_exists in E. destruct E as (y & Hy & E). apply Z.eqb_eq in E. subst y.
      cbn [In]. intuition congruence.
    - assert (Hn : NoDup (seen ++ [k])).
      { apply (Permutation_NoDup (Permutation_cons_append seen k)). constructor; [|exact Hs]. intros Hin.
        assert (existsb (Z.eqb k) seen = true) by (apply existsb_exists; exists k; split; [exact Hin|apply Z.eqb_refl]). congruence. }
      destruct (IH _ Hn) as [A B]. split; [exact A|]. intros x. rewrite B, in_app_iff. cbn [In]. intuition congruence. }
  destruct (H ids [] (NoDup_nil _)) as [A B]. split; [exact A|]. intros x. rewrite B. cbn [In]. tauto.
Qed.
Lemma unsorted_perm ids : Permutation (keys_unsorted ids) (group_keys ids).
Proof.
  destruct (unsorted_keys ids) as [A B]. apply NoDup_Permutation; [exact A|apply ascending_nodup, group_keys_asc|]. intros x. rewrite B. symmetry. apply group_keys_in.
Qed.
Lemma mean_perm (l m : list R) : Permutation l m -> series_mean l = series_mean m.
Proof.
  intros H. pose proof (Permutation_length H) as Hl. unfold series_mean. destruct l as [|x l], m as [|y m]; try discriminate; [reflexivity|].
  f_equal. rewrite !nsum_total, (total_perm _ _ H). unfold zlen. rewrite Hl. reflexivity.
Qed.
Lemma unsorted_mean ids (vs : list R) : series_mean (group_sums_unsorted ids vs) = series_mean (group_sums ids vs).
Proof. apply mean_perm. unfold group_sums_unsorted, group_sums. apply Permutation_map, unsorted_perm. Qed.

Lemma map2_terms (us : list R) (data : list (out_row R)) (f : out_row R -> R) : map2 nmul us (map f data) = map2 (fun u r => nmul u (f r)) us data.
Proof. revert data. induction us as [|u us IH]; intros [|r data]; try reflexivity. cbn [map map2]. rewrite IH. reflexivity. Qed.

Lemma series_mean_some (l : list R) : l <> [] -> series_mean l = Some (mean l).
Proof.
  intros H. unfold series_mean, mean. destruct l as [|x l]; [congruence|]. f_equal. rewrite nsum_total. rn. unfold zlen. rewrite <- INR_IZR_INZ. reflexivity.
Qed.

Lemma max_of_three (a b c : R) k : (0 <= k < 3)%Z -> (forall k', (0 <= k' < 3)%Z -> nth (Z.to_nat k') [a; b; c] 0 <= nth (Z.to_nat k) [a; b; c] 0) ->
  nth (Z.to_nat k) [a; b; c] 0 = Rmax (Rmax a b) c.
Proof.
  intros Hk H. pose proof (H 0%Z ltac:(lia)) as B0. pose proof (H 1%Z ltac:(lia)) as B1. pose proof (H 2%Z ltac:(lia)) as B2.
  change (Z.to_nat 0) with 0%nat in B0. change (Z.to_nat 1) with 1%nat in B1. change (Z.to_nat 2) with 2%nat in B2. cbn [nth] in B0, B1, B2.
  assert (k = 0 \/ k = 1 \/ k = 2)%Z as [-> | [-> | ->]] by lia;
    [change (Z.to_nat 0) with 0%nat in *|change (Z.to_nat 1) with 1%nat in *|change (Z.to_nat 2) with 2%nat in *]; cbn [nth] in *;
    unfold Rmax; destruct (Rle_dec a b); destruct (Rle_dec _ c); lra.
Qed.

Section Run.
  Variable rg : rng R.
  Variable mp : model_params R.
  Variable sp : model_spec R.
  Variable biased : bool.
  Variables zs ws : list R.
  Variable pc : list (list R).
  Variable pp : list (list (list (R * R))).
  Variable sol : solution R.
  Variable ip : init_probs R.
  Variable data : list (out_row R).
  Hypothesis Hok : inputs_ok sp mp pc pp.
  Hypothesis Hs : solved sp mp biased zs ws pc pp sol.
  Hypothesis Hset : sim_setting rg sp sol.
  Hypothesis Hsim : simulation rg mp sp sol ip pc pp data.
  Hypothesis Hne : data <> [].
  Hypothesis Hzero : forall y, In y (educ_years sp) -> y = 0%Z.

  Lemma best_exists r : In r data -> exists v, row_best r = Ok v /\ chosen_value r v.
  Proof.
    intros Hr. destruct (rows_of_simulation rg mp sp biased zs ws pc pp sol Hok Hs ip data Hset Hsim) as (col & _ & H).
    destruct (H r Hr) as (z & f & _ & _ & Hf & _ & _ & Ef & Ec & Ev & (Hc & Hb & _)).
    rewrite Ef, Ec in Ev. cbn [map map2] in Ev. unfold row_best, chosen_value. rewrite Hf, Ev. eexists. split; [reflexivity|]. exists f. split; [reflexivity|].
    rewrite Ev in Hb. rewrite Ev, !nmax_R. unfold at_. symmetry. apply max_of_three; assumption.
  Qed.

  Lemma bests l : (forall r, In r l -> In r data) -> exists vs, mapM row_best l = Ok vs /\ Forall2 chosen_value l vs.
  Proof.
    induction l as [|r l IH]; intros H; [exists []; split; [reflexivity|constructor]|].
    destruct (best_exists r (H r (or_introl eq_refl))) as (v & E & Hv). destruct IH as (vs & E' & Hvs); [intros q Hq; apply H; right; exact Hq|].
    exists (v :: vs). cbn [mapM]. rewrite E, E'. split; [reflexivity|constructor; assumption].
  Qed.

  (** everybody has a row in period 0 *)
  Lemma starts id : (exists r, In r data /\ row_id r = id) -> exists r, In r data /\ row_id r = id /\ row_period r = 0%Z.
  Proof.
    intros (r & Hr & Hid). pose proof Hset as (S1 & S2 & S3). pose proof Hsim as (g & g' & Hd).
    destruct (panel rg mp sp sol ip pc pp false S1 S2 S3 g g' data Hd) as (educs & _ & P1 & P2 & _).
    destruct (P1 r Hr) as [H0 He]. destruct (P2 _ _ He) as (y & _ & Hy & Ht). rewrite (Hzero y (nth_error_In _ _ Hy)) in Ht.
    assert (Hr0 : (0 <= row_period r < num_periods sp)%Z).
    { apply Ht. exists r. split; [exact Hr|]. unfold row_key. rewrite Z2Nat.id by exact H0. reflexivity. }
    destruct (proj2 (Ht 0%Z) ltac:(lia)) as (q & Hq & Hk). exists q. split; [exact Hq|]. unfold row_key in Hk. injection Hk as K1 K2.
    rewrite Z2Nat.id in K1 by exact H0. split; congruence.
  Qed.

  Notation firsts_of := (filter (fun r : out_row R => (a_period (o_state r) =? 0)%Z) data).

  Lemma firsts_in r : In r firsts_of <-> In r data /\ row_period r = 0%Z.
  Proof. rewrite filter_In, Z.eqb_eq. reflexivity. Qed.
  Lemma firsts_nodup : NoDup firsts_of.
  Proof. apply NoDup_filter. eapply NoDup_map_inv. exact (data_keys rg mp sp pc pp sol ip data Hset Hsim). Qed.
  Lemma firsts_agents : agents_of data (map row_id firsts_of).
  Proof.
    split.
    - assert (K : NoDup (map row_key data)) by exact (data_keys rg mp sp pc pp sol ip data Hset Hsim).
      pose proof firsts_nodup as N. assert (Hin : forall r, In r firsts_of -> In r data /\ row_period r = 0%Z) by (intros r; apply firsts_in).
      revert N Hin. generalize firsts_of. induction l as [|r l IH]; intros N Hin; [constructor|]. cbn [map]. apply NoDup_cons_iff in N. destruct N as [N1 N2].
      constructor; [|apply IH; [exact N2|intros q Hq; apply Hin; right; exact Hq]]. intros Hc. apply in_map_iff in Hc. destruct Hc as (q & E & Hq). apply N1.
      destruct (Hin r (or_introl eq_refl)) as [R1 R2]. destruct (Hin q (or_intror Hq)) as [Q1 Q2].
      assert (q = r) as <-; [|exact Hq]. apply (NoDup_map_key row_key data); try assumption. unfold row_key. congruence.
    - intros id. rewrite in_map_iff. split.
      + intros (r & E & Hr). exists r. apply firsts_in in Hr. split; [apply Hr|exact E].
      + intros H. destruct (starts id H) as (r & Hr & E & E0). exists r. split; [exact E|]. apply firsts_in. auto.
  Qed.

  Lemma compared_is : exists a b vs, compared data (delta mp) = Ok (Some a, Some b) /\
    create_disc_sum_av_utility data (delta mp) = Ok (Some a) /\ Forall2 chosen_value firsts_of vs /\ b = mean vs.
  Proof.
    destruct (statistic rg mp sp biased zs ws pc pp sol ip data Hok Hs Hset Hsim (delta mp) Hne) as (a & Ea & _).
    assert (Hfull : forall r, In r data -> full_row r) by exact (rows_full rg mp sp biased zs ws pc pp sol ip data Hok Hs Hset Hsim).
    destruct (bests firsts_of (fun r H => proj1 (proj1 (firsts_in r) H))) as (vs & Ev & Hvs).
    exists a, (mean vs), vs. split; [|split; [exact Ea|split; [exact Hvs|reflexivity]]].
    unfold compared. rewrite where_chosen by exact Hfull. unfold create_disc_sum_av_utility in Ea.
    destruct (create_chosen_flow_util data) as [us|e]; [|discriminate]. cbn [bind] in *. rewrite Ev. cbn [bind].
    rewrite map2_terms, unsorted_mean. match type of Ea with Ok ?x = _ => assert (E1 : x = Some a) by congruence end. rewrite E1, series_mean_some; [reflexivity|].
    intros ->. pose proof Hvs as HL. apply Forall2_length in HL.
    assert (Hr : exists r, In r data) by (destruct data as [|r d]; [congruence|exists r; left; reflexivity]). destruct Hr as [r Hr].
    destruct (starts (row_id r)) as (q & Hq & _ & Hq0); [exists r; auto|].
    assert (Hin : In q firsts_of) by (apply firsts_in; auto). destruct firsts_of; [destruct Hin|discriminate HL].
  Qed.

  Definition taken (r : out_row R) : R := match o_full r with Some f => at_ (f_value f) (o_choice r) | None => 0 end.
  Lemma taken_values l vs : Forall2 chosen_value l vs -> vs = map taken l.
  Proof. induction 1 as [|r v l vs (f & E & ->) H IH]; [reflexivity|]. cbn [map]. unfold taken at 1. rewrite E, <- IH. reflexivity. Qed.

  Lemma firsts_perm firsts : agents_of data (map row_id firsts) -> (forall r, In r firsts -> In r data /\ row_period r = 0%Z) -> Permutation firsts firsts_of.
  Proof.
    intros [N A] H. apply NoDup_Permutation; [eapply NoDup_map_inv; exact N|exact firsts_nodup|]. intros r. rewrite firsts_in. split; [apply H|].
    intros [Hr H0].
    pose proof (proj2 (A (row_id r)) (ex_intro _ r (conj Hr eq_refl))) as Hin. apply in_map_iff in Hin. destruct Hin as (q & E & Hq).
    destruct (H q Hq) as [Q1 Q2]. assert (q = r) as <-; [|exact Hq].
    apply (NoDup_map_key row_key data); [exact (data_keys rg mp sp pc pp sol ip data Hset Hsim)|exact Q1|exact Hr|]. unfold row_key. congruence.
  Qed.

  Lemma compared_gap : exists a b, compared data (delta mp) = Ok (Some a, Some b) /\
    create_disc_sum_av_utility data (delta mp) = Ok (Some a) /\
    (forall firsts vs, agents_of data (map row_id firsts) -> Forall2 (fun r v => row_period r = 0%Z /\ In r data /\ chosen_value r v) firsts vs -> b = mean vs) /\
    forall firsts sss, agents_of data (map row_id firsts) -> Forall2 (life_surprises sp data) firsts sss ->
      a - b = delta mp * mean (map (discounted (delta mp)) sss).
  Proof.
    destruct compared_is as (a & b & vs & Ec & Ea & Hvs & Eb). exists a, b. split; [exact Ec|]. split; [exact Ea|].
    rewrite (taken_values _ _ Hvs) in Eb.
    assert (Hb : forall firsts, agents_of data (map row_id firsts) -> (forall r, In r firsts -> In r data /\ row_period r = 0%Z) -> b = mean (map taken firsts)).
    { intros firsts Hag Hin. pose proof (firsts_perm firsts Hag Hin) as P. rewrite Eb. unfold mean. rewrite !map_length, (Permutation_length P).
      f_equal. symmetry. apply total_perm, Permutation_map. exact P. }
    split.
    - intros firsts vs' Hag HF.
      assert (HF' : Forall2 chosen_value firsts vs' /\ forall r, In r firsts -> In r data /\ row_period r = 0%Z).
      { clear - HF. induction HF as [|r v l l' (H0 & Hr & H) HF [IH1 IH2]]; [split; [constructor|intros r []]|].
        split; [constructor; assumption|]. intros q [<- | Hq]; [auto|apply IH2; exact Hq]. }
      rewrite (Hb firsts Hag (proj2 HF')). f_equal. symmetry. apply taken_values, HF'.
    - intros firsts sss Hag HF.
      destruct (statistic rg mp sp biased zs ws pc pp sol ip data Hok Hs Hset Hsim (delta mp) Hne) as (a' & Ea' & _ & Hmean).
      assert (a' = a) by congruence. subst a'.
      assert (HL : exists lives, Forall2 (S_AuxFuncs.life sp data) firsts lives /\ (forall r, In r firsts -> In r data /\ row_period r = 0%Z) /\
        total (map2 (fun r us => delta mp ^ Z.to_nat (row_period r) * discounted (delta mp) us) firsts lives)
        = total (map taken firsts) + delta mp * total (map (discounted (delta mp)) sss)).
      { clear Hag Hmean. induction HF as [|r ss firsts sss (H0 & rs & Hca & Hss) HF (lives & L1 & L2 & L3)].
        - exists []. split; [constructor|]. split; [intros r []|]. unfold total. cbn. lra.
        - pose proof (career_in _ _ _ Hca r (or_introl eq_refl)) as Hr.
          assert (Hus : exists us, Forall2 chosen_flow (r :: rs) us).
          { pose proof (career_in _ _ _ Hca) as Hin. revert Hin. generalize (r :: rs). induction l as [|q l IHl]; intros Hin; [exists []; constructor|].
            destruct (IHl (fun p Hp => Hin p (or_intror Hp))) as [us IHl'].
            destruct (rows_full rg mp sp biased zs ws pc pp sol ip data Hok Hs Hset Hsim q (Hin q (or_introl eq_refl))) as (_ & f & Ef & _).
            eexists. constructor; [exists f; split; [exact Ef|reflexivity]|exact IHl']. }
          destruct Hus as [us Hus]. destruct (best_exists r Hr) as (v & _ & Hv).
          pose proof (surprise_sum sp mp biased zs ws pc pp sol rg ip data Hok Hs Hset Hsim (r :: rs) Hca r rs eq_refl us v ss Hus Hv Hss) as E.
          assert (Et : taken r = v) by (destruct Hv as (f & Ef & ->); unfold taken; rewrite Ef; reflexivity).
          exists (us :: lives). split; [|split].
          + constructor; [|exact L1]. constructor; [exists rs; split; assumption|]. intros q Hq Hid.
            pose proof (data_space rg mp sp pc pp sol ip data Hset Hsim q Hq) as Hsp. unfold agent_in_space, in_space in Hsp. unfold row_period in *. lia.
          + intros q [<- | Hq]; [auto|apply L2; exact Hq].
          + cbn [map2 map]. change (total (?x :: ?y)) with (x + total y). rewrite L3, E, Et, H0. change (Z.to_nat 0) with 0%nat. cbn [pow]. ring. }
      destruct HL as (lives & L1 & L2 & L3). rewrite (Hmean firsts lives Hag L1), (Hb firsts Hag L2). unfold mean. rewrite L3.
      rewrite map2_length, !map_length by exact (Forall2_length _ _ _ L1).
      rewrite <- (Forall2_length _ _ _ L1), <- (Forall2_length _ _ _ HF). unfold Rdiv. ring.
  Qed.
End Run.

(** *** childless singles to whom little happens *)
Lemma best3_shift q k L U : (forall c, (0 <= c < 3)%Z -> L <= k c <= U) -> best3 q + L <= best3 (fun c => q c + k c) <= best3 q + U.
Proof.
  intros H. rewrite <- !best3_plus. split; apply best3_mono; intros c Hc; specialize (H c Hc); lra.
Qed.
Lemma near_bounds r x y : near r x y <-> x - r <= y <= x + r.
Proof.
  unfold near. split; [intros H; apply Rabs_le_inv in H; lra|intros H; apply Rabs_le; lra].
Qed.

Section Rare.
  Variable sp : model_spec R.
  Variable mp : model_params R.
  Variables eg biased : bool.
  Variable draws : list (R * R).
  Variable pc : Z -> Z -> R.
  Variable pp : Z -> Z -> Z -> Z -> R.
  Variables u d q : R.
  Hypothesis Hdelta : 0 <= delta mp.
  Hypothesis Hd : 0 <= d.
  Hypothesis Hcam : (0 <= child_age_max sp)%Z.
  Hypothesis Hinc : S_Interp.increasing (exp_grid sp).
  Hypothesis Hspan : spans_unit (exp_grid sp).
  Hypothesis Hw : forall z w, In (z, w) draws -> 0 <= w.
  Hypothesis Hw1 : average (fun _ => 1) draws = 1.
  Hypothesis Hpc : forall t e, (0 <= t < num_periods sp - 1)%Z -> (0 <= e < num_educ_levels sp)%Z -> 0 <= pc t e <= 1.
  Hypothesis Hpp : forall t e m, (0 <= t < num_periods sp - 1)%Z -> (0 <= e < num_educ_levels sp)%Z -> (0 <= m < 2)%Z ->
    0 <= pp t e m 0%Z /\ 0 <= pp t e m 1%Z /\ pp t e m 0%Z + pp t e m 1%Z = 1.
  Hypothesis Hrare : rarely_left q sp pc pp.
  Hypothesis Hbest : best_near d u sp mp eg biased draws.
  Hypothesis Hidle : idle_best u sp mp eg biased draws.
  Notation V := (value sp mp eg biased draws pc pp).
  Notation C := (continuation sp mp eg biased draws pc pp).
  Notation g := (geometric (delta mp)).
  Notation D := (drift q d (delta mp)).

  Lemma mean_between L U f : (forall z w, In (z, w) draws -> L <= f z <= U) -> L <= average f draws <= U.
  Proof.
    intros H. split.
    - replace L with (average (fun _ => L) draws) by (rewrite average_const, Hw1; ring). apply average_le_in; [exact Hw|]. intros z w Hz. apply (H z w Hz).
    - replace U with (average (fun _ => U) draws) by (rewrite average_const, Hw1; ring). apply average_le_in; [exact Hw|]. intros z w Hz. apply (H z w Hz).
  Qed.
  Lemma grid_some : exp_grid sp <> [].
  Proof. destruct Hspan as (H & _). intros E. rewrite E in H. cbn in H. lia. Qed.
  Lemma g_pos n : 0 <= g n.
  Proof. induction n; cbn [geometric]; [lra|]. nra. Qed.

  (** one interpolated value of the next period *)
  Notation I n t e c ty age m' a x :=
    (interpolate (exp_grid sp) (map (V n (t + 1)%Z e c ty age m') (exp_grid sp)) (stock_next sp mp biased t e a c x)).

  Lemma anybody n : forall t e l ty a m x, in_space sp t e l ty a m -> (t + Z.of_nat n = num_periods sp - 1)%Z -> In x (exp_grid sp) ->
    near (d * g n) (u * g n) (V n t e l ty a m x).
  Proof.
    induction n as [|n IH]; intros t e l ty a m x Hin Hn Hx; rewrite value_eq; apply near_bounds; apply mean_between; intros z w Hz.
    - cbn [continuation geometric]. pose proof (proj1 (near_bounds _ _ _) (Hbest t e l ty a m x z w Hin Hx Hz)) as B.
      pose proof (best3_shift (fun c => flow sp mp eg biased t e l ty a m x c z) (fun _ => delta mp * 0) 0 0 ltac:(intros; lra)) as S. lra.
    - pose proof (proj1 (near_bounds _ _ _) (Hbest t e l ty a m x z w Hin Hx Hz)) as B. pose proof Hin as (Ht & He & Hl & Hty & Ha & Hm).
      assert (K : forall c, (0 <= c < 3)%Z -> delta mp * ((u - d) * g n) <= delta mp * C (S n) t e ty a m c x <= delta mp * ((u + d) * g n)).
      { intros c Hc.
        assert (HI : forall age m', (-1 <= age <= child_age_max sp)%Z -> (0 <= m' < 2)%Z -> (u - d) * g n <= I n t e c ty age m' a x <= (u + d) * g n).
        { intros age m' Hage Hm'. apply interpolate_bounds; [exact Hinc|exact grid_some|apply stock_in_grid; exact Hspan|].
          intros y Hy. pose proof (proj1 (near_bounds _ _ _) (IH (t + 1)%Z e c ty age m' y ltac:(unfold in_space; lia) ltac:(lia) Hy)). lra. }
        cbn [continuation]. unfold expected_next. cbv zeta. pose proof (Hpc t e ltac:(lia) He) as P. destruct (Hpp t e m ltac:(lia) He Hm) as (P0 & P1 & P2).
        pose proof (HI (aged sp a) 0%Z ltac:(apply aged_range; assumption) ltac:(lia)) as I1. pose proof (HI (aged sp a) 1%Z ltac:(apply aged_range; assumption) ltac:(lia)) as I2.
        pose proof (HI 0%Z 0%Z ltac:(lia) ltac:(lia)) as I3. pose proof (HI 0%Z 1%Z ltac:(lia) ltac:(lia)) as I4. clear HI IH.
        revert I1 I2 I3 I4. generalize (I n t e c ty (aged sp a) 0%Z a x) (I n t e c ty (aged sp a) 1%Z a x) (I n t e c ty 0%Z 0%Z a x) (I n t e c ty 0%Z 1%Z a x).
        intros v1 v2 v3 v4 I1 I2 I3 I4. set (p0 := pp t e m 0) in *. set (p1 := pp t e m 1) in *. set (b := pc t e) in *. clearbody p0 p1 b.
        assert (M : forall L U x y p, L <= x <= U -> L <= y <= U -> 0 <= p <= 1 -> L <= (1 - p) * x + p * y <= U) by (intros; split; nra).
        replace p0 with (1 - p1) by lra. pose proof (M _ _ _ _ p1 I1 I2 ltac:(lra)) as M1. pose proof (M _ _ _ _ p1 I3 I4 ltac:(lra)) as M2.
        pose proof (M _ _ _ _ b M1 M2 P) as M3. split; apply Rmult_le_compat_l; lra. }
      pose proof (best3_shift (fun c => flow sp mp eg biased t e l ty a m x c z) (fun c => delta mp * C (S n) t e ty a m c x) _ _ K) as S. cbn [geometric].
      pose proof (g_pos n). split; nra.
  Qed.

  Lemma loner n :
    (forall t e l ty c x, in_space sp t e l ty (-1) 0 -> (t + Z.of_nat n = num_periods sp - 1)%Z -> (0 <= c < 3)%Z ->
       near (D n) (later u (delta mp) n) (C n t e ty (-1) 0 c x)) /\
    (forall t e l ty x, in_space sp t e l ty (-1) 0 -> (t + Z.of_nat n = num_periods sp - 1)%Z -> In x (exp_grid sp) ->
       near (delta mp * D n) (u * g n) (V n t e l ty (-1) 0 x)).
  Proof.
    induction n as [|n [_ IH]].
    - assert (A : forall t e l ty c x, in_space sp t e l ty (-1) 0 -> (t + Z.of_nat 0 = num_periods sp - 1)%Z -> (0 <= c < 3)%Z ->
        near (D 0) (later u (delta mp) 0) (C 0%nat t e ty (-1)%Z 0%Z c x)).
      { intros. cbn [continuation drift later]. apply near_bounds. lra. }
      split; [exact A|]. intros t e l ty x Hin Hn Hx. rewrite value_eq. apply near_bounds. apply mean_between. intros z w Hz.
      destruct (Hidle t e l ty x z w Hin Hx Hz) as [E0 E1]. pose proof (E1 1%Z ltac:(lia)). pose proof (E1 2%Z ltac:(lia)).
      cbn [continuation geometric drift]. unfold best3. rewrite E0. rmm; lra.
    - assert (Hcont : forall t e l ty c x, in_space sp t e l ty (-1) 0 -> (t + Z.of_nat (S n) = num_periods sp - 1)%Z -> (0 <= c < 3)%Z ->
        near (D (S n)) (later u (delta mp) (S n)) (C (S n) t e ty (-1)%Z 0%Z c x)).
      { intros t e l ty c x Hin Hn Hc. pose proof Hin as (Ht & He & Hl & Hty & Ha & Hm). cbn [continuation drift later]. unfold expected_next. cbv zeta.
        change (aged sp (-1)) with (-1)%Z.
        assert (HI : forall age m', (-1 <= age <= child_age_max sp)%Z -> (0 <= m' < 2)%Z -> u * g n - d * g n <= I n t e c ty age m' (-1)%Z x <= u * g n + d * g n).
        { intros age m' Hage Hm'. apply interpolate_bounds; [exact Hinc|exact grid_some|apply stock_in_grid; exact Hspan|].
          intros y Hy. exact (proj1 (near_bounds _ _ _) (anybody n (t + 1)%Z e c ty age m' y ltac:(unfold in_space; lia) ltac:(lia) Hy)). }
        assert (H0 : u * g n - delta mp * D n <= I n t e c ty (-1)%Z 0%Z (-1)%Z x <= u * g n + delta mp * D n).
        { apply interpolate_bounds; [exact Hinc|exact grid_some|apply stock_in_grid; exact Hspan|].
          intros y Hy. exact (proj1 (near_bounds _ _ _) (IH (t + 1)%Z e c ty y ltac:(unfold in_space; lia) ltac:(lia) Hy)). }
        pose proof (HI (-1)%Z 1%Z ltac:(lia) ltac:(lia)) as I2. pose proof (HI 0%Z 0%Z ltac:(lia) ltac:(lia)) as I3. pose proof (HI 0%Z 1%Z ltac:(lia) ltac:(lia)) as I4. clear HI IH.
        pose proof (Hpc t e ltac:(lia) He) as P. destruct (Hpp t e 0%Z ltac:(lia) He ltac:(lia)) as (P0 & P1 & P2). pose proof (Hrare t e ltac:(lia) He) as Hq.
        revert H0 I2 I3 I4. generalize (I n t e c ty (-1)%Z 0%Z (-1)%Z x) (I n t e c ty (-1)%Z 1%Z (-1)%Z x) (I n t e c ty 0%Z 0%Z (-1)%Z x) (I n t e c ty 0%Z 1%Z (-1)%Z x).
        intros v1 v2 v3 v4 I1 I2 I3 I4. set (p0 := pp t e 0 0) in *. set (p1 := pp t e 0 1) in *. set (b := pc t e) in *. clearbody p0 p1 b.
        pose proof (g_pos n) as Hg. set (G := g n) in *. set (E := delta mp * D n) in *. clearbody G E.
        assert (HE : 0 <= E) by lra.
        assert (HdG : 0 <= d * G) by (apply Rmult_le_pos; assumption).
        apply near_bounds. set (s := (1 - b) * p0) in *.
        assert (W1 : 0 <= (1 - b) * p1) by (apply Rmult_le_pos; lra). assert (W2 : 0 <= b * p0) by (apply Rmult_le_pos; lra). assert (W3 : 0 <= b * p1) by (apply Rmult_le_pos; lra).
        assert (Ws : 0 <= s) by (apply Rmult_le_pos; lra).
        assert (Wsum : s + ((1 - b) * p1 + b * p0 + b * p1) = 1) by (unfold s; replace p1 with (1 - p0) by lra; ring).
        replace ((1 - b) * (p0 * v1 + p1 * v2) + b * (p0 * v3 + p1 * v4)) with (s * v1 + ((1 - b) * p1) * v2 + (b * p0) * v3 + (b * p1) * v4) by (unfold s; ring).
        set (w2 := (1 - b) * p1) in *. set (w3 := b * p0) in *. set (w4 := b * p1) in *. clearbody s w2 w3 w4.
        assert (X1 : s * (u * G - E) <= s * v1 <= s * (u * G + E)) by (split; apply Rmult_le_compat_l; lra).
        assert (X2 : w2 * (u * G - d * G) <= w2 * v2 <= w2 * (u * G + d * G)) by (split; apply Rmult_le_compat_l; lra).
        assert (X3 : w3 * (u * G - d * G) <= w3 * v3 <= w3 * (u * G + d * G)) by (split; apply Rmult_le_compat_l; lra).
        assert (X4 : w4 * (u * G - d * G) <= w4 * v4 <= w4 * (u * G + d * G)) by (split; apply Rmult_le_compat_l; lra).
        assert (Y : (w2 + w3 + w4) * (d * G) <= q * (d * G)) by (apply Rmult_le_compat_r; lra).
        assert (Z : s * E <= 1 * E) by (apply Rmult_le_compat_r; lra).
        assert (Q : u * G = s * (u * G) + w2 * (u * G) + w3 * (u * G) + w4 * (u * G)) by (replace s with (1 - (w2 + w3 + w4)) by lra; ring). split; lra. }
      split; [exact Hcont|]. intros t e l ty x Hin Hn Hx. rewrite value_eq. apply near_bounds. apply mean_between. intros z w Hz.
      destruct (Hidle t e l ty x z w Hin Hx Hz) as [E0 E1].
      assert (B : best3 (fun c => flow sp mp eg biased t e l ty (-1) 0 x c z) = u).
      { pose proof (E1 1%Z ltac:(lia)). pose proof (E1 2%Z ltac:(lia)). unfold best3. rewrite E0. rmm; lra. }
      assert (K : forall c, (0 <= c < 3)%Z -> delta mp * (later u (delta mp) (S n) - D (S n)) <= delta mp * C (S n) t e ty (-1)%Z 0%Z c x <= delta mp * (later u (delta mp) (S n) + D (S n))).
      { intros c Hc. pose proof (proj1 (near_bounds _ _ _) (Hcont t e l ty c x Hin Hn Hc)). split; apply Rmult_le_compat_l; lra. }
      pose proof (best3_shift (fun c => flow sp mp eg biased t e l ty (-1) 0 x c z) (fun c => delta mp * C (S n) t e ty (-1)%Z 0%Z c x) _ _ K) as S. rewrite B in S.
      cbn [geometric later] in *. lra.
  Qed.
End Rare.

Lemma interpolate_in g vs x lo hi : S_Interp.increasing g -> g <> [] -> List.length vs = List.length g -> in_grid g x ->
  (forall y, In y vs -> lo <= y <= hi) -> lo <= interpolate g vs x <= hi.
Proof.
  intros Hi Hne Hl Hx H. assert (Hn : (1 <= List.length g)%nat) by (destruct g; [contradiction|simpl; lia]).
  rewrite <- interp_spec by assumption. apply interp_bounds; assumption.
Qed.

Lemma rare_row sp mp biased zs ws pc pp sol u d q rg ip data : inputs_ok sp mp pc pp -> solved sp mp biased zs ws pc pp sol ->
  nonneg_weights zs ws -> average (fun _ => 1) (combine zs ws) = 1 -> probabilities sp pc pp -> spans_unit (exp_grid sp) -> 0 <= delta mp -> 0 <= d ->
  rarely_left q sp (child_fun pc) (partner_fun pp) ->
  best_near d u sp mp (is_elterngeld sp) biased (combine zs ws) -> idle_best u sp mp (is_elterngeld sp) biased (combine zs ws) ->
  sim_setting rg sp sol -> simulation rg mp sp sol ip pc pp data ->
  forall r, In r data -> a_age (o_state r) = (-1)%Z -> a_partner (o_state r) = 0%Z -> exists f, o_full r = Some f /\
    (forall c, (0 <= c < 3)%Z -> near (drift q d (delta mp) (remaining sp (row_period r))) (later u (delta mp) (remaining sp (row_period r))) (at_ (f_cont f) c)) /\
    (forall gap, at_ (f_flow f) 0 = u -> (forall c, (1 <= c <= 2)%Z -> at_ (f_flow f) c <= u - gap) ->
       2 * delta mp * drift q d (delta mp) (remaining sp (row_period r)) <= gap ->
       o_choice r = 0%Z /\
       near (delta mp * drift q d (delta mp) (remaining sp (row_period r))) (u * geometric (delta mp) (remaining sp (row_period r))) (at_ (f_value f) 0)).
Proof.
  intros Hok Hs Hw Hw1 Hp Hsp Hdel Hd Hrare Hbest Hidle Hset Hsim r Hr Ea Em.
  destruct (rows_of_simulation rg mp sp biased zs ws pc pp sol Hok Hs ip data Hset Hsim) as (col & _ & H).
  destruct (H r Hr) as (z & f & _ & _ & Hfull & _ & _ & Ef & Ec & Ev & Hb). exists f. split; [exact Hfull|].
  pose proof (data_space rg mp sp pc pp sol ip data Hset Hsim r Hr) as Hin. unfold agent_in_space in Hin. rewrite Ea, Em in *.
  pose proof (remaining_eq _ _ _ _ _ _ _ Hin) as Hn. pose proof Hok as ((_ & _ & _ & Hca & _ & Hi & _) & _).
  set (n := remaining sp (a_period (o_state r))) in *. change (remaining sp (row_period r)) with n.
  assert (Hc : forall c, (0 <= c < 3)%Z -> near (drift q d (delta mp) n) (later u (delta mp) n) (at_ (f_cont f) c)).
  { intros c Hc. rewrite Ec, at_three by assumption. pose proof Hsp as (Hlen & _).
    apply near_bounds, interpolate_in; [apply uniform_increasing| | | |].
    - intros E. apply (f_equal (@List.length R)) in E. rewrite uniform_grid_length in E. cbn in E. lia.
    - rewrite map_length, uniform_grid_length. reflexivity.
    - destruct (L_Grid.uniform_spans (List.length (exp_grid sp)) Hlen) as (_ & U0 & U1). right. rewrite U0, U1. apply L_SimFlow.clip01_unit.
    - intros y Hy. apply in_map_iff in Hy. destruct Hy as (x & <- & Hx). apply near_bounds.
      refine (proj1 (loner sp mp (is_elterngeld sp) biased (combine zs ws) (child_fun pc) (partner_fun pp) u d q Hdel Hd Hca Hi Hsp Hw Hw1 _ _ Hrare Hbest Hidle n) _ _ _ _ _ _ Hin Hn Hc).
      + intros t e Ht He. apply (Hp t e Ht He).
      + intros t e m Ht He Hm. apply (proj2 (Hp t e Ht He) m Hm). }
  split; [exact Hc|]. intros gap F0 F1 Hgap.
  assert (Hv : forall c, (0 <= c < 3)%Z -> nth (Z.to_nat c) (f_value f) 0 = at_ (f_flow f) c + delta mp * at_ (f_cont f) c).
  { intros c Hcc. rewrite Ev, Ef, Ec. assert (c = 0 \/ c = 1 \/ c = 2)%Z as [-> | [-> | ->]] by lia; reflexivity. }
  assert (B : forall c, (0 <= c < 3)%Z -> delta mp * (later u (delta mp) n - drift q d (delta mp) n) <= delta mp * at_ (f_cont f) c <= delta mp * (later u (delta mp) n + drift q d (delta mp) n)).
  { intros c Hcc. pose proof (proj1 (near_bounds _ _ _) (Hc c Hcc)). split; apply Rmult_le_compat_l; lra. }
  destruct Hb as (Hch & Hb1 & Hb2). split.
  - destruct (Z.eq_dec (o_choice r) 0) as [|Hne]; [assumption|]. exfalso. pose proof (Hb2 0%Z ltac:(lia)) as Hlt. rewrite !Hv, F0 in Hlt by lia.
    pose proof (F1 (o_choice r) ltac:(lia)). pose proof (B 0%Z ltac:(lia)). pose proof (B (o_choice r) ltac:(lia)). lra.
  - apply near_bounds. unfold at_ at 1 2. rewrite (Hv 0%Z) by lia. rewrite F0. pose proof (B 0%Z ltac:(lia)).
    assert (G : u * geometric (delta mp) n = u + delta mp * later u (delta mp) n) by (destruct n; cbn [geometric later]; ring). lra.
Qed.
