(** Simulations over the real numbers do not fail. *)
From Coq Require Import Reals Lra Lia ZArith List Arith.
From Verif Require Import Base Num M_Params M_Experience M_NonEmployment M_StateSpace M_Exog M_Sim L_Num S_Interp L_Interp
  S_StateSpace L_StateSpace S_Rng S_Sim S_Bellman S_SimInputs L_Trace L_SimUpdate L_SimInit L_Sim L_Seed.
Import ListNotations.
Open Scope R_scope.

Lemma for_each_total {S} (body : Z -> S -> result S) (I : nat -> S -> Prop) n s0 :
  I 0%nat s0 ->
  (forall t s, (t < n)%nat -> I t s -> exists s', body (Z.of_nat t) s = Ok s' /\ I (Datatypes.S t) s') ->
  exists sn, for_each (range (Z.of_nat n)) body (Ok s0) = Ok sn /\ I n sn.
Proof.
  intros H0 Hs. induction n as [|n IH].
  - exists s0. split; [reflexivity|exact H0].
  - destruct IH as (sn & E & Hn); [intros; apply Hs; [lia|assumption]|].
    destruct (Hs n sn ltac:(lia) Hn) as (s' & E' & Hn'). exists s'. split; [|exact Hn'].
    replace (Z.of_nat (Datatypes.S n)) with (Z.of_nat n + 1)%Z by lia.
    rewrite range_snoc by lia. rewrite for_each_app, E. rewrite for_each_cons, E'. reflexivity.
Qed.

Lemma np_get_ok {A} (l : list A) i : (0 <= i < zlen l)%Z -> exists x, np_get l i = Ok x /\ In x l.
Proof.
  intros H. destruct (zat_exists l i H) as [x Hx]. exists x. split; [apply np_get_zat; exact Hx|].
  eapply zat_in; exact Hx.
Qed.

Lemma interp_uniform_total (v : list R) (s : R) : v <> [] -> exists y, interp_uniform_grid v s = Ok y.
Proof.
  intros Hv. destruct v as [|v0 [|v1 v]]; [congruence| |].
  - exists v0. apply interp_uniform_single.
  - rewrite interp_uniform_clip. eexists. apply interp_uniform_eq; [cbn; lia|].
    split; [apply Rmin_glb; [apply Rmax_r|lra]|apply Rmin_r].
Qed.

Section Total.
  Variable rg : rng R.
  Hypothesis Hrg : rng_ok rg.
  Hypothesis Htot : rng_total rg.
  Variable mp : model_params R.
  Variable sp : model_spec R.
  Variable sol : solution R.
  Variable ip : init_probs R.
  Variable pc : list (list R).
  Variable pp : list (list (list (R * R))).
  Hypothesis Hspec : sim_spec_ok sp.
  Hypothesis Hreg : regime_known sp.
  Hypothesis Hsol : solution_for sp sol.
  Hypothesis Htab : tables_ok sol.
  Hypothesis Hip : init_ok sp ip.
  Hypothesis Htypes : proper (num_types sp) (type_shares mp).
  Hypothesis Hpc : child_probs_ok sp pc.
  Hypothesis Hpp : partner_probs_ok sp pp.

  Lemma regime_flag_ok : exists f, regime_flag sp = Ok f.
  Proof. unfold regime_flag. destruct Hreg as [-> | ->]; eexists; reflexivity. Qed.

  Lemma sim_row_total b sparse t a draw : agent_in_space sp a ->
    exists r, sim_row mp sp sol b sparse t a draw = Ok r.
  Proof.
    intros Hin. pose proof (sizes sp Hspec) as Hsz. destruct Hsol as (ss & Hss & E1 & E2 & E3 & E4). unfold agent_in_space in Hin.
    unfold sim_row. rewrite E2. rewrite (childless_slot sp Hsz ss _ _ _ _ _ _ Hss Hin).
    destruct (ss_lookup sp Hsz ss Hss _ _ _ _ _ _ Hin) as (i & Hi & Hr & Hl & _). rewrite Hi. cbn [bind].
    pose proof (ss_inv sp Hsz ss Hss) as (Es & _ & Ec & _).
    destruct Htab as (T1 & T2 & T3). rewrite E1 in T1, T2.
    destruct (np_get_ok (sol_emaxs sol) i ltac:(lia)) as (er & -> & Her). cbn [bind].
    destruct (mapM_total (fun c => interp_uniform_grid (map (fun q => aget q c) er) (a_stock a)) (range NUM_CHOICES)) as [cont ->].
    { intros c _. apply interp_uniform_total. specialize (T3 er Her). destruct er; [congruence|discriminate]. }
    cbn [bind]. destruct (np_get_ok (sol_non_cons sol) i ltac:(lia)) as (nc & -> & _). cbn [bind].
    destruct (np_get_ok (sol_covariates sol) i) as (c & -> & _).
    { rewrite E3, Ec, zlen_map. rewrite Es in Hr. exact Hr. }
    cbn [bind]. rewrite E1, Hl. cbn [bind]. unfold sim_resources, calculate_non_employment_consumption_resources.
    destruct regime_flag_ok as [f ->]. cbn [bind]. eexists. reflexivity.
  Qed.

  Lemma pc_at t e : (0 <= t < num_periods sp)%Z -> (0 <= e < num_educ_levels sp)%Z ->
    exists r p, np_get pc t = Ok r /\ np_get r e = Ok p /\ 0 <= p <= 1.
  Proof.
    intros Ht He. destruct Hpc as [[L1 L2] Hp].
    destruct (np_get_ok pc t ltac:(lia)) as (r & Er & Hr). specialize (L2 r Hr).
    destruct (np_get_ok r e ltac:(lia)) as (p & Ep & Hin). exists r, p. repeat split; try assumption; apply (Hp r Hr p Hin).
  Qed.
  Lemma pp_at t e m : (0 <= t < num_periods sp)%Z -> (0 <= e < num_educ_levels sp)%Z -> (0 <= m < 2)%Z ->
    exists pr, partner_prob pp t e m = Ok pr /\ 0 <= fst pr <= 1 /\ 0 <= snd pr <= 1.
  Proof.
    intros Ht He Hm. destruct Hpp as [[L1 L2] Hp]. unfold partner_prob.
    destruct (np_get_ok pp t ltac:(lia)) as (r & -> & Hr). destruct (L2 r Hr) as [L3 L4]. cbn [bind].
    destruct (np_get_ok r e ltac:(lia)) as (q & -> & Hq). specialize (L4 q Hq). cbn [bind].
    destruct (np_get_ok q m ltac:(lia)) as (pr & -> & Hin). exists pr. split; [reflexivity|]. apply (Hp r Hr q Hq pr Hin).
  Qed.

  Lemma mapM_total_prop {A B} (f : A -> result B) (Q : B -> Prop) l :
    (forall a, In a l -> exists y, f a = Ok y /\ Q y) -> exists ys, mapM f l = Ok ys /\ forall y, In y ys -> Q y.
  Proof.
    induction l as [|a l IH]; intros H; [exists []; split; [reflexivity|intros y []]|].
    destruct (H a (or_introl eq_refl)) as (y & E & Hq). destruct IH as (ys & E' & Hqs); [intros; apply H; right; assumption|].
    cbn [mapM]. rewrite E. cbn [bind]. rewrite E'. cbn [bind]. exists (y :: ys). split; [reflexivity|].
    intros z [<-|Hz]; auto.
  Qed.

  Lemma child_update_total t cur idxs g : (0 <= t < num_periods sp)%Z ->
    (forall a, In a cur -> agent_in_space sp a) ->
    (forall i, In i idxs -> exists y, np_get (sol_rule sol) i = Ok y) ->
    exists r, child_update rg sp (sol_rule sol) pc t cur idxs g = Ok r.
  Proof.
    intros Ht Hin Hidx. unfold child_update. destruct (t =? num_periods sp - 1)%Z eqn:E1; [eexists; reflexivity|].
    destruct (mapM_total _ _ Hidx) as [aged Ea].
    destruct (t <=? last_child_bearing_period sp)%Z; [|rewrite Ea; eexists; reflexivity].
    destruct (mapM_total_prop (fun a => do r <- np_get pc (t + 1)%Z; np_get r (a_educ a)) (fun p => 0 <= p <= 1) cur) as (ps & -> & Hps).
    { intros a Ha. specialize (Hin a Ha). unfold agent_in_space, in_space in Hin.
      destruct (pc_at (t + 1) (a_educ a) ltac:(lia) ltac:(lia)) as (r & p & -> & Ep & Hp). exists p. split; assumption. }
    cbn [bind]. destruct (binomial_ok rg Htot g ps Hps) as [[l g'] ->]. cbn [bind]. rewrite Ea. eexists. reflexivity.
  Qed.

  Lemma in_mask_select {A} mask (l : list A) a : In a (mask_select mask l) -> In a l.
  Proof.
    unfold mask_select. intros H. apply in_map_iff in H. destruct H as ([b x] & <- & H).
    apply filter_In in H. destruct H as [H _]. eapply in_combine_r. exact H.
  Qed.

  Lemma partner_update_total t cur g : (0 <= t < num_periods sp)%Z ->
    (forall a, In a cur -> agent_in_space sp a) -> exists r, partner_update rg pp t cur g = Ok r.
  Proof.
    intros Ht Hin. unfold partner_update.
    assert (Hp : forall m a, (m = 0 \/ m = 1)%Z -> In a cur -> exists pr, partner_prob pp t (a_educ a) m = Ok pr /\ 0 <= fst pr <= 1 /\ 0 <= snd pr <= 1).
    { intros m a Hm Ha. specialize (Hin a Ha). unfold agent_in_space, in_space in Hin. apply pp_at; lia. }
    set (no := map _ (map a_partner cur)). set (has := map (fun m => (m =? 1)%Z) (map a_partner cur)).
    assert (Hf : forall g0, exists np g1, (if existsb (fun b => b) no then
         do ps <- mapM (fun a => do pr <- partner_prob pp t (a_educ a) 0; Ok (snd pr)) (mask_select no cur);
         do (arr, g) <- rng_binomial rg g0 ps;
         Ok (mask_assign no (map a_partner cur) arr, g)
       else Ok (map a_partner cur, g0)) = Ok (np, g1)).
    { intros g0. destruct (existsb _ no); [|do 2 eexists; reflexivity].
      destruct (mapM_total_prop (fun a => do pr <- partner_prob pp t (a_educ a) 0; Ok (snd pr)) (fun p => 0 <= p <= 1) (mask_select no cur)) as (ps & -> & Hps).
      { intros a Ha. destruct (Hp 0%Z a ltac:(lia) (in_mask_select _ _ _ Ha)) as (pr & -> & _ & Hs). exists (snd pr). split; [reflexivity|exact Hs]. }
      cbn [bind]. destruct (binomial_ok rg Htot g0 ps Hps) as [[l g'] ->]. do 2 eexists. reflexivity. }
    destruct (Hf g) as (np & g1 & ->). cbn [bind].
    destruct (existsb _ has); [|eexists; reflexivity].
    destruct (mapM_total_prop (fun a => do pr <- partner_prob pp t (a_educ a) 1; Ok (fst pr)) (fun p => 0 <= p <= 1) (mask_select has cur)) as (ps & -> & Hps).
    { intros a Ha. destruct (Hp 1%Z a ltac:(lia) (in_mask_select _ _ _ Ha)) as (pr & -> & Hs & _). exists (fst pr). split; [reflexivity|exact Hs]. }
    cbn [bind]. destruct (binomial_ok rg Htot g1 ps Hps) as [[l g'] ->]. eexists. reflexivity.
  Qed.

  Section Loop.
    Variable init : list (agent R).
    Variable educs : list Z.
    Variable bi b sparse : bool.
    Hypothesis Hinit : forall k a, nth_error init k = Some a -> entrant rg mp sp ip bi educs k a.
    Hypothesis Hn : zlen init = num_agents_sim sp.

    Lemma entered_le t : (List.length (entered init t) <= List.length init)%nat.
    Proof.
      pose proof (entered_nodup rg mp sp ip init educs bi Hinit t) as H1.
      rewrite <- (map_length a_id (entered init t)), <- (map_length a_id init).
      apply NoDup_incl_length; [exact H1|]. intros z Hz. apply in_map_iff in Hz. destruct Hz as (a & <- & Ha).
      apply in_map. apply (in_entered init t a). exact Ha.
    Qed.

    Lemma loop_total maxy g : np_max (educ_years sp) = Ok maxy ->
      exists r, for_each (range (num_periods sp))
        (sim_body rg mp sp sol pc pp (scaled_draws rg mp sp) init b sparse maxy) (Ok (mkSimAcc rg [] [] g)) = Ok r.
    Proof.
      intros Hm. assert (HP : (0 <= num_periods sp)%Z) by (pose proof (proj1 Hspec); lia).
      set (P := Z.to_nat (num_periods sp)).
      assert (EP : num_periods sp = Z.of_nat P) by (unfold P; lia). rewrite EP.
      set (I := fun (t : nat) (s : sim_acc rg) => (t < P)%nat -> person_inv sp init t (sa_current rg s ++ entrants init t)).
      destruct (for_each_total (sim_body rg mp sp sol pc pp (scaled_draws rg mp sp) init b sparse maxy) I P (mkSimAcc rg [] [] g)) as (sn & E & _).
      - intros Hlt. cbn [sa_current app]. unfold person_inv. rewrite entered_0. split; [reflexivity|].
        intros k a Ha. pose proof (entrants_inv rg mp sp ip init Hspec educs bi Hinit 0 ltac:(lia) a (nth_error_In _ _ Ha)) as (H1 & H2 & H3).
        split; [assumption|]. split; [assumption|]. exists a. split; assumption.
      - intros t s Ht HI. specialize (HI Ht).
        assert (Hin : forall a, In a (sa_current rg s ++ entrants init t) -> agent_in_space sp a).
        { intros a Ha. apply In_nth_error in Ha. destruct Ha as [k Ha]. apply (proj2 HI k a Ha). }
        assert (Hbody : exists s', sim_body rg mp sp sol pc pp (scaled_draws rg mp sp) init b sparse maxy (Z.of_nat t) s = Ok s').
        { unfold sim_body.
          assert (Ecur : (if (Z.of_nat t <=? maxy)%Z
             then sa_current rg s ++ filter (fun a => (a_period a =? Z.of_nat t)%Z) init
             else sa_current rg s) = sa_current rg s ++ entrants init t).
          { destruct (Z.of_nat t <=? maxy)%Z eqn:E; [reflexivity|].
            assert (En : entrants init t = []).
            { destruct (entrants init t) as [|a l] eqn:Ea; [reflexivity|].
              assert (Ha : In a (entrants init t)) by (rewrite Ea; left; reflexivity).
              apply in_entrants in Ha. destruct Ha as [Ha Hp].
              pose proof (init_period_bound rg mp sp ip init educs bi Hinit _ _ Hm Ha). lia. }
            rewrite En, app_nil_r. reflexivity. }
          rewrite Ecur. set (cur := sa_current rg s ++ entrants init t) in *.
          assert (Hrow : exists drow, np_get (scaled_draws rg mp sp) (Z.of_nat t) = Ok drow /\ List.length drow = Z.to_nat (num_agents_sim sp)).
          { unfold scaled_draws. set (nm := rng_normal rg _ _ _).
            destruct (np_get_ok (map (map (fun d => nmul d (shock_sd mp))) (fst nm)) (Z.of_nat t)) as (drow & Ed & Hd).
            { rewrite zlen_map. unfold zlen, nm. rewrite (normal_rows rg Hrg). fold P. lia. }
            exists drow. split; [exact Ed|]. apply in_map_iff in Hd. destruct Hd as (d0 & <- & Hd0).
            rewrite map_length. eapply normal_cols; [exact Hrg|exact Hd0]. }
          destruct Hrow as (drow & -> & Ld). cbn [bind].
          assert (Lc : (List.length cur <= List.length drow)%nat).
          { rewrite Ld. rewrite (proj1 HI). pose proof (entered_le t). unfold zlen in Hn. lia. }
          rewrite firstn_length, Nat.min_l by assumption. rewrite Nat.eqb_refl. cbn [negb].
          destruct (mapM_total (fun '(a, draw) => sim_row mp sp sol b sparse (Z.of_nat t) a draw) (combine cur (firstn (List.length cur) drow))) as [rows Er].
          { intros [a d] Had. apply in_combine_l in Had. apply sim_row_total. apply Hin. exact Had. }
          rewrite Er. cbn [bind].
          destruct (child_update_total (Z.of_nat t) cur (map snd rows) (sa_g rg s)) as [[ages g1] ->].
          { lia. }
          { exact Hin. }
          { intros i Hi. apply in_map_iff in Hi. destruct Hi as ([r i'] & <- & Hri). cbn [snd].
            apply In_nth_error in Hri. destruct Hri as [k Hk].
            destruct (nth_error_some (combine cur (firstn (List.length cur) drow)) k) as [[a d] Had].
            { rewrite <- (mapM_length _ _ _ Er). apply nth_error_lt in Hk. exact Hk. }
            destruct (mapM_nth_error _ _ _ _ _ Er Had) as ([r2 i2] & Hk2 & Hs). rewrite Hk in Hk2. injection Hk2 as <- <-.
            pose proof (nth_error_In _ _ Had) as Hinc. apply in_combine_l in Hinc.
            pose proof (sim_row_facts mp sp sol (sizes sp Hspec) Hsol b sparse (Z.of_nat t) a d r i' (Hin a Hinc) Hs) as RF.
            eexists. apply RF. }
          cbn [bind]. destruct (partner_update_total (Z.of_nat t) cur g1) as [[ms g2] ->]; [lia|exact Hin|].
          cbn [bind]. eexists. reflexivity. }
        destruct Hbody as [s' Hs']. exists s'. split; [exact Hs'|].
        destruct (sim_body_facts rg Hrg mp sp sol ip pc pp _ init b sparse Hspec Hsol educs bi Hinit maxy t s s' Hm Hs' Hin) as (out & Hdata & PF).
        intros Hlt. unfold person_inv. rewrite entered_S, !app_length. split.
        { f_equal. rewrite (pf_next_length _ _ _ _ _ _ _ _ _ _ _ _ _ PF). apply HI. }
        intros k a Ha.
        assert (Lc : List.length (sa_current rg s') = List.length (entered init t)).
        { rewrite (pf_next_length _ _ _ _ _ _ _ _ _ _ _ _ _ PF). apply HI. }
        destruct (Nat.lt_ge_cases k (List.length (sa_current rg s'))) as [Hk|Hk].
        + rewrite nth_error_app1 in Ha by assumption.
          rewrite nth_error_app1 by (rewrite <- Lc; assumption).
          eapply next_in_space; [exact Hrg|exact Hspec|lia|exact PF|exact HI|exact Ha].
        + rewrite nth_error_app2 in Ha by assumption. rewrite nth_error_app2 by (rewrite <- Lc; assumption).
          rewrite <- Lc.
          pose proof (entrants_inv rg mp sp ip init Hspec educs bi Hinit (S t) ltac:(lia) a (nth_error_In _ _ Ha)) as (H1 & H2 & H3).
          split; [assumption|]. split; [assumption|]. exists a. split; assumption.
      - exists sn. exact E.
    Qed.
  End Loop.

  Lemma proper_ok n p g k : proper n p -> forall lo hi, (hi - lo = n)%Z ->
    exists r, rng_choice rg g (range2 lo hi) k p = Ok r.
  Proof.
    intros (L & H1 & H2) lo hi E. apply (choice_ok rg Htot); try assumption.
    rewrite range2_length. unfold zlen in L. lia.
  Qed.

  Lemma init_body_total educs j acc : (0 <= j < num_educ_levels sp)%Z -> exists r, init_body rg sp ip educs j acc = Ok r.
  Proof.
    intros Hj. unfold init_body. set (n := mask_sum _).
    destruct (np_get_ok (ip_child_age ip) j) as (pa & -> & Hpa); [rewrite (io_age_rows _ _ Hip); exact Hj|]. cbn [bind].
    destruct (proper_ok _ _ (ia_g rg acc) n (io_age _ _ Hip pa Hpa) (-1) (child_age_init_max sp + 1) ltac:(lia)) as [[l1 g1] ->]. cbn [bind].
    destruct (np_get_ok (ip_partner_present ip) j) as (pm & -> & Hpm); [rewrite (io_partner_rows _ _ Hip); exact Hj|]. cbn [bind].
    destruct (binomial_ok rg Htot g1 [pm]) as [r0 ->].
    { intros p [<-|[]]. apply (io_partner _ _ Hip pm Hpm). }
    cbn [bind]. destruct (binomial_ok rg Htot g1 (repeat pm n)) as [[l2 g2] ->].
    { intros p Hp. apply repeat_spec in Hp. subst p. apply (io_partner _ _ Hip pm Hpm). }
    cbn [bind]. unfold range.
    destruct (np_get_ok (ip_exp_pt ip) j) as (pa3 & -> & Hpa3); [rewrite (io_pt_rows _ _ Hip); exact Hj|]. cbn [bind].
    destruct (proper_ok _ _ g2 n (io_pt _ _ Hip pa3 Hpa3) 0 (init_exp_max sp + 1) ltac:(lia)) as [[l3 g3] ->]. cbn [bind].
    destruct (np_get_ok (ip_exp_ft ip) j) as (pa4 & -> & Hpa4); [rewrite (io_ft_rows _ _ Hip); exact Hj|]. cbn [bind].
    destruct (proper_ok _ _ g3 n (io_ft _ _ Hip pa4 Hpa4) 0 (init_exp_max sp + 1) ltac:(lia)) as [[l4 g4] ->]. cbn [bind].
    eexists. reflexivity.
  Qed.

  Lemma no_nan_total {A} (Q : Z -> A -> Prop) educs j arr :
    filled Q educs j arr -> (forall e, In e educs -> (0 <= e < j)%Z) -> exists l, no_nan arr = Ok l.
  Proof.
    intros [Hl Hf] Hr. unfold no_nan. apply mapM_total. intros o Ho. apply In_nth_error in Ho. destruct Ho as [k Hk].
    destruct (nth_error_some educs k) as [e He]; [rewrite <- Hl; apply nth_error_lt in Hk; exact Hk|].
    destruct (Hf k e He (Hr e (nth_error_In _ _ He))) as (v & Hv & _). rewrite Hk in Hv. injection Hv as ->. eexists. reflexivity.
  Qed.

  Lemma prepare_total b g : exists r, prepare_simulation_data rg mp sp ip b g = Ok r.
  Proof.
    unfold prepare_simulation_data. set (n := Z.to_nat (num_agents_sim sp)).
    assert (HE : (0 <= num_educ_levels sp)%Z) by (destruct Hspec as (_ & _ & _ & _ & -> & _); apply zlen_nonneg).
    destruct (proper_ok _ _ g n (io_educ _ _ Hip) 0 (num_educ_levels sp) ltac:(lia)) as [[educs g1] Ee].
    fold (range (num_educ_levels sp)) in Ee. rewrite Ee. cbn [bind].
    apply (choice_range rg Hrg) in Ee. destruct Ee as [Le He].
    assert (Hed : forall e, In e educs -> (0 <= e < num_educ_levels sp)%Z) by (intros e Hi; apply (He e Hi)).
    assert (HN : (0 <= num_agents_sim sp)%Z) by (destruct Hspec as (_ & _ & _ & _ & _ & _ & HN & _); exact HN).
    rewrite np_size_ok by exact HN. cbn [bind].
    destruct (mapM_total (np_get (educ_years sp)) educs) as [periods ->].
    { intros e Hi. destruct (np_get_ok (educ_years sp) e) as (y & -> & _); [|eexists; reflexivity].
      specialize (Hed e Hi). destruct Hspec as (_ & _ & _ & _ & <- & _). exact Hed. }
    cbn [bind].
    destruct (for_each_total (init_body rg sp ip educs) (fun j s => init_inv rg sp ip educs (Z.of_nat j) s) (Z.to_nat (num_educ_levels sp))
                (mkInitAcc rg (repeat None n) (repeat None n) (repeat None n) (repeat None n) g1)) as (acc & E & Hinv).
    { constructor; cbn [ia_age ia_partner ia_pt ia_ft]; (split; [rewrite repeat_length; congruence|intros; lia]). }
    { intros t s Ht HI. destruct (init_body_total educs (Z.of_nat t) s ltac:(lia)) as [s' Hs']. exists s'. split; [exact Hs'|].
      replace (Z.of_nat (S t)) with (Z.of_nat t + 1)%Z by lia. eapply init_body_inv; [exact Hrg|lia|exact HI|exact Hs']. }
    rewrite Z2Nat.id in E, Hinv by assumption. rewrite E. cbn [bind].
    destruct (proper_ok _ _ (ia_g rg acc) n Htypes 0 (num_types sp) ltac:(lia)) as [[types g2] Et].
    fold (range (num_types sp)) in Et. rewrite Et. cbn [bind].
    assert (Hseed : valid_seed (seed_sim sp)) by (destruct Hspec as (_ & _ & _ & _ & _ & _ & _ & HS); exact HS).
    rewrite shocks_ok by first [exact Hseed|exact HN|pose proof (proj1 Hspec); lia]. cbn [bind]. destruct (rng_normal rg _ _ _) as [dr g3].
    destruct Hinv as [I1 I2 I3 I4].
    destruct (no_nan_total _ _ _ _ I3 Hed) as [l3 ->]. cbn [bind].
    destruct (no_nan_total _ _ _ _ I4 Hed) as [l4 ->]. cbn [bind].
    destruct (no_nan_total _ _ _ _ I1 Hed) as [l1 ->]. cbn [bind].
    destruct (no_nan_total _ _ _ _ I2 Hed) as [l2 ->]. cbn [bind].
    eexists. reflexivity.
  Qed.

  Lemma simulate_total b sparse g : exists data g', pyth_simulate rg mp sp sol ip pc pp b sparse g = Ok (data, g').
  Proof.
    unfold pyth_simulate. rewrite np_seed_ok by (destruct Hspec as (_ & _ & _ & _ & _ & _ & _ & HS); exact HS). cbn [bind]. destruct (prepare_total b (rng_seed rg (seed_sim sp))) as [[[init draws] g1] Ep]. rewrite Ep. cbn [bind].
    assert (HE : (0 <= num_educ_levels sp)%Z) by (destruct Hspec as (_ & _ & _ & _ & -> & _); apply zlen_nonneg).
    destruct (prepare_spec rg Hrg _ _ _ _ _ _ _ _ Ep HE) as (educs & Le & Hr & Li & Hi & -> & _).
    unfold simulate_agents_over_periods.
    assert (Hm : exists m, np_max (educ_years sp) = Ok m).
    { destruct (educ_years sp) as [|y l] eqn:E; [|eexists; reflexivity]. exfalso.
      destruct (io_educ _ _ Hip) as (L & _ & S). destruct Hspec as (_ & _ & _ & _ & E2 & _). rewrite E2, E in L.
      destruct (ip_educ ip); [cbn in S; lra|]. rewrite zlen_cons in L. pose proof (zlen_nonneg l). unfold zlen in L at 2. cbn [List.length] in L. lia. }
    destruct Hm as [m Hm]. rewrite Hm. cbn [bind].
    destruct (loop_total init educs b b sparse Hi) with (maxy := m) (g := g1) as [s Es].
    { unfold zlen. rewrite Li. destruct Hspec as (_ & _ & _ & _ & _ & _ & HA). lia. }
    { exact Hm. }
    rewrite Es. cbn [bind]. apply frames_counted in Es. cbn [sa_data List.length Nat.add] in Es. rewrite range_length in Es. pose proof (proj1 Hspec).
    destruct (sa_data rg s) as [|f fs]; [cbn [List.length] in Es; lia|]. cbn [pd_concat bind]. do 2 eexists. reflexivity.
  Qed.
End Total.
