(** Properties of the data returned by [pyth_simulate], for any number type. *)
From Coq Require Import ZArith List Lia Arith.
From Verif Require Import Base Num M_Params M_Experience M_StateSpace M_Exog M_Sim
  S_StateSpace S_Rng S_Sim L_Num L_StateSpace L_Trace L_SimUpdate L_SimInit L_Sim L_SimData L_Seed.
Import ListNotations.

Section Props.
  Context {T : Type} {NT : Num T}.
  Local Open Scope num_scope.

  Lemma hide_state (r : out_row T) : o_state (hide_wage r) = o_state r.
  Proof. unfold hide_wage. destruct (o_choice r =? 0)%Z; reflexivity. Qed.
  Lemma hide_choice (r : out_row T) : o_choice (hide_wage r) = o_choice r.
  Proof. unfold hide_wage. destruct (o_choice r =? 0)%Z; reflexivity. Qed.
  Lemma hide_full (r : out_row T) : o_full (hide_wage r) = o_full r.
  Proof. unfold hide_wage. destruct (o_choice r =? 0)%Z; reflexivity. Qed.
  Lemma hide_key (r : out_row T) : row_key (hide_wage r) = row_key r.
  Proof. unfold row_key, row_id, row_period. rewrite hide_state. reflexivity. Qed.

  Variable rg : rng T.
  Variable mp : model_params T.
  Variable sp : model_spec T.
  Variable sol : solution T.
  Variable ip : init_probs T.
  Variable pc : list (list T).
  Variable pp : list (list (list (T * T))).
  Variable b : bool.

  Record sim_run (sparse : bool) (data : list (out_row T)) (init : list (agent T)) (educs : list Z)
      (dl : list (list (out_row T))) (cur nxt : nat -> list (agent T)) : Prop := {
    sr_educs : zlen educs = num_agents_sim sp;
    sr_range : forall e, In e educs -> (0 <= e < num_educ_levels sp)%Z;
    sr_init_length : List.length init = List.length educs;
    sr_init : forall k a, nth_error init k = Some a -> entrant rg mp sp ip b educs k a;
    sr_run : run rg mp sp sol pc pp (scaled_draws rg mp sp) init b sparse dl cur nxt;
    sr_data : data = map hide_wage (if sparse then map cast_sparse (List.concat dl) else List.concat dl);
    sr_drawn : exists g1, rng_choice rg (rng_seed rg (seed_sim sp)) (range (num_educ_levels sp))
                 (Z.to_nat (num_agents_sim sp)) (ip_educ ip) = Ok (educs, g1)
  }.

  Lemma simulated sparse g data g' :
    rng_ok rg -> sim_spec_ok sp -> solution_for sp sol ->
    pyth_simulate rg mp sp sol ip pc pp b sparse g = Ok (data, g') ->
    exists init educs dl cur nxt, sim_run sparse data init educs dl cur nxt.
  Proof.
    intros Hrg Hspec Hsol H. unfold pyth_simulate in H.
    destruct (np_seed rg (seed_sim sp)) as [g0|] eqn:Eg; cbn [bind] in H; [|discriminate].
    assert (g0 = rng_seed rg (seed_sim sp)) by (unfold np_seed in Eg; destruct (_ && _)%bool in Eg; congruence).
    destruct (prepare_simulation_data _ _ _ _ _ _) as [[[init draws] g1]|] eqn:Ep; cbn [bind] in H; [|discriminate].
    destruct (simulate_agents_over_periods _ _ _ _ _ _ _ _ _ _ _) as [[dl g2]|] eqn:Es; cbn [bind] in H; [|discriminate].
    destruct (pd_concat dl) as [dc|] eqn:Ec; cbn [bind] in H; [|discriminate]. apply pd_concat_inv in Ec. subst dc.
    injection H as <- <-.
    destruct (prepare_spec rg Hrg _ _ _ _ _ _ _ _ Ep) as (educs & Le & Hr & Li & Hi & -> & Hch).
    { destruct Hspec as (_ & _ & _ & _ & -> & _). apply zlen_nonneg. }
    destruct (run_exists rg Hrg mp sp sol ip pc pp _ init b sparse Hspec Hsol educs b Hi _ _ _ Es) as (cur & nxt & Hrun).
    exists init, educs, dl, cur, nxt. constructor; try assumption.
    - unfold zlen. rewrite Le. destruct Hspec as (_ & _ & _ & _ & _ & _ & H). lia.
    - congruence.
    - reflexivity.
    - subst g0. exact Hch.
  Qed.

  Hypothesis Hrg : rng_ok rg.
  Hypothesis Hspec : sim_spec_ok sp.
  Hypothesis Hsol : solution_for sp sol.
  Variable g g' : rng_state rg.
  Variable data : list (out_row T).
  Hypothesis Hsim : pyth_simulate rg mp sp sol ip pc pp b false g = Ok (data, g').

  Lemma full_row init educs dl cur nxt r : sim_run false data init educs dl cur nxt ->
    In r data -> exists r0, In r0 (List.concat dl) /\ r = hide_wage r0.
  Proof.
    intros SR Hr. rewrite (sr_data _ _ _ _ _ _ _ SR) in Hr. apply in_map_iff in Hr.
    destruct Hr as (r0 & <- & Hr0). exists r0. split; [assumption|reflexivity].
  Qed.

  Lemma panel_keys : NoDup (map row_key data).
  Proof.
    destruct (simulated false g data g' Hrg Hspec Hsol Hsim) as (init & educs & dl & cur & nxt & SR).
    rewrite (sr_data _ _ _ _ _ _ _ SR). rewrite map_map. rewrite (map_ext _ row_key) by apply hide_key.
    eapply keys_unique; try eassumption; apply SR.
  Qed.

  Lemma panel : exists educs,
    zlen educs = num_agents_sim sp /\
    (forall r, In r data -> (0 <= row_id r)%Z /\
       nth_error educs (Z.to_nat (row_id r)) = Some (a_educ (o_state r))) /\
    (forall k e, nth_error educs k = Some e -> exists y,
       (0 <= e)%Z /\ nth_error (educ_years sp) (Z.to_nat e) = Some y /\
       forall t, (exists r, In r data /\ row_key r = (Z.of_nat k, t)) <-> (y <= t < num_periods sp)%Z) /\
    zlen data = sumZ (map (fun e => Z.max 0 (num_periods sp - nth (Z.to_nat e) (educ_years sp) 0)) educs).
  Proof.
    destruct (simulated false g data g' Hrg Hspec Hsol Hsim) as (init & educs & dl & cur & nxt & SR).
    pose proof (sr_init _ _ _ _ _ _ _ SR) as Hi. pose proof (sr_run _ _ _ _ _ _ _ SR) as Hrun.
    exists educs. split; [apply SR|]. split; [|split].
    - intros r Hr. destruct (full_row _ _ _ _ _ r SR Hr) as (r0 & Hr0 & ->).
      unfold row_id. rewrite !hide_state. fold (row_id r0).
      destruct (row_origin rg mp sp sol pc pp _ init b false dl cur nxt Hrun r0 Hr0) as (a0 & Ha0 & E1 & E2 & _).
      apply In_nth_error in Ha0. destruct Ha0 as [k Hk]. specialize (Hi k a0 Hk).
      pose proof (en_id _ _ _ _ _ _ _ _ Hi) as Eid. pose proof (en_educ _ _ _ _ _ _ _ _ Hi) as Eed.
      rewrite E1, Eid, E2. split; [lia|]. rewrite Nat2Z.id. exact Eed.
    - intros k e He. assert (Hlt : (k < List.length init)%nat) by (rewrite (sr_init_length _ _ _ _ _ _ _ SR); apply nth_error_lt in He; exact He).
      destruct (nth_error_some init k Hlt) as [a0 Ha0]. specialize (Hi k a0 Ha0).
      pose proof (en_educ _ _ _ _ _ _ _ _ Hi) as Eed. rewrite He in Eed. injection Eed as ->.
      exists (a_period a0). split; [apply Hi|]. split.
      { pose proof (en_period _ _ _ _ _ _ _ _ Hi) as Hy. apply np_get_zat_inv in Hy; [|apply Hi]. unfold zat in Hy.
        destruct (a_educ a0 <? 0)%Z; [discriminate|exact Hy]. }
      intros t. rewrite <- (present rg mp sp sol ip pc pp _ init b false Hspec educs b (sr_init _ _ _ _ _ _ _ SR) dl cur nxt Hrun a0 t (nth_error_In _ _ Ha0)).
      rewrite <- (en_id _ _ _ _ _ _ _ _ Hi). rewrite (sr_data _ _ _ _ _ _ _ SR). split.
      + intros (r & Hr & Hk). apply in_map_iff in Hr. destruct Hr as (r0 & <- & Hr0). exists r0. rewrite hide_key in Hk. split; assumption.
      + intros (r & Hr & Hk). exists (hide_wage r). split; [apply in_map; assumption|]. rewrite hide_key. assumption.
    - rewrite (sr_data _ _ _ _ _ _ _ SR), zlen_map.
      rewrite (row_count rg mp sp sol ip pc pp _ init b false Hspec educs b (sr_init _ _ _ _ _ _ _ SR) dl cur nxt Hrun).
      f_equal. apply nth_ext with (d := 0%Z) (d' := 0%Z); rewrite !map_length; [apply SR|].
      intros k Hk. destruct (nth_error_some init k Hk) as [a0 Ha0]. specialize (Hi k a0 Ha0).
      pose proof (en_educ _ _ _ _ _ _ _ _ Hi) as Eed. pose proof (en_period _ _ _ _ _ _ _ _ Hi) as Hy.
      apply np_get_zat_inv in Hy; [|apply Hi]. unfold zat in Hy. destruct (a_educ a0 <? 0)%Z; [discriminate|].
      assert (E1 : nth_error (map (years_left (num_periods sp)) init) k = Some (Z.max 0 (num_periods sp - a_period a0))).
      { rewrite nth_error_map', Ha0. reflexivity. }
      assert (E2 : nth_error (map (fun e => Z.max 0 (num_periods sp - nth (Z.to_nat e) (educ_years sp) 0)) educs) k
                   = Some (Z.max 0 (num_periods sp - a_period a0))).
      { rewrite nth_error_map', Eed. cbn [option_map]. rewrite (nth_error_nth _ _ 0%Z Hy). reflexivity. }
      apply nth_error_nth with (d := 0%Z) in E1. apply nth_error_nth with (d := 0%Z) in E2. congruence.
  Qed.

  (** rows come period by period *)
  Lemma by_period : exists blocks, data = List.concat blocks /\ zlen blocks = num_periods sp /\
    forall t block r, nth_error blocks t = Some block -> In r block -> row_period r = Z.of_nat t.
  Proof.
    destruct (simulated false g data g' Hrg Hspec Hsol Hsim) as (init & educs & dl & cur & nxt & SR).
    pose proof (sr_run _ _ _ _ _ _ _ SR) as Hrun. exists (map (map hide_wage) dl). split; [|split].
    - rewrite (sr_data _ _ _ _ _ _ _ SR). apply concat_map.
    - rewrite zlen_map. unfold zlen. rewrite (run_length _ _ _ _ _ _ _ _ _ _ _ _ _ Hrun).
      pose proof (proj1 Hspec). lia.
    - intros t block r Ht Hr. rewrite nth_error_map' in Ht. destruct (nth_error dl t) as [out|] eqn:Ho; [|discriminate].
      injection Ht as <-. apply in_map_iff in Hr. destruct Hr as (r0 & <- & Hr0). apply In_nth_error in Hr0. destruct Hr0 as [k Hk].
      assert (Hlt : (Z.of_nat t < num_periods sp)%Z).
      { apply nth_error_lt in Ho. rewrite (run_length _ _ _ _ _ _ _ _ _ _ _ _ _ Hrun) in Ho. lia. }
      destruct (locate_at rg mp sp sol pc pp _ init b false dl cur nxt Hrun t k out r0 Hlt Ho Hk) as (a & idx & draw & age & m & a0 & L).
      apply loc_id in L. unfold row_period. rewrite hide_state. apply L.
  Qed.

  (** every row is a listed state and reports that state's table rows *)
  Lemma listed r : In r data ->
    agent_in_space sp (o_state r) /\
    exists i f emax_row c,
      np_get (sol_states sol) i = Ok (discrete_state (o_state r)) /\ o_full r = Some f /\
      np_get (sol_emaxs sol) i = Ok emax_row /\
      mapM (fun c => interp_uniform_grid (map (fun q => aget q c) emax_row) (a_stock (o_state r))) (range NUM_CHOICES) = Ok (f_cont f) /\
      np_get (sol_non_cons sol) i = Ok (f_non_cons f) /\
      np_get (sol_covariates sol) i = Ok c /\ f_male_wage f = cov_male_wage c.
  Proof.
    intros Hr. destruct (simulated false g data g' Hrg Hspec Hsol Hsim) as (init & educs & dl & cur & nxt & SR).
    pose proof (sr_run _ _ _ _ _ _ _ SR) as Hrun.
    destruct (full_row _ _ _ _ _ r SR Hr) as (r0 & Hr0 & ->).
    destruct (locate rg mp sp sol pc pp _ init b false dl cur nxt Hrun r0 Hr0) as (t & k & a & idx & draw & age & m & a0 & L).
    pose proof (loc_facts _ _ _ _ _ _ _ _ _ _ _ _ _ _ _ _ _ _ _ _ _ L) as RF.
    rewrite hide_state, hide_full, (rf_state _ _ _ _ _ _ _ _ _ _ RF). split; [apply L|].
    destruct (rf_full _ _ _ _ _ _ _ _ _ _ RF) as (emax_row & cont & nc & c & res & H1 & H2 & H3 & H4 & H5 & H6 & H7).
    exists idx, (mkFull (cov_male_wage c) nc (map2 (fun r u => flow_utility (mu mp) r (cov_equiv c) u) res nc) cont
       (map2 (fun f v => f + delta mp * v) (map2 (fun r u => flow_utility (mu mp) r (cov_equiv c) u) res nc) cont)), emax_row, c.
    split; [apply RF|]. split; [exact H7|]. repeat (split; [assumption|]). reflexivity.
  Qed.

  Lemma follows_next r r' : follows data r r' ->
    exists t k a idx draw age m a0 init cur nxt r0, located rg mp sp sol pc pp (scaled_draws rg mp sp) init b false cur nxt r0 t k a idx draw age m a0 /\
      (Z.of_nat t < num_periods sp - 1)%Z /\ r = hide_wage r0 /\ o_state r = a /\
      o_state r' = next_agent mp sp b (Z.of_nat t) a (o_choice r) age m /\ (0 <= o_choice r < 3)%Z.
  Proof.
    intros (Hr & Hr' & Eid & Eper).
    destruct (simulated false g data g' Hrg Hspec Hsol Hsim) as (init & educs & dl & cur & nxt & SR).
    pose proof (sr_run _ _ _ _ _ _ _ SR) as Hrun. pose proof (sr_init _ _ _ _ _ _ _ SR) as Hi.
    destruct (full_row _ _ _ _ _ r SR Hr) as (r0 & Hr0 & ->). destruct (full_row _ _ _ _ _ r' SR Hr') as (r0' & Hr0' & ->).
    unfold row_id, row_period in Eid, Eper. rewrite !hide_state in Eid, Eper.
    destruct (successor rg mp sp sol ip pc pp _ init b false educs b Hi dl cur nxt Hrun r0 r0' Hr0 Hr0' Eid Eper)
      as (t & k & a & idx & draw & age & m & a0 & L & Ht & E).
    exists t, k, a, idx, draw, age, m, a0, init, cur, nxt, r0.
    pose proof (loc_facts _ _ _ _ _ _ _ _ _ _ _ _ _ _ _ _ _ _ _ _ _ L) as RF.
    rewrite !hide_state, hide_choice. repeat (split; [first [assumption|reflexivity|apply RF]|]). apply RF.
  Qed.

  Lemma history r r' : follows data r r' ->
    a_educ (o_state r') = a_educ (o_state r) /\ a_type (o_state r') = a_type (o_state r) /\
    a_lagged (o_state r') = o_choice r /\
    a_exp_pt (o_state r') = (a_exp_pt (o_state r) + if o_choice r =? 1 then 1 else 0)%Z /\
    a_exp_ft (o_state r') = (a_exp_ft (o_state r) + if o_choice r =? 2 then 1 else 0)%Z.
  Proof.
    intros H. destruct (follows_next r r' H) as (t & k & a & idx & draw & age & m & a0 & init & cur & nxt & r0 & L & Ht & _ & E1 & E2 & _).
    rewrite E2, E1. cbn [next_agent a_educ a_type a_lagged a_exp_pt a_exp_ft].
    repeat (split; [first [reflexivity|destruct (_ =? _)%Z; lia]|]). destruct (_ =? _)%Z; lia.
  Qed.

  Lemma demography r r' : follows data r r' ->
    (row_period r <= last_child_bearing_period sp ->
       exists row p d, np_get pc (row_period r + 1) = Ok row /\ np_get row (a_educ (o_state r)) = Ok p /\
         drawn rg p d /\ (d = 0 \/ d = 1) /\
         a_age (o_state r') = if d =? 0 then aged sp (a_age (o_state r)) else 0)%Z /\
    (last_child_bearing_period sp < row_period r -> a_age (o_state r') = aged sp (a_age (o_state r)))%Z /\
    (a_partner (o_state r) = 0 -> exists pr, partner_prob pp (row_period r) (a_educ (o_state r)) 0 = Ok pr /\
         drawn rg (snd pr) (a_partner (o_state r')))%Z /\
    (a_partner (o_state r) = 1 -> exists pr s, partner_prob pp (row_period r) (a_educ (o_state r)) 1 = Ok pr /\
         drawn rg (fst pr) s /\ a_partner (o_state r') = 1 - s)%Z /\
    (a_partner (o_state r) = 0 \/ a_partner (o_state r) = 1)%Z /\
    (a_partner (o_state r') = 0 \/ a_partner (o_state r') = 1)%Z.
  Proof.
    intros H. destruct (follows_next r r' H) as (t & k & a & idx & draw & age & m & a0 & init & cur & nxt & r0 & L & Ht & _ & E1 & E2 & _).
    assert (Ep : row_period r = Z.of_nat t) by (unfold row_period; rewrite E1; apply L).
    rewrite Ep, E1, E2. cbn [next_agent a_age a_partner].
    assert (Hpt : (a_partner a = 0 \/ a_partner a = 1)%Z).
    { pose proof (loc_space _ _ _ _ _ _ _ _ _ _ _ _ _ _ _ _ _ _ _ _ _ L) as Hs. unfold agent_in_space, in_space in Hs. lia. }
    split; [|split; [|split; [|split; [|split]]]].
    - intros Hl. destruct (loc_age1 _ _ _ _ _ _ _ _ _ _ _ _ _ _ _ _ _ _ _ _ _ L ltac:(lia) Hl) as (row & p & d & H1 & H2 & H3 & H4).
      exists row, p, d. repeat (split; [assumption|]). split; [|assumption]. eapply drawn_01; eassumption.
    - intros Hl. apply (loc_age2 _ _ _ _ _ _ _ _ _ _ _ _ _ _ _ _ _ _ _ _ _ L); [lia|assumption].
    - apply L.
    - apply L.
    - exact Hpt.
    - destruct Hpt as [E|E].
      + destruct (loc_m0 _ _ _ _ _ _ _ _ _ _ _ _ _ _ _ _ _ _ _ _ _ L E) as (pr & _ & Hd). eapply drawn_01; eassumption.
      + destruct (loc_m1 _ _ _ _ _ _ _ _ _ _ _ _ _ _ _ _ _ _ _ _ _ L E) as (pr & s & _ & Hd & ->).
        apply drawn_01 in Hd; [|assumption]. lia.
  Qed.

  Lemma next_stock_law r r' : follows data r r' ->
    a_stock (o_state r') = next_stock (a_stock (o_state r)) (row_period r) (init_exp_max sp)
      (get_pt_increment mp (a_educ (o_state r)) (a_age (o_state r)) b) (o_choice r).
  Proof.
    intros H. destruct (follows_next r r' H) as (t & k & a & idx & draw & age & m & a0 & init & cur & nxt & r0 & L & Ht & _ & E1 & E2 & _).
    assert (Ep : row_period r = Z.of_nat t) by (unfold row_period; rewrite E1; apply L).
    rewrite Ep, E1, E2. reflexivity.
  Qed.

  (** the next state is among the successors listed for the current state and choice *)
  Lemma anticipated ss r r' : create_state_space_objects sp = Ok ss -> follows data r r' ->
    exists i table birth partner j,
      np_get (ss_states ss) i = Ok (discrete_state (o_state r)) /\
      np_get (ss_child_state_indexes ss) i = Ok table /\
      (0 <= birth < 2)%Z /\ (0 <= partner < 2)%Z /\
      entry table (o_choice r) birth partner = Ok j /\
      np_get (ss_states ss) j = Ok (discrete_state (o_state r')).
  Proof.
    intros Hss H. pose proof H as (_ & Hr' & _).
    pose proof (sizes sp Hspec) as Hsz.
    destruct (listed r (proj1 H)) as [Hin _]. destruct (listed r' Hr') as [Hin' _].
    destruct (demography r r' H) as (B1 & B2 & _ & _ & _ & Hm).
    destruct (follows_next r r' H) as (t & k & a & idx & draw & age & m & a0 & init & cur & nxt & r0 & L & Ht & _ & E1 & E2 & Hc).
    assert (Ep : row_period r = Z.of_nat t) by (unfold row_period; rewrite E1; apply L).
    unfold agent_in_space in Hin, Hin'.
    destruct (ss_lookup sp Hsz ss Hss _ _ _ _ _ _ Hin) as (i & Hi & _ & Hst & _).
    destruct (ss_children sp Hsz ss Hss i _ _ _ _ _ _ Hin Hi) as (table & Htab & _ & Hch).
    assert (Hp : (a_period (o_state r) < num_periods sp - 1)%Z) by (unfold row_period in Ep; lia).
    specialize (Hch Hp).
    assert (Hage : exists birth, (0 <= birth < 2)%Z /\
      a_age (o_state r') = (if birth =? 0 then aged sp (a_age (o_state r)) else 0)%Z).
    { destruct (Z.le_gt_cases (row_period r) (last_child_bearing_period sp)) as [Hl|Hl].
      - destruct (B1 Hl) as (row & p & d & _ & _ & _ & Hd & Ha). exists d. split; [lia|exact Ha].
      - exists 0%Z. split; [lia|]. rewrite (B2 Hl). reflexivity. }
    destruct Hage as (birth & Hb & Hage).
    destruct (Hch (o_choice r) birth (a_partner (o_state r')) Hc Hb ltac:(lia)) as (j & Hj & Hjs).
    { intros _. destruct Hspec as (_ & _ & HA & _). exact HA. }
    exists i, table, birth, (a_partner (o_state r')), j.
    split; [exact Hst|]. split; [exact Htab|]. split; [lia|]. split; [lia|]. split; [exact Hj|].
    destruct (history r r' H) as (G1 & G2 & G3 & _). 
    unfold discrete_state. rewrite G1, G2, G3, Hage.
    assert (Eper : a_period (o_state r') = (a_period (o_state r) + 1)%Z) by (rewrite E2, E1; reflexivity).
    rewrite Eper. destruct Hjs as [Hjs _].
    assert (birth = 0 \/ birth = 1)%Z as [-> | ->] by lia; exact Hjs.
  Qed.

  (** experience columns count choices *)
  Lemma NoDup_key_inj r r' : In r data -> In r' data -> row_key r = row_key r' -> r = r'.
  Proof.
    intros H H' E. pose proof panel_keys as Hn.
    apply In_nth_error in H. destruct H as [i Hi]. apply In_nth_error in H'. destruct H' as [j Hj].
    rewrite NoDup_nth_error in Hn. assert (i = j).
    { apply Hn; [rewrite map_length; apply nth_error_lt in Hi; exact Hi|].
      rewrite !nth_error_map', Hi, Hj. cbn [option_map]. congruence. }
    congruence.
  Qed.

  Definition in_window (id lo hi c : Z) (r : out_row T) : bool :=
    ((row_id r =? id) && (lo <=? row_period r) && (row_period r <? hi) && (o_choice r =? c))%Z.

  Lemma filter_one {A} (p : A -> bool) (l : list A) x : NoDup l -> In x l ->
    (forall y, In y l -> p y = true -> y = x) ->
    zlen (filter p l) = if p x then 1%Z else 0%Z.
  Proof.
    intros Hn Hx Hu. induction l as [|y l IH]; [destruct Hx|]. cbn [filter]. inversion Hn; subst.
    destruct Hx as [->|Hx].
    - assert (Hz : filter p l = []).
      { destruct (filter p l) as [|z l'] eqn:E; [reflexivity|]. assert (Hz : In z (filter p l)) by (rewrite E; left; reflexivity).
        apply filter_In in Hz. assert (z = x) by (apply Hu; [right|]; apply Hz). subst z. exfalso. apply H1. apply Hz. }
      rewrite Hz. destruct (p x); reflexivity.
    - rewrite <- (IH H2 Hx) by (intros; apply Hu; [right; assumption|assumption]).
      destruct (p y) eqn:E; [|reflexivity]. assert (y = x) by (apply Hu; [left; reflexivity|assumption]). subst y. contradiction.
  Qed.
  Lemma filter_split {A} (p q s : A -> bool) (l : list A) : (forall x, In x l -> p x = q x || s x /\ q x && s x = false) ->
    zlen (filter p l) = (zlen (filter q l) + zlen (filter s l))%Z.
  Proof.
    induction l as [|x l IH]; intros H; [reflexivity|]. cbn [filter].
    destruct (H x (or_introl eq_refl)) as [H1 H2]. rewrite H1.
    specialize (IH (fun y Hy => H y (or_intror Hy))).
    destruct (q x), (s x); cbn [orb andb] in *; try discriminate; rewrite ?zlen_cons; lia.
  Qed.

  Lemma previous_row r1 p : In r1 data -> (row_period r1 = p + 1)%Z ->
    (exists r0, In r0 data /\ row_id r0 = row_id r1 /\ (row_period r0 <= p)%Z) ->
    exists r, follows data r r1 /\ row_period r = p.
  Proof.
    intros Hr1 Ep (r0 & Hr0 & Eid & Hp).
    destruct panel as (educs & _ & Hed & Hpres & _).
    destruct (Hed r1 Hr1) as [Hid Hn]. destruct (Hpres _ _ Hn) as (y & _ & _ & Hy). rewrite Z2Nat.id in Hy by assumption.
    assert (H0 : (y <= row_period r0 < num_periods sp)%Z).
    { apply Hy. exists r0. split; [assumption|]. unfold row_key. rewrite Eid. reflexivity. }
    assert (H1 : (y <= row_period r1 < num_periods sp)%Z).
    { apply Hy. exists r1. split; [assumption|reflexivity]. }
    destruct (proj2 (Hy p) ltac:(lia)) as (r & Hr & Hk). unfold row_key in Hk. injection Hk as K1 K2.
    exists r. split; [|exact K2]. unfold follows. repeat split; try assumption; congruence.
  Qed.

  Lemma window_count (col : agent T -> Z) (c : Z) :
    (forall r r', follows data r r' -> col (o_state r') = (col (o_state r) + if o_choice r =? c then 1 else 0)%Z) ->
    forall r0 r1, In r0 data -> In r1 data -> row_id r1 = row_id r0 -> (row_period r0 <= row_period r1)%Z ->
    col (o_state r1) = (col (o_state r0) + zlen (filter (in_window (row_id r0) (row_period r0) (row_period r1) c) data))%Z.
  Proof.
    intros Hstep r0 r1 Hr0. remember (Z.to_nat (row_period r1 - row_period r0)) as n eqn:En.
    revert r1 En. induction n as [|n IH]; intros r1 En Hr1 Eid Hle.
    - assert (Ep : row_period r1 = row_period r0) by lia.
      assert (r1 = r0) by (apply NoDup_key_inj; [assumption|assumption|unfold row_key; congruence]). subst r1.
      assert (Hz : filter (in_window (row_id r0) (row_period r0) (row_period r0) c) data = []).
      { destruct (filter _ data) as [|z l] eqn:E; [reflexivity|].
        assert (Hz : In z (filter (in_window (row_id r0) (row_period r0) (row_period r0) c) data)) by (rewrite E; left; reflexivity).
        apply filter_In in Hz. destruct Hz as [_ Hz]. unfold in_window in Hz. lia. }
      rewrite Hz. unfold zlen. cbn [List.length]. lia.
    - destruct (previous_row r1 (row_period r1 - 1) Hr1 ltac:(lia)) as (r & Hf & Ep).
      { exists r0. repeat split; [assumption|congruence|lia]. }
      pose proof Hf as (Hr & _ & Eid' & _).
      rewrite (Hstep r r1 Hf). rewrite (IH r ltac:(lia) Hr ltac:(congruence) ltac:(lia)).
      rewrite (filter_split (in_window (row_id r0) (row_period r0) (row_period r1) c)
                 (in_window (row_id r0) (row_period r0) (row_period r) c)
                 (fun x => (row_id x =? row_id r0) && (row_period x =? row_period r) && (o_choice x =? c))%Z).
      + rewrite (filter_one (fun x => (row_id x =? row_id r0) && (row_period x =? row_period r) && (o_choice x =? c))%Z data r).
        * replace (row_id r =? row_id r0)%Z with true by lia. rewrite Z.eqb_refl. cbn [andb]. lia.
        * apply (NoDup_map_inv row_key). apply panel_keys.
        * assumption.
        * intros y Hy Hp. apply NoDup_key_inj; [assumption|assumption|]. unfold row_key. f_equal; lia.
      + intros x Hx. unfold in_window. destruct (row_id x =? row_id r0)%Z eqn:X1, (o_choice x =? c)%Z eqn:X2; cbn [andb orb]; split; lia.
  Qed.

  (** wages and the shock behind them *)
  Lemma entered_at_once educs init : (forall k a, nth_error init k = Some a -> entrant rg mp sp ip b educs k a) ->
    (forall y, In y (educ_years sp) -> y = 0%Z) -> forall t, entered init t = init.
  Proof.
    intros Hi Hz.
    assert (Hp : forall a, In a init -> a_period a = 0%Z).
    { intros a Ha. apply In_nth_error in Ha. destruct Ha as [k Hk]. apply Hz.
      eapply np_get_Ok_in. exact (en_period _ _ _ _ _ _ _ _ (Hi k a Hk)). }
    induction t as [|t IH].
    - rewrite entered_0. unfold entrants. revert Hp. clear. induction init as [|a init IH]; intros Hp; [reflexivity|].
      cbn [filter]. rewrite (Hp a (or_introl eq_refl)). cbn. f_equal. apply IH. intros. apply Hp. right. assumption.
    - rewrite entered_S, IH. assert (E : entrants init (S t) = []); [|rewrite E; apply app_nil_r]. unfold entrants. revert Hp. clear.
      induction init as [|a init IH]; intros Hp; [reflexivity|]. cbn [filter]. rewrite (Hp a (or_introl eq_refl)).
      change (0 =? Z.of_nat (S t))%Z with false. cbv iota. apply IH. intros. apply Hp. right. assumption.
  Qed.
  Lemma wage_and_shock_at : exists column : Z -> nat,
    (forall r r', In r data -> In r' data -> column (row_id r) = column (row_id r') -> row_id r = row_id r') /\
    ((forall y, In y (educ_years sp) -> y = 0%Z) -> forall r, In r data -> column (row_id r) = Z.to_nat (row_id r)) /\
    forall r, In r data -> exists draw,
      element (scaled_draws rg mp sp) (Z.to_nat (row_period r)) (column (row_id r)) = Some draw /\
      o_wage r = (if (o_choice r =? 0)%Z then None else Some (sim_wage mp sp b (row_period r) (o_state r) draw)) /\
      exists i r0, sim_row mp sp sol b false (row_period r) (o_state r) draw = Ok (r0, i) /\ r = hide_wage r0.
  Proof.
    destruct (simulated false g data g' Hrg Hspec Hsol Hsim) as (init & educs & dl & cur & nxt & SR).
    pose proof (sr_run _ _ _ _ _ _ _ SR) as Hrun. pose proof (sr_init _ _ _ _ _ _ _ SR) as Hi.
    set (n := Z.to_nat (num_periods sp)).
    set (find := fix find (l : list (agent T)) (id : Z) : nat :=
           match l with [] => 0%nat | a :: l' => if (a_id a =? id)%Z then 0%nat else S (find l' id) end).
    assert (Hfind : forall l k a0, NoDup (map a_id l) -> nth_error l k = Some a0 -> find l (a_id a0) = k).
    { induction l as [|a l IH]; intros [|k] a0 Hn Hk; try discriminate.
      - cbn in Hk. injection Hk as ->. cbn [find]. rewrite Z.eqb_refl. reflexivity.
      - cbn [nth_error] in Hk. cbn [find map] in *. inversion Hn; subst.
        destruct (a_id a =? a_id a0)%Z eqn:E; [|f_equal; apply IH; assumption].
        apply Z.eqb_eq in E. exfalso. apply H1. rewrite E. apply in_map. eapply nth_error_In; eassumption. }
    assert (Hloc : forall r0 t k a idx draw age m a0,
      located rg mp sp sol pc pp (scaled_draws rg mp sp) init b false cur nxt r0 t k a idx draw age m a0 ->
      find (entered init n) (row_id r0) = k).
    { intros r0 t k a idx draw age m a0 L. pose proof (loc_id _ _ _ _ _ _ _ _ _ _ _ _ _ _ _ _ _ _ _ _ _ L) as (I & _).
      rewrite I. apply Hfind.
      - eapply entered_nodup. exact Hi.
      - apply (entered_prefix init t).
        + pose proof (loc_time _ _ _ _ _ _ _ _ _ _ _ _ _ _ _ _ _ _ _ _ _ L). unfold n. lia.
        + apply L. }
    exists (find (entered init n)). split; [|split].
    - intros r r' Hr Hr'. destruct (full_row _ _ _ _ _ r SR Hr) as (r0 & Hr0 & ->). destruct (full_row _ _ _ _ _ r' SR Hr') as (r0' & Hr0' & ->).
      assert (Eh : forall x : out_row T, row_id (hide_wage x) = row_id x) by (intros; unfold row_id; rewrite hide_state; reflexivity).
      rewrite !Eh.
      destruct (locate rg mp sp sol pc pp _ init b false dl cur nxt Hrun r0 Hr0) as (t & k & a & idx & draw & age & m & a0 & L).
      destruct (locate rg mp sp sol pc pp _ init b false dl cur nxt Hrun r0' Hr0') as (t' & k' & a' & idx' & draw' & age' & m' & a0' & L').
      rewrite (Hloc _ _ _ _ _ _ _ _ _ L), (Hloc _ _ _ _ _ _ _ _ _ L'). intros <-.
      pose proof (loc_id _ _ _ _ _ _ _ _ _ _ _ _ _ _ _ _ _ _ _ _ _ L) as (I & _).
      pose proof (loc_id _ _ _ _ _ _ _ _ _ _ _ _ _ _ _ _ _ _ _ _ _ L') as (I' & _).
      pose proof (loc_entered _ _ _ _ _ _ _ _ _ _ _ _ _ _ _ _ _ _ _ _ _ L) as E1.
      pose proof (loc_entered _ _ _ _ _ _ _ _ _ _ _ _ _ _ _ _ _ _ _ _ _ L') as E2.
      apply (entered_prefix init t (Nat.max t t')) in E1; [|lia]. apply (entered_prefix init t' (Nat.max t t')) in E2; [|lia].
      congruence.
    - intros Hz r Hr. destruct (full_row _ _ _ _ _ r SR Hr) as (r0 & Hr0 & ->).
      assert (Eh : row_id (hide_wage r0) = row_id r0) by (unfold row_id; rewrite hide_state; reflexivity). rewrite Eh.
      destruct (locate rg mp sp sol pc pp _ init b false dl cur nxt Hrun r0 Hr0) as (t & k & a & idx & draw & age & m & a0 & L).
      rewrite (Hloc _ _ _ _ _ _ _ _ _ L).
      pose proof (loc_id _ _ _ _ _ _ _ _ _ _ _ _ _ _ _ _ _ _ _ _ _ L) as (I & _). rewrite I.
      pose proof (loc_entered _ _ _ _ _ _ _ _ _ _ _ _ _ _ _ _ _ _ _ _ _ L) as E1.
      rewrite (entered_at_once educs init Hi Hz) in E1. rewrite (en_id _ _ _ _ _ _ _ _ (Hi _ _ E1)). lia.
    - intros r Hr. destruct (full_row _ _ _ _ _ r SR Hr) as (r0 & Hr0 & ->).
      destruct (locate rg mp sp sol pc pp _ init b false dl cur nxt Hrun r0 Hr0) as (t & k & a & idx & draw & age & m & a0 & L).
      pose proof (loc_facts _ _ _ _ _ _ _ _ _ _ _ _ _ _ _ _ _ _ _ _ _ L) as RF.
      assert (Eh : row_id (hide_wage r0) = row_id r0) by (unfold row_id; rewrite hide_state; reflexivity).
      assert (Ep : row_period (hide_wage r0) = Z.of_nat t).
      { unfold row_period. rewrite hide_state, (rf_state _ _ _ _ _ _ _ _ _ _ RF). apply L. }
      exists draw. rewrite Eh, Ep, (Hloc _ _ _ _ _ _ _ _ _ L), Nat2Z.id, hide_state, hide_choice.
      rewrite (rf_state _ _ _ _ _ _ _ _ _ _ RF). split; [apply L|]. split.
      + unfold hide_wage. destruct (o_choice r0 =? 0)%Z; [reflexivity|]. cbn [o_wage]. apply RF.
      + exists idx, r0. split; [apply L|reflexivity].
  Qed.
  Lemma wage_and_shock : exists column : Z -> nat,
    (forall r r', In r data -> In r' data -> column (row_id r) = column (row_id r') -> row_id r = row_id r') /\
    forall r, In r data -> exists draw,
      element (scaled_draws rg mp sp) (Z.to_nat (row_period r)) (column (row_id r)) = Some draw /\
      o_wage r = (if (o_choice r =? 0)%Z then None else Some (sim_wage mp sp b (row_period r) (o_state r) draw)) /\
      exists i r0, sim_row mp sp sol b false (row_period r) (o_state r) draw = Ok (r0, i) /\ r = hide_wage r0.
  Proof. destruct wage_and_shock_at as (column & H1 & _ & H2). exists column. exact (conj H1 H2). Qed.

  (** bounds of the experience columns *)
  Lemma experience_bounds r : In r data ->
    (0 <= a_exp_pt (o_state r) <= init_exp_max sp + row_period r)%Z /\
    (0 <= a_exp_ft (o_state r) <= init_exp_max sp + row_period r)%Z.
  Proof.
    intros Hr. remember (Z.to_nat (row_period r)) as n eqn:En. revert r Hr En.
    destruct (simulated false g data g' Hrg Hspec Hsol Hsim) as (init & educs & dl & cur & nxt & SR).
    pose proof (sr_run _ _ _ _ _ _ _ SR) as Hrun. pose proof (sr_init _ _ _ _ _ _ _ SR) as Hi.
    destruct panel as (educs' & _ & Hed & Hpres & _).
    assert (Hper : forall r, In r data -> (0 <= row_period r)%Z).
    { intros r Hr. destruct (listed r Hr) as [Hs _]. unfold agent_in_space, in_space in Hs. unfold row_period. lia. }
    assert (Hfirst : forall r a0, In r data -> In a0 init -> row_id r = a_id a0 -> row_period r = a_period a0 ->
      (0 <= a_exp_pt (o_state r) <= init_exp_max sp)%Z /\ (0 <= a_exp_ft (o_state r) <= init_exp_max sp)%Z).
    { intros r a0 Hr Ha E1 E2. destruct (full_row _ _ _ _ _ r SR Hr) as (r0 & Hr0 & ->).
      unfold row_id, row_period in E1, E2. rewrite hide_state in *.
      rewrite (first_row rg mp sp sol ip pc pp _ init b false educs b Hi dl cur nxt Hrun r0 a0 Hr0 Ha E1 E2).
      apply In_nth_error in Ha. destruct Ha as [k Hk]. specialize (Hi k a0 Hk).
      split; [apply (en_pt _ _ _ _ _ _ _ _ Hi)|apply (en_ft _ _ _ _ _ _ _ _ Hi)]. }
    assert (Horig : forall r, In r data -> exists a0, In a0 init /\ row_id r = a_id a0 /\ (a_period a0 <= row_period r)%Z).
    { intros r Hr. destruct (full_row _ _ _ _ _ r SR Hr) as (r0 & Hr0 & ->).
      destruct (row_origin rg mp sp sol pc pp _ init b false dl cur nxt Hrun r0 Hr0) as (a0 & Ha0 & E1 & _).
      exists a0. unfold row_id, row_period. rewrite hide_state. split; [assumption|]. split; [exact E1|].
      apply (present rg mp sp sol ip pc pp _ init b false Hspec educs b Hi dl cur nxt Hrun a0 (a_period (o_state r0)) Ha0).
      exists r0. split; [assumption|]. unfold row_key. rewrite E1. reflexivity. }
    induction n as [|n IH]; intros r Hr En.
    - destruct (Horig r Hr) as (a0 & Ha0 & E1 & Hle). pose proof (Hper r Hr).
      pose proof (init_period_nonneg rg mp sp ip init Hspec educs b Hi a0 Ha0).
      destruct (Hfirst r a0 Hr Ha0 E1 ltac:(lia)). lia.
    - destruct (Horig r Hr) as (a0 & Ha0 & E1 & Hle). pose proof (Hper r Hr).
      pose proof (init_period_nonneg rg mp sp ip init Hspec educs b Hi a0 Ha0).
      destruct (Z.eq_dec (a_period a0) (row_period r)) as [E|E].
      + destruct (Hfirst r a0 Hr Ha0 E1 ltac:(lia)). lia.
      + destruct (previous_row r (row_period r - 1) Hr ltac:(lia)) as (rp & Hf & Ep).
        { assert (Hp0 : exists r0, In r0 (List.concat dl) /\ row_key r0 = (a_id a0, a_period a0)).
          { apply (present rg mp sp sol ip pc pp _ init b false Hspec educs b Hi dl cur nxt Hrun a0 (a_period a0) Ha0).
            destruct (listed r Hr) as [Hs _]. unfold agent_in_space, in_space in Hs. unfold row_period in *. lia. }
          destruct Hp0 as (r0 & Hr0 & K). exists (hide_wage r0). rewrite <- hide_key in K. unfold row_key in K. injection K as K1 K2.
          split; [rewrite (sr_data _ _ _ _ _ _ _ SR); apply in_map; assumption|]. split; [congruence|lia]. }
        destruct (history rp r Hf) as (_ & _ & _ & H1 & H2). destruct (IH rp (proj1 Hf) ltac:(lia)) as [B1 B2].
        rewrite H1, H2. destruct (o_choice rp =? 1)%Z, (o_choice rp =? 2)%Z; lia.
  Qed.
End Props.
