(** The simulation loop: per-row facts and the trace of a run. *)
From Coq Require Import ZArith List Lia Arith.
From Verif Require Import Base Num M_Params M_Experience M_StateSpace M_Exog M_Sim
  S_StateSpace S_Rng S_Sim L_Num L_StateSpace L_Trace L_SimUpdate L_SimInit.
Import ListNotations.

Section Rows.
  Context {T : Type} {NT : Num T}.
  Local Open Scope num_scope.

  Lemma pd_concat_inv (l : list (list (out_row T))) d : pd_concat l = Ok d -> d = List.concat l.
  Proof. destruct l; [discriminate|]. intros H. injection H as <-. reflexivity. Qed.
  (** every period adds a frame *)
  Lemma frames_counted (rg : rng T) mp sp sol pc pp draws init b sparse maxy l : forall s s',
    for_each l (sim_body rg mp sp sol pc pp draws init b sparse maxy) (Ok s) = Ok s' ->
    List.length (sa_data rg s') = (List.length (sa_data rg s) + List.length l)%nat.
  Proof.
    induction l as [|t l IH]; intros s s' H; [injection H as <-; cbn; lia|]. rewrite for_each_cons in H.
    destruct (sim_body rg mp sp sol pc pp draws init b sparse maxy t s) as [s1|] eqn:E; [|rewrite for_each_err in H; discriminate].
    rewrite (IH _ _ H). cbn [List.length].
    assert (E1 : List.length (sa_data rg s1) = (List.length (sa_data rg s) + 1)%nat); [|lia].
    unfold sim_body in E. cbv zeta in E. destruct (np_get draws t); [|discriminate]. cbn [bind] in E. destruct (negb _); [discriminate|].
    destruct (mapM _ _); [|discriminate]. cbn [bind] in E. destruct (child_update _ _ _ _ _ _ _ _) as [[? ?]|]; [|discriminate]. cbn [bind] in E.
    destruct (partner_update _ _ _ _ _) as [[? ?]|]; [|discriminate]. cbn [bind] in E. injection E as <-. cbn [sa_data]. rewrite app_length. reflexivity.
  Qed.

  Lemma argmax_from_range (l : list T) best bi i : (0 <= bi < i)%Z ->
    (0 <= argmax_from best bi i l < i + zlen l)%Z.
  Proof.
    revert best bi i. induction l as [|x l IH]; intros best bi i H; cbn [argmax_from].
    - unfold zlen. cbn [List.length]. lia.
    - rewrite zlen_cons. destruct (best <? x).
      + specialize (IH x i (i + 1)%Z ltac:(lia)). lia.
      + specialize (IH best bi (i + 1)%Z ltac:(lia)). lia.
  Qed.
  Lemma argmax_range (l : list T) : l <> [] -> (0 <= argmax l < zlen l)%Z.
  Proof.
    destruct l as [|x l]; [congruence|]. intros _. cbn [argmax]. rewrite zlen_cons.
    pose proof (argmax_from_range l x 0 1 ltac:(lia)). lia.
  Qed.

  Variable mp : model_params T.
  Variable sp : model_spec T.
  Variable sol : solution T.
  Hypothesis Hsz : sizes_ok sp.
  Hypothesis Hsol : solution_for sp sol.

  Definition sim_wage (b : bool) (t : Z) (a : agent T) (draw : T) : T :=
    nexp (calculate_log_wage mp (a_educ a) (a_stock a) (init_exp_max sp)
            (get_pt_increment mp (a_educ a) (a_age a) b) t + draw) * elasticity_scale sp.

  Record row_facts (b sparse : bool) (t : Z) (a : agent T) (draw : T) (r : out_row T) (idx : Z) : Prop := {
    rf_state : o_state r = a;
    rf_ix : ix_get (sol_indexer sol) (a_period a, a_educ a, a_lagged a, a_type a, a_age a, a_partner a) = Ok idx;
    rf_idx : idx = row_number sp (a_period a) (a_educ a) (a_lagged a) (a_type a) (a_age a) (a_partner a);
    rf_listed : np_get (sol_states sol) idx = Ok (discrete_state a);
    rf_rule : np_get (sol_rule sol) idx = Ok (aged sp (a_age a));
    rf_choice : (0 <= o_choice r < 3)%Z;
    rf_wage : o_wage r = Some (sim_wage b t a draw);
    rf_full : exists emax_row cont non_cons c resources,
      np_get (sol_emaxs sol) idx = Ok emax_row /\
      mapM (fun c => interp_uniform_grid (map (fun q => aget q c) emax_row) (a_stock a)) (range NUM_CHOICES) = Ok cont /\
      np_get (sol_non_cons sol) idx = Ok non_cons /\
      np_get (sol_covariates sol) idx = Ok c /\
      sim_resources sp (discrete_state a) c (a_age a) (a_partner a)
        (calculate_log_wage mp (a_educ a) (a_stock a) (init_exp_max sp)
            (get_pt_increment mp (a_educ a) (a_age a) b) t) (sim_wage b t a draw) = Ok resources /\
      let flow := map2 (fun r u => flow_utility (mu mp) r (cov_equiv c) u) resources non_cons in
      let value := map2 (fun f v => f + delta mp * v) flow cont in
      o_choice r = argmax value /\
      o_full r = (if sparse then None else Some (mkFull (cov_male_wage c) non_cons flow cont value))
  }.

  Lemma childless_slot ss p e l t a m : create_state_space_objects sp = Ok ss ->
    in_space sp p e l t a m ->
    ix_get (ss_indexer ss)
      (p, e, l, t, (if a =? -1 then ix_shape4 (ss_indexer ss) - 1 else a)%Z, m)
    = ix_get (ss_indexer ss) (p, e, l, t, a, m).
  Proof.
    intros Hss Hin. destruct (a =? -1)%Z eqn:E; [|reflexivity]. apply Z.eqb_eq in E. subst a.
    destruct (ss_inv sp Hsz ss Hss) as (_ & _ & _ & _ & _ & Hsh).
    unfold ix_get, ix_shape4. rewrite Hsh. unfold shape, ix_norm, np_norm.
    destruct Hsz as (_ & _ & _ & HA).
    replace ((0 <=? child_age_max sp + 2 - 1) && (child_age_max sp + 2 - 1 <? child_age_max sp + 2))%Z with true by lia.
    replace ((0 <=? -1) && (-1 <? child_age_max sp + 2))%Z with false by lia.
    replace ((- (child_age_max sp + 2) <=? -1) && (-1 <? 0))%Z with true by lia.
    replace (-1 + (child_age_max sp + 2))%Z with (child_age_max sp + 2 - 1)%Z by lia. reflexivity.
  Qed.

  Lemma sim_row_facts b sparse t a draw r idx : agent_in_space sp a ->
    sim_row mp sp sol b sparse t a draw = Ok (r, idx) -> row_facts b sparse t a draw r idx.
  Proof.
    intros Hin H. destruct Hsol as (ss & Hss & E1 & E2 & E3 & E4). unfold agent_in_space in Hin.
    unfold sim_row in H. rewrite E2 in H. rewrite (childless_slot ss _ _ _ _ _ _ Hss Hin) in H.
    destruct (ss_lookup sp Hsz ss Hss _ _ _ _ _ _ Hin) as (i & Hi & Hr & Hl & _). rewrite Hi in H. cbn [bind] in H.
    destruct (np_get (sol_emaxs sol) i) as [emax_row|] eqn:Ee; cbn [bind] in H; [|discriminate].
    destruct (mapM _ (range NUM_CHOICES)) as [cont|] eqn:Ec; cbn [bind] in H; [|discriminate].
    destruct (np_get (sol_non_cons sol) i) as [nc|] eqn:En; cbn [bind] in H; [|discriminate].
    destruct (np_get (sol_covariates sol) i) as [c|] eqn:Ecov; cbn [bind] in H; [|discriminate].
    destruct (np_get (sol_states sol) i) as [state|] eqn:Est; cbn [bind] in H; [|discriminate].
    rewrite E1, Hl in Est. injection Est as <-.
    destruct (sim_resources _ _ _ _ _ _ _) as [res|] eqn:Er; cbn [bind] in H; [|discriminate].
    injection H as <- <-.
    pose proof (ss_inv sp Hsz ss Hss) as (_ & Hg & _). rewrite Hg in Hi by assumption. injection Hi as Hi.
    constructor; cbn [o_state o_choice o_wage o_full].
    - reflexivity.
    - rewrite E2, <- Hi. apply Hg. assumption.
    - symmetry. exact Hi.
    - rewrite E1. exact Hl.
    - rewrite E4. apply (ss_rule sp Hsz ss Hss i _ _ _ _ _ _ Hin). rewrite <- Hi. apply Hg. assumption.
    - match goal with |- context [argmax ?v] => set (vl := v) end.
      apply mapM_length in Ec. change (List.length (range NUM_CHOICES)) with 3%nat in Ec.
      assert (Hlv : (zlen vl <= 3)%Z).
      { unfold vl, zlen. rewrite map2_length, Ec. lia. }
      destruct vl as [|v0 vl'] eqn:Ev; [cbn; lia|].
      pose proof (argmax_range (v0 :: vl') ltac:(congruence)). lia.
    - reflexivity.
    - exists emax_row, cont, nc, c, res. repeat (split; [first [assumption|reflexivity]|]).
      split; reflexivity.
  Qed.
End Rows.

Section Trace.
  Context {T : Type} {NT : Num T}.
  Local Open Scope num_scope.
  Variable rg : rng T.
  Hypothesis Hrg : rng_ok rg.
  Variable mp : model_params T.
  Variable sp : model_spec T.
  Variable sol : solution T.
  Variable ip : init_probs T.
  Variable pc : list (list T).
  Variable pp : list (list (list (T * T))).
  Variable draws : list (list T).
  Variable init : list (agent T).
  Variable b sparse : bool.
  Hypothesis Hspec : sim_spec_ok sp.
  Hypothesis Hsol : solution_for sp sol.
  Variable educs : list Z.
  Variable bi : bool.
  Hypothesis Hinit : forall k a, nth_error init k = Some a -> entrant rg mp sp ip bi educs k a.

  Lemma sizes : sizes_ok sp.
  Proof. destruct Hspec as (H1 & H2 & H3 & H4 & H5 & _). unfold sizes_ok. rewrite H5. pose proof (zlen_nonneg (educ_years sp)). lia. Qed.

  Definition entrants (t : nat) : list (agent T) := filter (fun a => (a_period a =? Z.of_nat t)%Z) init.
  Definition entered (t : nat) : list (agent T) := flat_map entrants (seq 0 (S t)).

  Lemma entered_S t : entered (S t) = entered t ++ entrants (S t).
  Proof.
    unfold entered. rewrite (seq_S (S t) 0), flat_map_app. cbn [flat_map Nat.add]. rewrite app_nil_r. reflexivity.
  Qed.
  Lemma entered_0 : entered 0 = entrants 0.
  Proof. unfold entered. cbn [seq flat_map]. apply app_nil_r. Qed.

  Lemma in_entrants t a : In a (entrants t) <-> In a init /\ a_period a = Z.of_nat t.
  Proof. unfold entrants. rewrite filter_In, Z.eqb_eq. reflexivity. Qed.
  Lemma in_entered t a : In a (entered t) <-> In a init /\ (0 <= a_period a <= Z.of_nat t)%Z.
  Proof.
    unfold entered. rewrite in_flat_map. split.
    - intros (u & Hu & Ha). apply in_seq in Hu. apply in_entrants in Ha. destruct Ha as [Ha E]. split; [assumption|lia].
    - intros [Ha Hp]. exists (Z.to_nat (a_period a)). split; [apply in_seq; lia|].
      apply in_entrants. split; [assumption|lia].
  Qed.

  Lemma init_in a : In a init -> exists k, nth_error init k = Some a /\ entrant rg mp sp ip bi educs k a.
  Proof. intros H. apply In_nth_error in H. destruct H as [k H]. exists k. split; [assumption|]. apply Hinit. assumption. Qed.

  Lemma init_ids a a' : In a init -> In a' init -> a_id a = a_id a' -> a = a'.
  Proof.
    intros H H' E. destruct (init_in a H) as (k & Hk & En). destruct (init_in a' H') as (k' & Hk' & En').
    rewrite (en_id _ _ _ _ _ _ _ _ En), (en_id _ _ _ _ _ _ _ _ En') in E. assert (k = k') by lia. congruence.
  Qed.

  Lemma init_nodup : NoDup (map a_id init).
  Proof.
    apply NoDup_nth_error. intros i j Hi E. rewrite map_length in Hi.
    destruct (nth_error_some init i Hi) as [a Ha]. rewrite !nth_error_map', Ha in E. cbn [option_map] in E.
    destruct (nth_error init j) as [a'|] eqn:Ha'; [|discriminate]. cbn [option_map] in E. injection E as E.
    pose proof (en_id _ _ _ _ _ _ _ _ (Hinit i a Ha)). pose proof (en_id _ _ _ _ _ _ _ _ (Hinit j a' Ha')). lia.
  Qed.

  Lemma NoDup_map_app {A B} (f : A -> B) l m : NoDup (map f l) -> NoDup (map f m) ->
    (forall x y, In x l -> In y m -> f x <> f y) -> NoDup (map f (l ++ m)).
  Proof.
    intros Hl Hm Hd. induction l as [|x l IH]; [exact Hm|]. cbn [app map] in *. inversion Hl; subst.
    constructor.
    - rewrite map_app, in_app_iff. intros [H|H]; [contradiction|].
      apply in_map_iff in H. destruct H as (y & E & Hy). apply (Hd x y); [left; reflexivity|assumption|congruence].
    - apply IH; [assumption|]. intros; apply Hd; [right; assumption|assumption].
  Qed.
  Lemma NoDup_map_filter {A B} (f : A -> B) p l : NoDup (map f l) -> NoDup (map f (filter p l)).
  Proof.
    induction l as [|x l IH]; intros H; [constructor|]. cbn [map filter] in *. inversion H; subst.
    destruct (p x); [|apply IH; assumption]. cbn [map]. constructor; [|apply IH; assumption].
    intros Hin. apply in_map_iff in Hin. destruct Hin as (y & E & Hy). apply filter_In in Hy.
    apply H2. rewrite <- E. apply in_map. apply Hy.
  Qed.

  Lemma entered_nodup t : NoDup (map a_id (entered t)).
  Proof.
    induction t as [|t IH].
    - rewrite entered_0. apply NoDup_map_filter. apply init_nodup.
    - rewrite entered_S. apply NoDup_map_app; [assumption|apply NoDup_map_filter; apply init_nodup|].
      intros x y Hx Hy E. apply in_entered in Hx. apply in_entrants in Hy. destruct Hx as [Hx Px], Hy as [Hy Py].
      assert (x = y) by (apply init_ids; assumption). subst y. lia.
  Qed.

  Lemma np_max_ge l m : np_max l = Ok m -> forall x, In x l -> (x <= m)%Z.
  Proof.
    destruct l as [|y l]; [discriminate|]. cbn [np_max]. intros H. injection H as <-.
    assert (Hg : forall l y, (y <= fold_left Z.max l y)%Z /\ forall x, In x l -> (x <= fold_left Z.max l y)%Z).
    { clear. induction l as [|z l IH]; intros y; cbn [fold_left].
      - split; [lia|intros x []].
      - destruct (IH (Z.max y z)) as [H1 H2]. split; [lia|]. intros x [-> | Hx]; [lia|]. apply H2. assumption. }
    intros x [-> | Hx]; [exact (proj1 (Hg l x))|exact (proj2 (Hg l y) x Hx)].
  Qed.

  Lemma init_period_bound m a : np_max (educ_years sp) = Ok m -> In a init -> (a_period a <= m)%Z.
  Proof.
    intros Hm Ha. destruct (init_in a Ha) as (k & _ & En). pose proof (en_period _ _ _ _ _ _ _ _ En) as Hy.
    apply (np_max_ge _ _ Hm). eapply np_get_Ok_in. eassumption.
  Qed.

  Lemma init_period_nonneg a : In a init -> (0 <= a_period a)%Z.
  Proof.
    intros Ha. destruct (init_in a Ha) as (k & _ & En). pose proof (en_period _ _ _ _ _ _ _ _ En) as Hy.
    apply np_get_Ok_in in Hy. apply Hspec. assumption.
  Qed.

  Lemma entrant_in_space a : In a init -> (a_period a < num_periods sp)%Z -> agent_in_space sp a.
  Proof.
    intros Ha Hp. pose proof (init_period_nonneg a Ha). destruct (init_in a Ha) as (k & _ & En).
    destruct Hspec as (_ & _ & _ & Hca & _).
    pose proof (proj1 (en_age _ _ _ _ _ _ _ _ En)). pose proof (proj1 (en_partner _ _ _ _ _ _ _ _ En)).
    pose proof (en_educ_range _ _ _ _ _ _ _ _ En). pose proof (en_type _ _ _ _ _ _ _ _ En).
    pose proof (en_lagged _ _ _ _ _ _ _ _ En).
    unfold agent_in_space, in_space. lia.
  Qed.

  (** *** the run *)
  Definition same_person (a a0 : agent T) : Prop :=
    a_id a = a_id a0 /\ a_educ a = a_educ a0 /\ a_type a = a_type a0.

  (** facts about one period of the run; [cur] agents at its start *)
  Record period_facts (t : nat) (cur : list (agent T)) (out : list (out_row T)) (nxt : list (agent T)) : Prop := {
    pf_length : List.length out = List.length cur;
    pf_next_length : List.length nxt = List.length cur;
    pf_row : forall k a, nth_error cur k = Some a -> exists r idx draw age m,
      nth_error out k = Some r /\ element draws t k = Some draw /\
      sim_row mp sp sol b sparse (Z.of_nat t) a draw = Ok (r, idx) /\
      row_facts mp sp sol b sparse (Z.of_nat t) a draw r idx /\
      nth_error nxt k = Some (next_agent mp sp b (Z.of_nat t) a (o_choice r) age m) /\
      (Z.of_nat t = (num_periods sp - 1)%Z -> age = a_age a) /\
      (Z.of_nat t <> (num_periods sp - 1)%Z -> (Z.of_nat t <= last_child_bearing_period sp)%Z ->
         exists pr p d, np_get pc (Z.of_nat t + 1)%Z = Ok pr /\ np_get pr (a_educ a) = Ok p /\ drawn rg p d /\
           age = if (d =? 0)%Z then aged sp (a_age a) else 0%Z) /\
      (Z.of_nat t <> (num_periods sp - 1)%Z -> (last_child_bearing_period sp < Z.of_nat t)%Z ->
         age = aged sp (a_age a)) /\
      (a_partner a = 0%Z -> exists pr, partner_prob pp (Z.of_nat t) (a_educ a) 0 = Ok pr /\ drawn rg (snd pr) m) /\
      (a_partner a = 1%Z -> exists pr s, partner_prob pp (Z.of_nat t) (a_educ a) 1 = Ok pr /\
          drawn rg (fst pr) s /\ m = (1 - s)%Z)
  }.

  Lemma sim_body_facts maxy (t : nat) acc acc' :
    np_max (educ_years sp) = Ok maxy ->
    sim_body rg mp sp sol pc pp draws init b sparse maxy (Z.of_nat t) acc = Ok acc' ->
    let cur := sa_current rg acc ++ entrants t in
    (forall a, In a cur -> agent_in_space sp a) ->
    exists out, sa_data rg acc' = sa_data rg acc ++ [out] /\ period_facts t cur out (sa_current rg acc').
  Proof.
    intros Hm H cur Hin. unfold sim_body in H.
    assert (Ecur : (if (Z.of_nat t <=? maxy)%Z
             then sa_current rg acc ++ filter (fun a => (a_period a =? Z.of_nat t)%Z) init
             else sa_current rg acc) = cur).
    { unfold cur. destruct (Z.of_nat t <=? maxy)%Z eqn:E; [reflexivity|].
      assert (En : entrants t = []).
      { destruct (entrants t) as [|a l] eqn:Ea; [reflexivity|].
        assert (Ha : In a (entrants t)) by (rewrite Ea; left; reflexivity).
        apply in_entrants in Ha. destruct Ha as [Ha Hp]. pose proof (init_period_bound _ _ Hm Ha). lia. }
      rewrite En, app_nil_r. reflexivity. }
    rewrite Ecur in H.
    destruct (np_get draws (Z.of_nat t)) as [drow|] eqn:Ed; cbn [bind] in H; [|discriminate].
    destruct (negb _) eqn:El; [discriminate|]. apply Bool.negb_false_iff, Nat.eqb_eq in El.
    destruct (mapM _ (combine cur _)) as [rows|] eqn:Er; cbn [bind] in H; [|discriminate].
    destruct (child_update _ _ _ _ _ _ _ _) as [[ages g1]|] eqn:Ec; cbn [bind] in H; [|discriminate].
    destruct (partner_update _ _ _ _ _) as [[partners g2]|] eqn:Ep; cbn [bind] in H; [|discriminate].
    injection H as <-. cbn [sa_data sa_current].
    apply mapM_length in Er as Lr. rewrite combine_length, El, Nat.min_id in Lr.
    apply child_update_spec in Ec; [|assumption|rewrite map_length; assumption]. destruct Ec as [La Hage].
    apply partner_update_spec in Ep; [|assumption|].
    2:{ intros a Ha. specialize (Hin a Ha). unfold agent_in_space, in_space in Hin. lia. }
    destruct Ep as [Lp Hpart].
    exists (map fst rows). split; [reflexivity|]. constructor.
    - rewrite map_length. assumption.
    - unfold advance. rewrite map_length, !combine_length. lia.
    - intros k a Ha.
      destruct (nth_error_some (firstn (List.length cur) drow) k) as [draw Hd].
      { rewrite El. apply nth_error_lt in Ha. assumption. }
      destruct (mapM_nth_error _ _ _ _ _ Er (combine_nth_error _ _ _ _ _ Ha Hd)) as ([r idx] & Hr & Hs).
      pose proof (sim_row_facts mp sp sol sizes Hsol b sparse (Z.of_nat t) a draw r idx
                    (Hin a (nth_error_In _ _ Ha)) Hs) as RF.
      destruct (Hage k a idx (aged sp (a_age a)) Ha) as (age & Hage1 & A1 & A2 & A3).
      { rewrite nth_error_map', Hr. reflexivity. }
      { apply RF. }
      destruct (Hpart k a Ha) as (m & Hm1 & M1 & M2).
      exists r, idx, draw, age, m.
      split; [rewrite nth_error_map', Hr; reflexivity|].
      split.
      { unfold element. apply np_get_zat_inv in Ed; [|lia]. unfold zat in Ed. rewrite of_nat_ltb0, Nat2Z.id in Ed.
        rewrite Ed. rewrite nth_error_firstn in Hd; [assumption|]. apply nth_error_lt in Ha. assumption. }
      split; [exact Hs|]. split; [exact RF|]. split.
      { unfold advance. rewrite nth_error_map'.
        rewrite (combine_nth_error _ _ k (a, (r, idx), age) m); [reflexivity| |exact Hm1].
        apply combine_nth_error; [|exact Hage1]. apply combine_nth_error; assumption. }
      repeat (split; [assumption|]). assumption.
  Qed.

  Definition person_inv (t : nat) (cur : list (agent T)) : Prop :=
    List.length cur = List.length (entered t) /\
    forall k a, nth_error cur k = Some a ->
      agent_in_space sp a /\ a_period a = Z.of_nat t /\
      exists a0, nth_error (entered t) k = Some a0 /\ same_person a a0.

  Lemma entrants_inv t : (Z.of_nat t < num_periods sp)%Z -> forall a, In a (entrants t) ->
    agent_in_space sp a /\ a_period a = Z.of_nat t /\ same_person a a.
  Proof.
    intros Ht a Ha. apply in_entrants in Ha. destruct Ha as [Ha Hp].
    split; [apply entrant_in_space; [assumption|lia]|]. split; [assumption|]. repeat split.
  Qed.

  Lemma next_in_space t cur out nxt : (Z.of_nat (S t) < num_periods sp)%Z ->
    period_facts t cur out nxt -> person_inv t cur ->
    forall k a, nth_error nxt k = Some a ->
      agent_in_space sp a /\ a_period a = Z.of_nat (S t) /\
      exists a0, nth_error (entered t) k = Some a0 /\ same_person a a0.
  Proof.
    intros Ht PF [Hl Hp] k a' Ha'.
    destruct (nth_error_some cur k) as [a Ha].
    { rewrite <- (pf_next_length _ _ _ _ PF). apply nth_error_lt in Ha'. assumption. }
    destruct (pf_row _ _ _ _ PF k a Ha) as (r & idx & draw & age & m & _ & _ & _ & RF & Hn & A1 & A2 & A3 & M1 & M2).
    rewrite Ha' in Hn. injection Hn as ->.
    destruct (Hp k a Ha) as (Hin & Hper & a0 & Ha0 & Hsame).
    unfold agent_in_space, in_space in *. cbn [next_agent a_period a_educ a_lagged a_type a_age a_partner].
    pose proof (rf_choice _ _ _ _ _ _ _ _ _ _ RF) as Hc.
    assert (Hage : (-1 <= age <= child_age_max sp)%Z).
    { pose proof (aged_range sp (a_age a) ltac:(lia)) as Har. destruct Hspec as (_ & _ & HA & _).
      destruct (Z.le_gt_cases (Z.of_nat t) (last_child_bearing_period sp)).
      - destruct A2 as (pr & p & d & _ & _ & _ & ->); [lia|assumption|]. destruct (d =? 0)%Z; lia.
      - rewrite A3 by lia. lia. }
    assert (Hm : (0 <= m < 2)%Z).
    { assert (a_partner a = 0%Z \/ a_partner a = 1%Z) as [E|E] by lia.
      - destruct (M1 E) as (pr & _ & Hd). apply drawn_01 in Hd; [lia|assumption].
      - destruct (M2 E) as (pr & s & _ & Hd & ->). apply drawn_01 in Hd; [lia|assumption]. }
    split; [lia|]. split; [lia|]. exists a0. split; [assumption|]. exact Hsame.
  Qed.

  (** A run: states at the start of every period, outputs, and states carried over. *)
  Record run (data : list (list (out_row T))) (cur : nat -> list (agent T))
      (nxt : nat -> list (agent T)) : Prop := {
    run_length : List.length data = Z.to_nat (num_periods sp);
    run_start : (0 < num_periods sp)%Z -> cur 0%nat = entrants 0;
    run_next : forall t, (Z.of_nat (S t) < num_periods sp)%Z -> cur (S t) = nxt t ++ entrants (S t);
    run_period : forall t, (Z.of_nat t < num_periods sp)%Z ->
      person_inv t (cur t) /\
      exists out, nth_error data t = Some out /\ period_facts t (cur t) out (nxt t)
  }.

  (** invariants along the loop *)
  Lemma trace_inv maxy (s : nat -> sim_acc rg) g P :
    np_max (educ_years sp) = Ok maxy -> num_periods sp = Z.of_nat P ->
    s 0%nat = mkSimAcc rg [] [] g ->
    (forall t, (t < P)%nat -> sim_body rg mp sp sol pc pp draws init b sparse maxy (Z.of_nat t) (s t) = Ok (s (S t))) ->
    let cur := fun t => sa_current rg (s t) ++ entrants t in
    forall t, (t <= P)%nat ->
      List.length (sa_data rg (s t)) = t /\
      ((t < P)%nat -> person_inv t (cur t)) /\
      forall u, (u < t)%nat -> exists out, nth_error (sa_data rg (s t)) u = Some out /\
        period_facts u (cur u) out (sa_current rg (s (S u))).
  Proof.
    intros Em EP S0 Hs cur.
    induction t as [|t IH]; intros Ht.
      - rewrite S0. split; [reflexivity|]. split; [|intros; lia]. intros Hlt.
        unfold cur. rewrite S0. cbn [sa_current app]. unfold person_inv. rewrite entered_0. split; [reflexivity|].
        intros k a Ha. pose proof (entrants_inv 0 ltac:(lia) a (nth_error_In _ _ Ha)) as (H1 & H2 & H3).
        split; [assumption|]. split; [assumption|]. exists a. split; assumption.
      - destruct (IH ltac:(lia)) as (Hl & Hp & Hd). specialize (Hp ltac:(lia)).
        destruct (sim_body_facts maxy t (s t) (s (S t)) Em (Hs t ltac:(lia))) as (out & Hdata & PF).
        { intros a Ha. apply In_nth_error in Ha. destruct Ha as [k Ha]. apply (proj2 Hp k a Ha). }
        fold (cur t) in PF.
        split; [rewrite Hdata, app_length, Hl; cbn; lia|]. split.
        + intros Hlt. unfold person_inv. unfold cur. rewrite entered_S, !app_length. split.
          { f_equal. rewrite (pf_next_length _ _ _ _ PF). apply Hp. }
          intros k a Ha.
          assert (Lc : List.length (sa_current rg (s (S t))) = List.length (entered t)).
          { rewrite (pf_next_length _ _ _ _ PF). apply Hp. }
          destruct (Nat.lt_ge_cases k (List.length (sa_current rg (s (S t))))) as [Hk|Hk].
          * rewrite nth_error_app1 in Ha by assumption.
            rewrite nth_error_app1 by (rewrite <- Lc; assumption).
            eapply next_in_space; [lia|exact PF|exact Hp|exact Ha].
          * rewrite nth_error_app2 in Ha by assumption. rewrite nth_error_app2 by (rewrite <- Lc; assumption).
            rewrite <- Lc.
            pose proof (entrants_inv (S t) ltac:(lia) a (nth_error_In _ _ Ha)) as (H1 & H2 & H3).
            split; [assumption|]. split; [assumption|]. exists a. split; assumption.
        + intros u Hu. rewrite Hdata. destruct (Nat.eq_dec u t) as [->|Hne].
          * exists out. split; [|exact PF]. rewrite nth_error_app2 by lia. rewrite Hl, Nat.sub_diag. reflexivity.
          * destruct (Hd u ltac:(lia)) as (o & Ho & PFu). exists o. split; [|exact PFu].
            rewrite nth_error_app1 by lia. assumption.
  Qed.

  Lemma run_exists g data g' :
    simulate_agents_over_periods rg mp sp sol pc pp draws init b sparse g = Ok (data, g') ->
    exists cur nxt, run data cur nxt.
  Proof.
    unfold simulate_agents_over_periods. intros H.
    destruct (np_max (educ_years sp)) as [maxy|] eqn:Em; cbn [bind] in H; [|discriminate].
    destruct (for_each _ _ _) as [acc|] eqn:Ef; cbn [bind] in H; [|discriminate]. injection H as <- <-.
    assert (HP : (0 <= num_periods sp)%Z) by (pose proof (proj1 Hspec); lia).
    set (P := Z.to_nat (num_periods sp)) in *.
    assert (EP : num_periods sp = Z.of_nat P) by (unfold P; lia).
    rewrite EP in Ef. apply for_each_trace in Ef. destruct Ef as (s & S0 & Sn & Hs).
    pose proof (trace_inv maxy s g P Em EP S0 Hs) as Hall. cbn zeta in Hall.
    set (cur := fun t => sa_current rg (s t) ++ entrants t).
    exists cur, (fun t => sa_current rg (s (S t))).
    destruct (Hall P ltac:(lia)) as (Hl & _ & Hd). rewrite Sn in Hl, Hd. constructor.
    - exact Hl.
    - intros _. unfold cur. rewrite S0. reflexivity.
    - intros t Ht. reflexivity.
    - intros t Ht. split; [apply Hall; lia|]. apply Hd. lia.
  Qed.
End Trace.
