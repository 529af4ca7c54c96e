(** The initial states of a simulation. *)
From Coq Require Import ZArith List Lia Arith.
From Verif Require Import Base Num M_Params M_Experience M_StateSpace M_Exog M_Sim
  S_StateSpace S_Rng S_Sim L_Num L_StateSpace L_Trace L_SimUpdate L_Seed.
Import ListNotations.

Section Init.
  Context {T : Type} {NT : Num T}.
  Variable rg : rng T.
  Hypothesis Hrg : rng_ok rg.
  Local Open Scope num_scope.

  (** an array whose entries for levels below [j] are filled with values satisfying Q *)
  Definition filled {A} (Q : Z -> A -> Prop) (educs : list Z) (j : Z) (arr : list (option A)) : Prop :=
    List.length arr = List.length educs /\
    forall k e, nth_error educs k = Some e -> (0 <= e < j)%Z ->
      exists v, nth_error arr k = Some (Some v) /\ Q e v.

  Lemma filled_step {A} (Q : Z -> A -> Prop) educs j arr vals : (0 <= j)%Z ->
    filled Q educs j arr ->
    List.length vals = mask_sum (map (fun e => (e =? j)%Z) educs) ->
    (forall v, In v vals -> Q j v) ->
    filled Q educs (j + 1) (mask_assign (map (fun e => (e =? j)%Z) educs) arr (map Some vals)).
  Proof.
    intros Hj [Hl Hf] Hv HQ. set (mask := map (fun e => (e =? j)%Z) educs) in *.
    assert (Lm : List.length mask = List.length arr) by (unfold mask; rewrite map_length; congruence).
    split; [rewrite mask_assign_length by assumption; assumption|].
    intros k e He Hr.
    assert (Hk : nth_error mask k = Some (e =? j)%Z) by (unfold mask; rewrite nth_error_map', He; reflexivity).
    destruct (e =? j)%Z eqn:E.
    - apply Z.eqb_eq in E. subst e.
      destruct (nth_error_some vals (rank mask k)) as [v Hn]; [rewrite Hv; apply rank_lt; assumption|].
      exists v. split; [|apply HQ; eapply nth_error_In; eassumption].
      apply mask_assign_true; [assumption|assumption|]. rewrite nth_error_map', Hn. reflexivity.
    - apply Z.eqb_neq in E. destruct (Hf k e He ltac:(lia)) as (v & Hn & Hq).
      exists v. split; [|assumption]. rewrite mask_assign_false by assumption. assumption.
  Qed.

  Lemma no_nan_filled {A} (Q : Z -> A -> Prop) educs j arr l :
    filled Q educs j arr -> (forall e, In e educs -> (0 <= e < j)%Z) -> no_nan arr = Ok l ->
    List.length l = List.length educs /\
    forall k e, nth_error educs k = Some e -> exists v, nth_error l k = Some v /\ Q e v.
  Proof.
    intros [Hl Hf] Hr H. unfold no_nan in H. split.
    - apply mapM_length in H. congruence.
    - intros k e He. destruct (Hf k e He (Hr e (nth_error_In _ _ He))) as (v & Hn & Hq).
      destruct (mapM_nth_error _ _ _ _ _ H Hn) as (v' & Hv' & E). injection E as <-. exists v. split; assumption.
  Qed.

  (** what is known about a drawn initial value: it lies in range and was possible *)
  Definition possible (ps : list (list T)) (first : Z) (e v : Z) : Prop :=
    exists p, np_get ps e = Ok p /\ nth_error p (Z.to_nat (v - first)) <> Some #0.

  Definition Qage (sp : model_spec T) (ip : init_probs T) (e v : Z) : Prop :=
    (-1 <= v <= child_age_init_max sp)%Z /\ possible (ip_child_age ip) (-1) e v.
  Definition Qpartner (ip : init_probs T) (e v : Z) : Prop :=
    (v = 0%Z \/ v = 1%Z) /\ exists p, np_get (ip_partner_present ip) e = Ok p /\ drawn rg p v.
  Definition Qexp (sp : model_spec T) (ps : list (list T)) (e v : Z) : Prop :=
    (0 <= v <= init_exp_max sp)%Z /\ possible ps 0 e v.

  Lemma choice_range g lo hi n p l g' : rng_choice rg g (range2 lo hi) n p = Ok (l, g') ->
    List.length l = n /\ forall x, In x l -> (lo <= x < hi)%Z /\ nth_error p (Z.to_nat (x - lo)) <> Some #0.
  Proof.
    intros H. split; [eapply choice_length; eassumption|]. intros x Hx.
    pose proof (choice_values rg Hrg _ _ _ _ _ _ H x Hx) as Hin. apply in_range2 in Hin.
    split; [exact Hin|]. intros E.
    refine (choice_possible rg Hrg _ _ _ _ _ _ H (NoDup_range2 _ _) _ x _ E Hx).
    pose proof (zat_range2 lo hi (x - lo) ltac:(lia)) as Hz. unfold zat in Hz.
    replace (x - lo <? 0)%Z with false in Hz by lia. rewrite Hz. f_equal. lia.
  Qed.

  Record init_inv (sp : model_spec T) (ip : init_probs T) (educs : list Z) (j : Z)
      (acc : init_acc rg) : Prop := {
    inv_age : filled (Qage sp ip) educs j (ia_age rg acc);
    inv_partner : filled (Qpartner ip) educs j (ia_partner rg acc);
    inv_pt : filled (Qexp sp (ip_exp_pt ip)) educs j (ia_pt rg acc);
    inv_ft : filled (Qexp sp (ip_exp_ft ip)) educs j (ia_ft rg acc)
  }.

  Lemma init_body_inv sp ip educs j acc acc' : (0 <= j)%Z ->
    init_inv sp ip educs j acc -> init_body rg sp ip educs j acc = Ok acc' ->
    init_inv sp ip educs (j + 1) acc'.
  Proof.
    intros Hj [H1 H2 H3 H4] H. unfold init_body in H.
    set (mask := map (fun e => (e =? j)%Z) educs) in *.
    destruct (np_get (ip_child_age ip) j) as [pa|] eqn:Ea; cbn [bind] in H; [|discriminate].
    destruct (rng_choice rg (ia_g rg acc) _ _ pa) as [[ages g1]|] eqn:Eages; cbn [bind] in H; [|discriminate].
    destruct (np_get (ip_partner_present ip) j) as [pm|] eqn:Em; cbn [bind] in H; [|discriminate].
    destruct (rng_binomial rg g1 [pm]); cbn [bind] in H; [|discriminate].
    destruct (rng_binomial rg g1 _) as [[ms g2]|] eqn:Ems; cbn [bind] in H; [|discriminate].
    destruct (np_get (ip_exp_pt ip) j) as [ppt|] eqn:Ept; cbn [bind] in H; [|discriminate].
    destruct (rng_choice rg g2 _ _ ppt) as [[pts g3]|] eqn:Epts; cbn [bind] in H; [|discriminate].
    destruct (np_get (ip_exp_ft ip) j) as [pft|] eqn:Eft; cbn [bind] in H; [|discriminate].
    destruct (rng_choice rg g3 _ _ pft) as [[fts g4]|] eqn:Efts; cbn [bind] in H; [|discriminate].
    injection H as <-.
    apply choice_range in Eages. apply choice_range in Epts. apply choice_range in Efts.
    pose proof (binomial_length rg Hrg _ _ _ _ Ems) as Lm. rewrite repeat_length in Lm.
    constructor; cbn [ia_age ia_partner ia_pt ia_ft]; apply filled_step; try assumption; try apply Eages;
      try apply Epts; try apply Efts.
    - intros v Hv. destruct (proj2 Eages v Hv) as [Hr Hp]. split; [lia|]. exists pa. split; assumption.
    - intros v Hv. split; [eapply binomial_values; eassumption|]. exists pm. split; [assumption|].
      apply In_nth_error in Hv. destruct Hv as [i Hi].
      exists g1, (repeat pm (mask_sum mask)), ms, g2, i. repeat split; try assumption.
      apply nth_error_lt in Hi. rewrite Lm in Hi. apply nth_error_repeat. exact Hi.
    - intros v Hv. destruct (proj2 Epts v Hv) as [Hr Hp]. split; [lia|]. exists ppt. split; assumption.
    - intros v Hv. destruct (proj2 Efts v Hv) as [Hr Hp]. split; [lia|]. exists pft. split; assumption.
  Qed.

  Lemma zip_init_nth mp sp b id ps es as_ ms xs ys ts k a :
    nth_error (zip_init mp sp b id ps es as_ ms xs ys ts) k = Some a ->
    exists p e age m x y t,
      nth_error ps k = Some p /\ nth_error es k = Some e /\ nth_error as_ k = Some age /\
      nth_error ms k = Some m /\ nth_error xs k = Some x /\ nth_error ys k = Some y /\
      nth_error ts k = Some t /\ a = init_agent mp sp b (id + Z.of_nat k)%Z p e age m x y t.
  Proof.
    revert id ps es as_ ms xs ys ts. induction k as [|k IH]; intros id ps es as_ ms xs ys ts H.
    - destruct ps, es, as_, ms, xs, ys, ts; cbn [zip_init nth_error] in H; try discriminate H.
      injection H as <-. do 7 eexists. repeat (split; [reflexivity|]). f_equal. cbn. lia.
    - destruct ps, es, as_, ms, xs, ys, ts; cbn [zip_init nth_error] in H; try discriminate H.
      apply IH in H. destruct H as (p & e & age & m & x & y & t & H1 & H2 & H3 & H4 & H5 & H6 & H7 & ->).
      exists p, e, age, m, x, y, t. repeat (split; [assumption|]). f_equal. lia.
  Qed.
  Lemma zip_init_length mp sp b id ps es as_ ms xs ys ts n :
    List.length ps = n -> List.length es = n -> List.length as_ = n -> List.length ms = n ->
    List.length xs = n -> List.length ys = n -> List.length ts = n ->
    List.length (zip_init mp sp b id ps es as_ ms xs ys ts) = n.
  Proof.
    revert id ps es as_ ms xs ys ts. induction n as [|n IH]; intros id ps es as_ ms xs ys ts.
    - destruct ps; [reflexivity|discriminate].
    - destruct ps, es, as_, ms, xs, ys, ts; try discriminate. intros. cbn [zip_init List.length] in *.
      f_equal. apply IH; congruence.
  Qed.

  (** one initial agent *)
  Record entrant (mp : model_params T) (sp : model_spec T) (ip : init_probs T) (b : bool)
      (educs : list Z) (k : nat) (a : agent T) : Prop := {
    en_parts : exists p e age m x y t, a = init_agent mp sp b (Z.of_nat k) p e age m x y t;
    en_id : a_id a = Z.of_nat k;
    en_educ : nth_error educs k = Some (a_educ a);
    en_educ_range : (0 <= a_educ a < num_educ_levels sp)%Z;
    en_educ_possible : nth_error (ip_educ ip) (Z.to_nat (a_educ a)) <> Some #0;
    en_period : np_get (educ_years sp) (a_educ a) = Ok (a_period a);
    en_age : Qage sp ip (a_educ a) (a_age a);
    en_partner : Qpartner ip (a_educ a) (a_partner a);
    en_pt : Qexp sp (ip_exp_pt ip) (a_educ a) (a_exp_pt a);
    en_ft : Qexp sp (ip_exp_ft ip) (a_educ a) (a_exp_ft a);
    en_type : (0 <= a_type a < num_types sp)%Z;
    en_type_possible : nth_error (type_shares mp) (Z.to_nat (a_type a)) <> Some #0;
    en_lagged : (0 <= a_lagged a < 3)%Z;
    en_stock : a = init_agent mp sp b (a_id a) (a_period a) (a_educ a) (a_age a) (a_partner a)
                     (a_exp_pt a) (a_exp_ft a) (a_type a)
  }.

  Lemma lagged_range (y : T) : (0 <= lagged_choice_initial y < 3)%Z.
  Proof.
    unfold lagged_choice_initial. destruct (nlit 1 100000000 <? _); [lia|]. destruct (#1 <? y); lia.
  Qed.

  Definition scaled_draws (mp : model_params T) (sp : model_spec T) : list (list T) :=
    map (map (fun d => d * shock_sd mp))
      (fst (rng_normal rg (rng_seed rg (seed_sim sp)) (Z.to_nat (num_periods sp)) (Z.to_nat (num_agents_sim sp)))).

  Lemma prepare_spec mp sp ip b g init draws g' :
    prepare_simulation_data rg mp sp ip b g = Ok (init, draws, g') ->
    0 <= num_educ_levels sp ->
    exists educs, List.length educs = Z.to_nat (num_agents_sim sp) /\
      (forall e, In e educs -> (0 <= e < num_educ_levels sp)%Z) /\
      List.length init = Z.to_nat (num_agents_sim sp) /\
      (forall k a, nth_error init k = Some a -> entrant mp sp ip b educs k a) /\
      draws = scaled_draws mp sp /\
      exists g1, rng_choice rg g (range (num_educ_levels sp)) (Z.to_nat (num_agents_sim sp)) (ip_educ ip) = Ok (educs, g1).
  Proof.
    intros H HE. unfold prepare_simulation_data in H. set (n := Z.to_nat (num_agents_sim sp)) in *.
    destruct (rng_choice rg g _ n (ip_educ ip)) as [[educs g1]|] eqn:Ee; cbn [bind] in H; [|discriminate].
    destruct (np_size (num_agents_sim sp)) as [n0|]; cbn [bind] in H; [|discriminate].
    destruct (mapM (np_get (educ_years sp)) educs) as [periods|] eqn:Ep; cbn [bind] in H; [|discriminate].
    destruct (for_each _ _ _) as [acc|] eqn:El; cbn [bind] in H; [|discriminate].
    destruct (rng_choice rg (ia_g rg acc) _ n (type_shares mp)) as [[types g2]|] eqn:Et; cbn [bind] in H; [|discriminate].
    destruct (draw_zero_one_distributed_shocks rg _ _ _) as [[dr g3]|] eqn:Ed; cbn [bind] in H; [|discriminate].
    apply shocks_inv in Ed. symmetry in Ed.
    destruct (no_nan (ia_pt rg acc)) as [pts|] eqn:E1; cbn [bind] in H; [|discriminate].
    destruct (no_nan (ia_ft rg acc)) as [fts|] eqn:E2; cbn [bind] in H; [|discriminate].
    destruct (no_nan (ia_age rg acc)) as [ages|] eqn:E3; cbn [bind] in H; [|discriminate].
    destruct (no_nan (ia_partner rg acc)) as [partners|] eqn:E4; cbn [bind] in H; [|discriminate].
    injection H as <- <- <-.
    apply choice_range in Ee. destruct Ee as [Le He]. apply choice_range in Et. destruct Et as [Lt Ht].
    apply mapM_length in Ep as Lp.
    assert (Hed : forall e, In e educs -> (0 <= e < num_educ_levels sp)%Z) by (intros e Hi; apply (He e Hi)).
    assert (Hinv : init_inv sp ip educs (num_educ_levels sp) acc).
    { rewrite <- (Z2Nat.id (num_educ_levels sp)) in El by assumption.
      apply for_each_trace in El. destruct El as (s & S0 & Sn & Hs).
      assert (Hall : forall j, (j <= Z.to_nat (num_educ_levels sp))%nat -> init_inv sp ip educs (Z.of_nat j) (s j)).
      { induction j as [|j IH]; intros Hj.
        - rewrite S0. constructor; cbn [ia_age ia_partner ia_pt ia_ft]; (split; [rewrite repeat_length; congruence|intros; lia]).
        - replace (Z.of_nat (S j)) with (Z.of_nat j + 1)%Z by lia.
          eapply init_body_inv; [lia|apply IH; lia|apply Hs; lia]. }
      rewrite <- Sn. rewrite <- (Z2Nat.id (num_educ_levels sp)) at 1 by assumption. apply Hall. lia. }
    destruct Hinv as [I1 I2 I3 I4].
    destruct (no_nan_filled _ _ _ _ _ I1 Hed E3) as [L1 F1].
    destruct (no_nan_filled _ _ _ _ _ I2 Hed E4) as [L2 F2].
    destruct (no_nan_filled _ _ _ _ _ I3 Hed E1) as [L3 F3].
    destruct (no_nan_filled _ _ _ _ _ I4 Hed E2) as [L4 F4].
    exists educs. split; [exact Le|]. split; [exact Hed|].
    split; [apply zip_init_length; congruence|]. split.
    2:{ split; [unfold scaled_draws; rewrite Ed; reflexivity|]. exists g1. reflexivity. }
    intros k a Ha. apply zip_init_nth in Ha.
    destruct Ha as (p & e & age & m & x & y & t & H1 & H2 & H3 & H4 & H5 & H6 & H7 & Ea).
    cbn [Z.add] in Ea.
    destruct (mapM_nth_error _ _ _ _ _ Ep H2) as (p' & Hp' & Hyear). rewrite H1 in Hp'. injection Hp' as <-.
    destruct (F1 k e H2) as (v1 & G1 & Q1). rewrite H3 in G1. injection G1 as <-.
    destruct (F2 k e H2) as (v2 & G2 & Q2). rewrite H4 in G2. injection G2 as <-.
    destruct (F3 k e H2) as (v3 & G3 & Q3). rewrite H5 in G3. injection G3 as <-.
    destruct (F4 k e H2) as (v4 & G4 & Q4). rewrite H6 in G4. injection G4 as <-.
    destruct (Ht t (nth_error_In _ _ H7)) as [Ht1 Ht2].
    destruct (He e (nth_error_In _ _ H2)) as [He1 He2].
    subst a. constructor; try assumption.
    - repeat eexists.
    - reflexivity.
    - cbn. rewrite Z.sub_0_r in He2. assumption.
    - cbn. rewrite Z.sub_0_r in Ht2. assumption.
    - apply lagged_range.
    - reflexivity.
  Qed.
End Init.
