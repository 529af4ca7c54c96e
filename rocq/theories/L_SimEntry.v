(** Entry rows, behaviour as a function of the state, reservation shocks. *)
From Coq Require Import Reals Lra Lia ZArith List Arith.
From Verif Require Import Base Num M_Params M_Experience M_StateSpace M_Solve M_Exog M_Sim
  S_StateSpace S_Rng S_Sim S_SimEntry L_Num L_StateSpace L_Trace L_SimUpdate L_SimInit L_Sim L_SimData L_SimProps.
Import ListNotations.

Section Entry.
  Context {T : Type} {NT : Num T}.
  Local Open Scope num_scope.
  Variable rg : rng T.
  Variable mp : model_params T.
  Variable sp : model_spec T.
  Variable sol : solution T.
  Variable ip : init_probs T.
  Variable pc : list (list T).
  Variable pp : list (list (list (T * T))).
  Hypothesis Hset : sim_setting rg sp sol.
  Variable data : list (out_row T).
  Hypothesis Hsim : simulation rg mp sp sol ip pc pp data.

  (** the entry row shows an initial state *)
  Lemma entry_is_entrant r : entry_row data r ->
    exists educs k, entrant rg mp sp ip false educs k (o_state r).
  Proof.
    intros [Hr Hmin]. destruct Hset as (Hrg & Hspec & Hsol). destruct Hsim as (g & g' & H).
    destruct (simulated rg mp sp sol ip pc pp false false g data g' Hrg Hspec Hsol H) as (init & educs & dl & cur & nxt & SR).
    pose proof (sr_run _ _ _ _ _ _ _ _ _ _ _ _ _ _ _ SR) as Hrun. pose proof (sr_init _ _ _ _ _ _ _ _ _ _ _ _ _ _ _ SR) as Hi.
    destruct (full_row rg mp sp sol ip pc pp false data init educs dl cur nxt r SR Hr) as (r0 & Hr0 & E).
    destruct (row_origin rg mp sp sol pc pp _ init false false dl cur nxt Hrun r0 Hr0) as (a0 & Ha0 & E1 & _).
    assert (Hp : (a_period a0 <= a_period (o_state r0) < num_periods sp)%Z).
    { apply (present rg mp sp sol ip pc pp _ init false false Hspec educs false Hi dl cur nxt Hrun a0 (a_period (o_state r0)) Ha0).
      exists r0. split; [assumption|]. unfold row_key. rewrite E1. reflexivity. }
    assert (Hp0 : exists r1, In r1 (List.concat dl) /\ row_key r1 = (a_id a0, a_period a0)).
    { apply (present rg mp sp sol ip pc pp _ init false false Hspec educs false Hi dl cur nxt Hrun a0 (a_period a0) Ha0). lia. }
    destruct Hp0 as (r1 & Hr1 & K).
    assert (Hd1 : In (hide_wage r1) data).
    { rewrite (sr_data _ _ _ _ _ _ _ _ _ _ _ _ _ _ _ SR). apply in_map. exact Hr1. }
    rewrite <- hide_key in K. unfold row_key in K. injection K as K1 K2.
    specialize (Hmin _ Hd1). rewrite K1, K2 in Hmin. subst r. unfold row_id, row_period in Hmin. rewrite hide_state in *.
    specialize (Hmin (eq_sym E1)).
    assert (E2 : a_period (o_state r0) = a_period a0) by lia.
    rewrite (first_row rg mp sp sol ip pc pp _ init false false educs false Hi dl cur nxt Hrun r0 a0 Hr0 Ha0 E1 E2).
    apply In_nth_error in Ha0. destruct Ha0 as [k Hk]. exists educs, k. apply Hi. exact Hk.
  Qed.

  (** everybody has an entry row *)
  Lemma entry_exists r : In r data -> exists r0, entry_row data r0 /\ row_id r0 = row_id r /\ (row_period r0 <= row_period r)%Z.
  Proof.
    intros Hr. destruct Hset as (Hrg & Hspec & Hsol). destruct Hsim as (g & g' & H).
    destruct (panel rg mp sp sol ip pc pp false Hrg Hspec Hsol g g' data H) as (educs & _ & Hed & Hpres & _).
    destruct (Hed r Hr) as [Hid Hn]. destruct (Hpres _ _ Hn) as (y & _ & _ & Hy). rewrite Z2Nat.id in Hy by assumption.
    assert (Hall : forall r', In r' data -> row_id r' = row_id r -> (y <= row_period r' < num_periods sp)%Z).
    { intros r' Hr' E. apply Hy. exists r'. split; [assumption|]. unfold row_key. rewrite E. reflexivity. }
    pose proof (Hall r Hr eq_refl) as Hb.
    destruct (proj2 (Hy y) ltac:(lia)) as (r0 & Hr0 & K). unfold row_key in K. injection K as K1 K2.
    exists r0. split; [|split; [assumption|lia]]. split; [assumption|]. intros r' Hr' E. rewrite K1 in E.
    specialize (Hall r' Hr' E). lia.
  Qed.

  (** induction along the rows of an agent *)
  Lemma life_induction (P : out_row T -> Prop) :
    (forall r, entry_row data r -> P r) -> (forall r r', follows data r r' -> P r -> P r') -> forall r, In r data -> P r.
  Proof.
    intros H0 Hs r Hr. destruct (entry_exists r Hr) as (r0 & He & Eid & Hle).
    destruct Hset as (Hrg & Hspec & Hsol). destruct Hsim as (g & g' & H).
    remember (Z.to_nat (row_period r - row_period r0)) as n eqn:En. revert r Hr Eid Hle En.
    induction n as [|n IH]; intros r Hr Eid Hle En.
    - assert (r = r0); [|subst; apply H0; assumption].
      apply (NoDup_key_inj rg mp sp sol ip pc pp false Hrg Hspec Hsol g g' data H); [assumption|apply He|].
      unfold row_key. f_equal; [congruence|lia].
    - destruct (previous_row rg mp sp sol ip pc pp false Hrg Hspec Hsol g g' data H r (row_period r - 1) Hr ltac:(lia)) as (r' & Hf & Ep).
      { exists r0. split; [apply He|]. split; [congruence|lia]. }
      apply (Hs r' r Hf). destruct Hf as (Hr' & _ & E & _). apply IH; [assumption|congruence|lia|lia].
  Qed.

  Lemma np_get_given {A} (l : list A) e p : (0 <= e)%Z -> np_get l e = Ok p -> given_for l e p.
  Proof.
    intros He H. split; [assumption|]. apply np_get_zat_inv in H; [|assumption]. unfold zat in H.
    destruct (e <? 0)%Z eqn:E; [lia|exact H].
  Qed.
  Lemma possible_given ps first e v : (first <= v)%Z -> (0 <= e)%Z -> possible ps first e v ->
    exists p, given_for ps e p /\ can_occur p (v - first).
  Proof.
    intros Hv He (p & Hp & Hn). exists p. split; [apply np_get_given; assumption|]. split; [lia|exact Hn].
  Qed.

  Lemma entry_conditions r : entry_row data r ->
    let a := o_state r in
    (a_educ a < num_educ_levels sp)%Z /\ can_occur (ip_educ ip) (a_educ a) /\
    given_for (educ_years sp) (a_educ a) (a_period a) /\
    (a_type a < num_types sp)%Z /\ can_occur (type_shares mp) (a_type a) /\
    (a_age a <= child_age_init_max sp)%Z /\
    (exists p, given_for (ip_child_age ip) (a_educ a) p /\ can_occur p (a_age a + 1)) /\
    (a_partner a = 0 \/ a_partner a = 1)%Z /\
    (exists p, given_for (ip_partner_present ip) (a_educ a) p /\ drawn rg p (a_partner a)) /\
    (a_exp_pt a <= init_exp_max sp)%Z /\
    (exists p, given_for (ip_exp_pt ip) (a_educ a) p /\ can_occur p (a_exp_pt a)) /\
    (a_exp_ft a <= init_exp_max sp)%Z /\
    (exists p, given_for (ip_exp_ft ip) (a_educ a) p /\ can_occur p (a_exp_ft a)).
  Proof.
    intros Hr a. destruct (entry_is_entrant r Hr) as (educs & k & En). fold a in En.
    pose proof (en_educ_range _ _ _ _ _ _ _ _ En) as He. pose proof (en_type _ _ _ _ _ _ _ _ En) as Ht.
    destruct (en_age _ _ _ _ _ _ _ _ En) as [A1 A2]. destruct (en_partner _ _ _ _ _ _ _ _ En) as [M1 (pm & M2 & M3)].
    destruct (en_pt _ _ _ _ _ _ _ _ En) as [P1 P2]. destruct (en_ft _ _ _ _ _ _ _ _ En) as [F1 F2].
    apply possible_given in A2; [|lia|lia]. apply possible_given in P2; [|lia|lia]. apply possible_given in F2; [|lia|lia].
    rewrite Z.sub_0_r in P2, F2. replace (a_age a - -1)%Z with (a_age a + 1)%Z in A2 by lia.
    split; [lia|]. split; [split; [lia|apply En]|]. split; [apply np_get_given; [lia|apply En]|].
    split; [lia|]. split; [split; [lia|apply En]|]. split; [lia|]. split; [exact A2|]. split; [exact M1|].
    split; [exists pm; split; [apply np_get_given; [lia|exact M2]|exact M3]|].
    split; [lia|]. split; [exact P2|]. split; [lia|exact F2].
  Qed.

  (** education and type never change *)
  Lemma shares_respected r : In r data ->
    can_occur (ip_educ ip) (a_educ (o_state r)) /\ can_occur (type_shares mp) (a_type (o_state r)).
  Proof.
    revert r. apply life_induction.
    - intros r Hr. destruct (entry_conditions r Hr) as (_ & H1 & _ & _ & H2 & _). split; assumption.
    - intros r r' Hf IH. destruct Hset as (Hrg & Hspec & Hsol). destruct Hsim as (g & g' & H).
      destruct (history rg mp sp sol ip pc pp false Hrg Hspec Hsol g g' data H r r' Hf) as (-> & -> & _). exact IH.
  Qed.

  (** the state an agent enters with *)
  Lemma entry_state r : entry_row data r -> let a := o_state r in
    let p := get_pt_increment mp (a_educ a) (a_age a) false in
    let y := #(a_exp_pt a) * p + #(a_exp_ft a) in
    a_lagged a = lagged_choice_initial y /\ a_stock a = exp_years_to_stock y 0 (init_exp_max sp) p.
  Proof.
    intros Hr a p y. destruct (entry_is_entrant r Hr) as (educs & k & En). fold a in En.
    pose proof (en_stock _ _ _ _ _ _ _ _ En) as E. split.
    - rewrite E at 1. reflexivity.
    - rewrite E at 1. reflexivity.
  Qed.
End Entry.

(** behaviour as a function of state, stock and shock *)
Section Policy.
  Context {T : Type} {NT : Num T}.
  Variable mp : model_params T.
  Variable sp : model_spec T.
  Variable sol : solution T.

  Definition act (d : row) (x s : T) : result (Z * option T * option (full_cols T)) :=
    match d with
    | [p; e; l; ty; a; m] =>
        do (r, _) <- sim_row mp sp sol false false p (mkAgent 0 p e l 0 0 x ty a m) s;
        Ok (o_choice r, o_wage (hide_wage r), o_full r)
    | _ => Err (ValueError "not a state")
    end.

  Lemma sim_row_act p (a : agent T) s r i : a_period a = p -> sim_row mp sp sol false false p a s = Ok (r, i) ->
    act (discrete_state a) (a_stock a) s = Ok (o_choice r, o_wage (hide_wage r), o_full r).
  Proof.
    intros <- H. destruct a as [id p e l pt ft x ty ag m]. unfold act, discrete_state.
    cbn [a_period a_educ a_lagged a_type a_age a_partner a_stock] in *.
    unfold sim_row in *. cbn [a_period a_educ a_lagged a_type a_age a_partner a_stock] in *.
    destruct (ix_get _ _) as [idx|]; cbn [bind] in *; [|discriminate].
    destruct (np_get (sol_emaxs sol) idx); cbn [bind] in *; [|discriminate].
    destruct (mapM _ _); cbn [bind] in *; [|discriminate].
    destruct (np_get (sol_non_cons sol) idx); cbn [bind] in *; [|discriminate].
    destruct (np_get (sol_covariates sol) idx); cbn [bind] in *; [|discriminate].
    destruct (np_get (sol_states sol) idx); cbn [bind] in *; [|discriminate].
    destruct (sim_resources _ _ _ _ _ _ _); cbn [bind] in *; [|discriminate].
    injection H as <- <-. cbn [fst snd o_choice o_full]. f_equal. f_equal. f_equal.
    unfold hide_wage. cbn [o_choice]. destruct (_ =? 0)%Z; reflexivity.
  Qed.

  Lemma policy_rows rg ip pc pp data : sim_setting rg sp sol -> simulation rg mp sp sol ip pc pp data ->
    exists column : Z -> nat,
      (forall r r', In r data -> In r' data -> column (row_id r) = column (row_id r') -> row_id r = row_id r') /\
      forall r, In r data -> exists z,
        element (fst (rng_normal rg (rng_seed rg (seed_sim sp)) (Z.to_nat (num_periods sp)) (Z.to_nat (num_agents_sim sp))))
          (Z.to_nat (row_period r)) (column (row_id r)) = Some z /\
        act (discrete_state (o_state r)) (a_stock (o_state r)) (nmul z (shock_sd mp))
        = Ok (o_choice r, o_wage r, o_full r).
  Proof.
    intros (Hrg & Hspec & Hsol) (g & g' & H).
    destruct (wage_and_shock rg mp sp sol ip pc pp false Hrg Hspec Hsol g g' data H) as (column & Hinj & Hrow).
    exists column. split; [exact Hinj|]. intros r Hr. destruct (Hrow r Hr) as (draw & Hd & _ & i & r0 & Hs & E).
    unfold element, scaled_draws in *. rewrite nth_error_map' in Hd. destruct (nth_error _ (Z.to_nat (row_period r))) as [row|]; [|discriminate].
    cbn [option_map] in Hd. rewrite nth_error_map' in Hd. destruct (nth_error row _) as [z|]; [|discriminate].
    cbn [option_map] in Hd. injection Hd as <-. exists z. split; [reflexivity|].
    pose proof (sim_row_act (row_period r) (o_state r) _ r0 i eq_refl Hs) as Ha. rewrite Ha.
    rewrite E, hide_choice, hide_full. reflexivity.
  Qed.
End Policy.
