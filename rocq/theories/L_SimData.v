(** From the run of the loop to statements about the rows of the returned data. *)
From Coq Require Import ZArith List Lia Arith.
From Verif Require Import Base Num M_Params M_Experience M_StateSpace M_Exog M_Sim
  S_StateSpace S_Rng S_Sim L_Num L_StateSpace L_Trace L_SimUpdate L_SimInit L_Sim.
Import ListNotations.

Section Data.
  Context {T : Type} {NT : Num T}.
  Local Open Scope num_scope.
  Variable rg : rng T.
  Hypothesis Hrg : rng_ok rg.
  Variable mp : model_params T.
  Variable sp : model_spec T.
  Variable sol : solution T.
  Variable ip : init_probs T.
  Variable pc : list (list T).
  Variable pp : list (list (list (T * T))).
  Variable draws : list (list T).
  Variable init : list (agent T).
  Variable b sparse : bool.
  Hypothesis Hspec : sim_spec_ok sp.
  Hypothesis Hsol : solution_for sp sol.
  Variable educs : list Z.
  Variable bi : bool.
  Hypothesis Hinit : forall k a, nth_error init k = Some a -> entrant rg mp sp ip bi educs k a.
  Variable dl : list (list (out_row T)).
  Variable cur nxt : nat -> list (agent T).
  Hypothesis Hrun : run rg mp sp sol pc pp draws init b sparse dl cur nxt.

  Record located (r : out_row T) (t k : nat) (a : agent T) (idx : Z) (draw : T) (age m : Z)
      (a0 : agent T) : Prop := {
    loc_time : (Z.of_nat t < num_periods sp)%Z;
    loc_cur : nth_error (cur t) k = Some a;
    loc_space : agent_in_space sp a;
    loc_period : a_period a = Z.of_nat t;
    loc_entered : nth_error (entered init t) k = Some a0;
    loc_same : same_person a a0;
    loc_draw : element draws t k = Some draw;
    loc_row : sim_row mp sp sol b sparse (Z.of_nat t) a draw = Ok (r, idx);
    loc_facts : row_facts mp sp sol b sparse (Z.of_nat t) a draw r idx;
    loc_next : nth_error (nxt t) k = Some (next_agent mp sp b (Z.of_nat t) a (o_choice r) age m);
    loc_age1 : Z.of_nat t <> (num_periods sp - 1)%Z -> (Z.of_nat t <= last_child_bearing_period sp)%Z ->
      exists pr p d, np_get pc (Z.of_nat t + 1)%Z = Ok pr /\ np_get pr (a_educ a) = Ok p /\ drawn rg p d /\
        age = if (d =? 0)%Z then aged sp (a_age a) else 0%Z;
    loc_age2 : Z.of_nat t <> (num_periods sp - 1)%Z -> (last_child_bearing_period sp < Z.of_nat t)%Z ->
      age = aged sp (a_age a);
    loc_m0 : a_partner a = 0%Z -> exists pr, partner_prob pp (Z.of_nat t) (a_educ a) 0 = Ok pr /\ drawn rg (snd pr) m;
    loc_m1 : a_partner a = 1%Z -> exists pr s, partner_prob pp (Z.of_nat t) (a_educ a) 1 = Ok pr /\
        drawn rg (fst pr) s /\ m = (1 - s)%Z
  }.

  Lemma locate_at t k out r : (Z.of_nat t < num_periods sp)%Z -> nth_error dl t = Some out ->
    nth_error out k = Some r -> exists a idx draw age m a0, located r t k a idx draw age m a0.
  Proof.
    intros Ht Hout Hr. destruct (run_period _ _ _ _ _ _ _ _ _ _ _ _ _ Hrun t Ht) as (Hp & out' & Ho & PF).
    rewrite Hout in Ho. injection Ho as <-.
    destruct (nth_error_some (cur t) k) as [a Ha].
    { rewrite <- (pf_length _ _ _ _ _ _ _ _ _ _ _ _ _ PF). apply nth_error_lt in Hr. exact Hr. }
    destruct (pf_row _ _ _ _ _ _ _ _ _ _ _ _ _ PF k a Ha)
      as (r' & idx & draw & age & m & Hr' & Hd & Hs & RF & Hn & A1 & A2 & A3 & M1 & M2).
    rewrite Hr in Hr'. injection Hr' as <-.
    destruct (proj2 Hp k a Ha) as (Hin & Hper & a0 & Ha0 & Hsame).
    exists a, idx, draw, age, m, a0. constructor; assumption.
  Qed.

  Lemma locate r : In r (List.concat dl) -> exists t k a idx draw age m a0, located r t k a idx draw age m a0.
  Proof.
    intros H. apply in_concat in H. destruct H as (out & Hout & Hr).
    apply In_nth_error in Hout. destruct Hout as [t Ht]. apply In_nth_error in Hr. destruct Hr as [k Hk].
    assert (Hlt : (Z.of_nat t < num_periods sp)%Z).
    { apply nth_error_lt in Ht. rewrite (run_length _ _ _ _ _ _ _ _ _ _ _ _ _ Hrun) in Ht. lia. }
    destruct (locate_at t k out r Hlt Ht Hk) as (a & idx & draw & age & m & a0 & L).
    exists t, k, a, idx, draw, age, m, a0. exact L.
  Qed.

  Lemma row_for t k a : (Z.of_nat t < num_periods sp)%Z -> nth_error (cur t) k = Some a ->
    exists r, In r (List.concat dl) /\ o_state r = a.
  Proof.
    intros Ht Ha. destruct (run_period _ _ _ _ _ _ _ _ _ _ _ _ _ Hrun t Ht) as (Hp & out & Ho & PF).
    destruct (pf_row _ _ _ _ _ _ _ _ _ _ _ _ _ PF k a Ha) as (r & idx & draw & age & m & Hr & _ & _ & RF & _).
    exists r. split; [|apply RF]. apply in_concat. exists out. split; eapply nth_error_In; eassumption.
  Qed.

  Lemma entered_prefix t u k a : (t <= u)%nat -> nth_error (entered init t) k = Some a ->
    nth_error (entered init u) k = Some a.
  Proof.
    intros Htu H. induction Htu as [|u Htu IH]; [assumption|]. rewrite entered_S.
    rewrite nth_error_app1; [assumption|]. apply nth_error_lt in IH. exact IH.
  Qed.

  Lemma column_unique t t' k k' a a' :
    nth_error (entered init t) k = Some a -> nth_error (entered init t') k' = Some a' ->
    a_id a = a_id a' -> k = k' /\ a = a'.
  Proof.
    intros H H' E. set (u := Nat.max t t').
    apply (entered_prefix t u) in H; [|lia]. apply (entered_prefix t' u) in H'; [|lia].
    assert (k = k'); [|subst k'; split; [reflexivity|congruence]].
    pose proof (entered_nodup rg mp sp ip init educs bi Hinit u) as Hn.
    rewrite NoDup_nth_error in Hn. apply Hn.
    - rewrite map_length. apply nth_error_lt in H. exact H.
    - rewrite !nth_error_map', H, H'. cbn [option_map]. congruence.
  Qed.

  Lemma loc_id r t k a idx draw age m a0 : located r t k a idx draw age m a0 ->
    row_id r = a_id a0 /\ row_period r = Z.of_nat t /\ o_state r = a.
  Proof.
    intros L. pose proof (rf_state _ _ _ _ _ _ _ _ _ _ (loc_facts _ _ _ _ _ _ _ _ _ L)) as E.
    unfold row_id, row_period. rewrite E. repeat split; [apply L|apply L].
  Qed.

  (** consecutive rows of one agent *)
  Lemma successor r r' : In r (List.concat dl) -> In r' (List.concat dl) ->
    row_id r' = row_id r -> row_period r' = (row_period r + 1)%Z ->
    exists t k a idx draw age m a0, located r t k a idx draw age m a0 /\
      (Z.of_nat t < num_periods sp - 1)%Z /\
      o_state r' = next_agent mp sp b (Z.of_nat t) a (o_choice r) age m.
  Proof.
    intros Hr Hr' Eid Eper.
    destruct (locate r Hr) as (t & k & a & idx & draw & age & m & a0 & L).
    destruct (locate r' Hr') as (t' & k' & a' & idx' & draw' & age' & m' & a0' & L').
    destruct (loc_id _ _ _ _ _ _ _ _ _ L) as (I & P1 & S1). destruct (loc_id _ _ _ _ _ _ _ _ _ L') as (I' & P2 & S2).
    assert (t' = S t) by lia. subst t'.
    destruct (column_unique _ _ _ _ _ _ (loc_entered _ _ _ _ _ _ _ _ _ L) (loc_entered _ _ _ _ _ _ _ _ _ L') ltac:(congruence)) as [<- <-].
    pose proof (loc_time _ _ _ _ _ _ _ _ _ L') as Ht'.
    exists t, k, a, idx, draw, age, m, a0. split; [exact L|]. split; [lia|].
    rewrite S2. pose proof (loc_cur _ _ _ _ _ _ _ _ _ L') as Hc.
    rewrite (run_next _ _ _ _ _ _ _ _ _ _ _ _ _ Hrun t Ht') in Hc.
    rewrite nth_error_app1 in Hc.
    - rewrite (loc_next _ _ _ _ _ _ _ _ _ L) in Hc. injection Hc as <-. reflexivity.
    - pose proof (loc_next _ _ _ _ _ _ _ _ _ L) as Hn. apply nth_error_lt in Hn. exact Hn.
  Qed.

  (** first row of an agent *)
  Lemma first_row r a0 : In r (List.concat dl) -> In a0 init -> row_id r = a_id a0 ->
    row_period r = a_period a0 -> o_state r = a0.
  Proof.
    intros Hr Ha Eid Eper. destruct (locate r Hr) as (t & k & a & idx & draw & age & m & a0' & L).
    destruct (loc_id _ _ _ _ _ _ _ _ _ L) as (I & P1 & S1). rewrite S1.
    pose proof (loc_entered _ _ _ _ _ _ _ _ _ L) as He. pose proof (loc_time _ _ _ _ _ _ _ _ _ L) as Ht.
    pose proof (loc_cur _ _ _ _ _ _ _ _ _ L) as Hc.
    assert (a0' = a0).
    { apply (init_ids rg mp sp ip init educs bi Hinit); [|assumption|congruence].
      apply nth_error_In in He. apply in_entered in He. apply He. }
    subst a0'. assert (Ea : a_period a0 = Z.of_nat t) by congruence.
    destruct t as [|t].
    - rewrite (run_start _ _ _ _ _ _ _ _ _ _ _ _ _ Hrun) in Hc by lia. rewrite entered_0 in He. congruence.
    - rewrite (run_next _ _ _ _ _ _ _ _ _ _ _ _ _ Hrun t Ht) in Hc.
      destruct (run_period _ _ _ _ _ _ _ _ _ _ _ _ _ Hrun t ltac:(lia)) as (Hp & out & Ho & PF).
      assert (Ln : List.length (nxt t) = List.length (entered init t)).
      { rewrite (pf_next_length _ _ _ _ _ _ _ _ _ _ _ _ _ PF). apply Hp. }
      rewrite entered_S in He.
      destruct (Nat.lt_ge_cases k (List.length (entered init t))) as [Hk|Hk].
      + rewrite nth_error_app1 in He by assumption. apply nth_error_In in He. apply in_entered in He. lia.
      + rewrite nth_error_app2 in He by assumption. rewrite nth_error_app2 in Hc by (rewrite Ln; assumption).
        rewrite Ln in Hc. congruence.
  Qed.

  (** presence *)
  Lemma present a0 t : In a0 init -> 
    ((exists r, In r (List.concat dl) /\ row_key r = (a_id a0, t)) <-> (a_period a0 <= t < num_periods sp)%Z).
  Proof.
    intros Ha. pose proof (init_period_nonneg rg mp sp ip init Hspec educs bi Hinit a0 Ha) as Hnn. split.
    - intros (r & Hr & Hk). unfold row_key in Hk. injection Hk as Hid Hper.
      destruct (locate r Hr) as (t' & k & a & idx & draw & age & m & a0' & L).
      destruct (loc_id _ _ _ _ _ _ _ _ _ L) as (I & P1 & S1).
      pose proof (loc_entered _ _ _ _ _ _ _ _ _ L) as He. apply nth_error_In in He. apply in_entered in He.
      assert (a0' = a0) by (apply (init_ids rg mp sp ip init educs bi Hinit); [apply He|assumption|congruence]).
      subst a0'. pose proof (loc_time _ _ _ _ _ _ _ _ _ L). lia.
    - intros Ht. set (n := Z.to_nat t). assert (En : Z.of_nat n = t) by (unfold n; lia).
      assert (Hin : In a0 (entered init n)) by (apply in_entered; split; [assumption|lia]).
      apply In_nth_error in Hin. destruct Hin as [k Hk].
      destruct (run_period _ _ _ _ _ _ _ _ _ _ _ _ _ Hrun n ltac:(lia)) as (Hp & _).
      destruct (nth_error_some (cur n) k) as [a Hc].
      { rewrite (proj1 Hp). apply nth_error_lt in Hk. exact Hk. }
      destruct (row_for n k a ltac:(lia) Hc) as (r & Hr & Es).
      destruct (proj2 Hp k a Hc) as (_ & Hper & a0' & Ha0' & Hsame). rewrite Hk in Ha0'. injection Ha0' as <-.
      exists r. split; [exact Hr|]. unfold row_key, row_id, row_period. rewrite Es, Hper, En, (proj1 Hsame). reflexivity.
  Qed.

  Lemma row_origin r : In r (List.concat dl) -> exists a0, In a0 init /\ row_id r = a_id a0 /\
    a_educ (o_state r) = a_educ a0 /\ a_type (o_state r) = a_type a0.
  Proof.
    intros Hr. destruct (locate r Hr) as (t & k & a & idx & draw & age & m & a0 & L).
    destruct (loc_id _ _ _ _ _ _ _ _ _ L) as (I & P1 & S1). exists a0.
    pose proof (loc_entered _ _ _ _ _ _ _ _ _ L) as He. apply nth_error_In in He. apply in_entered in He.
    rewrite S1. split; [apply He|]. split; [exact I|]. apply L.
  Qed.

  (** unique key *)
  Lemma NoDup_concat_key (l : list (list (out_row T))) off :
    (forall t out, nth_error l t = Some out -> NoDup (map row_key out) /\
       forall r, In r out -> row_period r = (off + Z.of_nat t)%Z) ->
    NoDup (map row_key (List.concat l)).
  Proof.
    revert off. induction l as [|o l IH]; intros off H; [constructor|]. cbn [List.concat].
    apply NoDup_map_app.
    - apply (H 0%nat o eq_refl).
    - apply (IH (off + 1)%Z). intros t out Ht. destruct (H (S t) out Ht) as [H1 H2]. split; [exact H1|].
      intros r Hr. rewrite (H2 r Hr). lia.
    - intros x y Hx Hy E. destruct (H 0%nat o eq_refl) as [_ H0]. specialize (H0 x Hx).
      apply in_concat in Hy. destruct Hy as (out & Hout & Hy). apply In_nth_error in Hout. destruct Hout as [t Ht].
      destruct (H (S t) out Ht) as [_ H1]. specialize (H1 y Hy). unfold row_key in E. injection E as _ E. lia.
  Qed.

  Lemma keys_unique : NoDup (map row_key (List.concat dl)).
  Proof.
    apply (NoDup_concat_key dl 0). intros t out Ho.
    assert (Hlt : (Z.of_nat t < num_periods sp)%Z).
    { apply nth_error_lt in Ho as Ht. rewrite (run_length _ _ _ _ _ _ _ _ _ _ _ _ _ Hrun) in Ht. lia. }
    split.
    - apply NoDup_nth_error. intros i j Hi E. rewrite map_length in Hi.
      destruct (nth_error_some out i Hi) as [r Hr]. rewrite !nth_error_map', Hr in E. cbn [option_map] in E.
      destruct (nth_error out j) as [r'|] eqn:Hr'; [|discriminate]. cbn [option_map] in E. injection E as E1 E2.
      destruct (locate_at t i out r Hlt Ho Hr) as (a & idx & draw & age & m & a0 & L).
      destruct (locate_at t j out r' Hlt Ho Hr') as (a' & idx' & draw' & age' & m' & a0' & L').
      destruct (loc_id _ _ _ _ _ _ _ _ _ L) as (I & _). destruct (loc_id _ _ _ _ _ _ _ _ _ L') as (I' & _).
      apply (column_unique _ _ _ _ _ _ (loc_entered _ _ _ _ _ _ _ _ _ L) (loc_entered _ _ _ _ _ _ _ _ _ L') ltac:(congruence)).
    - intros r Hr. apply In_nth_error in Hr. destruct Hr as [k Hk].
      destruct (locate_at t k out r Hlt Ho Hk) as (a & idx & draw & age & m & a0 & L).
      destruct (loc_id _ _ _ _ _ _ _ _ _ L) as (_ & P1 & _). exact P1.
  Qed.

  (** number of rows *)
  Lemma zlen_concat {A} (l : list (list A)) : zlen (List.concat l) = sumZ (map zlen l).
  Proof.
    unfold sumZ. assert (H : forall z, fold_left Z.add (map zlen l) z = (z + zlen (List.concat l))%Z).
    { induction l as [|x l IH]; intros z; cbn [map fold_left List.concat].
      - unfold zlen; cbn; lia.
      - rewrite IH, zlen_app. lia. }
    rewrite H. lia.
  Qed.
  Lemma sumZ_cons x l : sumZ (x :: l) = (x + sumZ l)%Z.
  Proof.
    unfold sumZ. cbn [fold_left]. assert (H : forall l z, fold_left Z.add l z = (z + fold_left Z.add l 0)%Z).
    { clear. induction l as [|y l IH]; intros z; cbn [fold_left]; [lia|]. rewrite IH. rewrite (IH (0 + y)%Z). lia. }
    rewrite H. lia.
  Qed.
  Lemma sumZ_app l m : sumZ (l ++ m) = (sumZ l + sumZ m)%Z.
  Proof. induction l as [|x l IH]; [unfold sumZ; cbn; lia|]. cbn [app]. rewrite !sumZ_cons, IH. lia. Qed.

  Definition years_left (n : Z) (a : agent T) : Z := Z.max 0 (n - a_period a).

  Lemma count_step (l : list (agent T)) (n : nat) : (forall a, In a l -> (0 <= a_period a)%Z) ->
    sumZ (map (years_left (Z.of_nat (S n))) l)
    = (sumZ (map (years_left (Z.of_nat n)) l) + zlen (filter (fun a => (a_period a <=? Z.of_nat n)%Z) l))%Z.
  Proof.
    induction l as [|a l IH]; intros H; [reflexivity|]. cbn [map filter]. rewrite !sumZ_cons.
    rewrite IH by (intros; apply H; right; assumption). specialize (H a (or_introl eq_refl)). unfold years_left.
    destruct (a_period a <=? Z.of_nat n)%Z eqn:E; rewrite ?zlen_cons; lia.
  Qed.

  Lemma filter_zero (l : list (agent T)) : (forall a, In a l -> (0 <= a_period a)%Z) ->
    filter (fun a => (a_period a =? 0)%Z) l = filter (fun a => (a_period a <=? 0)%Z) l.
  Proof.
    intros H. apply filter_ext_in. intros a Ha. specialize (H a Ha). lia.
  Qed.
  Lemma filter_next (l : list (agent T)) (t : Z) :
    zlen (filter (fun a => (a_period a <=? t + 1)%Z) l)
    = (zlen (filter (fun a => (a_period a <=? t)%Z) l) + zlen (filter (fun a => (a_period a =? t + 1)%Z) l))%Z.
  Proof.
    induction l as [|a l IH]; [reflexivity|]. cbn [filter].
    destruct (a_period a =? t + 1)%Z eqn:E1; destruct (a_period a <=? t)%Z eqn:E2;
      destruct (a_period a <=? t + 1)%Z eqn:E3; rewrite ?zlen_cons; lia.
  Qed.
  Lemma entered_count t : (forall a, In a init -> (0 <= a_period a)%Z) ->
    zlen (entered init t) = zlen (filter (fun a => (a_period a <=? Z.of_nat t)%Z) init).
  Proof.
    intros H. induction t as [|t IH].
    - rewrite entered_0. unfold entrants. cbn [Z.of_nat]. rewrite filter_zero by assumption. reflexivity.
    - rewrite entered_S, zlen_app, IH. unfold entrants.
      replace (Z.of_nat (S t)) with (Z.of_nat t + 1)%Z by lia. rewrite filter_next. reflexivity.
  Qed.

  Lemma row_count : zlen (List.concat dl) = sumZ (map (years_left (num_periods sp)) init).
  Proof.
    assert (Hnn : forall a, In a init -> (0 <= a_period a)%Z).
    { intros a Ha. eapply init_period_nonneg; eassumption. }
    rewrite zlen_concat.
    assert (HP : (0 <= num_periods sp)%Z) by (pose proof (proj1 Hspec); lia).
    pose proof (run_length _ _ _ _ _ _ _ _ _ _ _ _ _ Hrun) as HL.
    assert (H : forall n, (n <= List.length dl)%nat ->
      sumZ (map zlen (firstn n dl)) = sumZ (map (years_left (Z.of_nat n)) init)).
    { induction n as [|n IH]; intros Hn.
      - cbn [firstn map]. assert (Hz : forall l, (forall a : agent T, In a l -> (0 <= a_period a)%Z) ->
                sumZ (map (years_left (Z.of_nat 0)) l) = 0%Z).
        { induction l as [|a l IHl]; intros Hl; [reflexivity|]. cbn [map]. rewrite sumZ_cons, IHl.
          - unfold years_left. specialize (Hl a (or_introl eq_refl)). lia.
          - intros; apply Hl; right; assumption. }
        rewrite Hz by assumption. reflexivity.
      - rewrite count_step by assumption.
        destruct (run_period _ _ _ _ _ _ _ _ _ _ _ _ _ Hrun n ltac:(lia)) as (Hp & out & Ho & PF).
        assert (Ef : firstn (S n) dl = firstn n dl ++ [out]).
        { clear - Ho. revert n Ho. induction dl as [|x l IH]; intros [|n] H; try discriminate.
          - cbn in H. injection H as ->. reflexivity.
          - cbn [nth_error] in H. cbn [firstn app]. f_equal. apply IH. assumption. }
        rewrite Ef, map_app, sumZ_app, IH by lia. f_equal. cbn [map]. rewrite sumZ_cons. unfold sumZ at 1. cbn [fold_left].
        rewrite Z.add_0_r. rewrite <- entered_count by assumption. unfold zlen.
        rewrite (pf_length _ _ _ _ _ _ _ _ _ _ _ _ _ PF), (proj1 Hp). reflexivity. }
    specialize (H (List.length dl) (le_n _)). rewrite firstn_all in H. rewrite H. do 3 f_equal. lia.
  Qed.
End Data.
