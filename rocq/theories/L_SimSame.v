(** Two simulations of the same exogenous world whose rows agree for a part of the
    population. *)
From Coq Require Import Reals Lia ZArith List Arith.
From Verif Require Import Base Num M_Params M_Experience M_StateSpace M_Solve M_Exog M_Sim L_Num S_StateSpace L_StateSpace
  S_Rng S_Sim L_Trace L_SimUpdate L_SimInit L_Sim L_SimData L_SimProps L_Seed L_SimPairs.
Import ListNotations.

Lemma Forall2_eq_map {A B C} (f : A -> C) (g : B -> C) (R : A -> B -> Prop) l1 l2 :
  (forall a b, R a b -> f a = g b) -> Forall2 R l1 l2 -> map f l1 = map g l2.
Proof. intros H F. induction F as [|a b l1 l2 Hab F IH]; [reflexivity|]. cbn [map]. rewrite (H a b Hab), IH. reflexivity. Qed.
Lemma Forall2_weaken {A B} (R Q : A -> B -> Prop) l1 l2 :
  (forall a b, In a l1 -> In b l2 -> R a b -> Q a b) -> Forall2 R l1 l2 -> Forall2 Q l1 l2.
Proof.
  intros H F. induction F as [|a b l1 l2 Hab F IH]; constructor.
  - apply H; [left; reflexivity|left; reflexivity|assumption].
  - apply IH. intros. apply H; [right; assumption|right; assumption|assumption].
Qed.
Lemma Forall2_length {A B} (R : A -> B -> Prop) l1 l2 : Forall2 R l1 l2 -> List.length l1 = List.length l2.
Proof. intros F. induction F; cbn [List.length]; congruence. Qed.
Lemma Forall2_concat {A B} (R : A -> B -> Prop) l1 l2 :
  Forall2 (Forall2 R) l1 l2 -> Forall2 R (List.concat l1) (List.concat l2).
Proof. intros F. induction F; [constructor|]. cbn [List.concat]. apply Forall2_app; assumption. Qed.
Lemma Forall2_map2 {A B C D} (R : C -> D -> Prop) (f : A -> C) (g : B -> D) l1 l2 :
  Forall2 (fun a b => R (f a) (g b)) l1 l2 -> Forall2 R (map f l1) (map g l2).
Proof. intros F. induction F; constructor; assumption. Qed.

Section Same.
  Context {T : Type} {NT : Num T}.
  Local Open Scope num_scope.
  Variable rg : rng T.
  Hypothesis Hrg : rng_ok rg.
  Variables mp1 mp2 : model_params T.
  Variables sp1 sp2 : model_spec T.
  Variables sol1 sol2 : solution T.
  Variable ip : init_probs T.
  Variable pc : list (list T).
  Variable pp : list (list (list (T * T))).
  Hypothesis Hspec1 : sim_spec_ok sp1.
  Hypothesis Hspec2 : sim_spec_ok sp2.
  Hypothesis Hsol1 : solution_for sp1 sol1.
  Hypothesis Hsol2 : solution_for sp2 sol2.
  Hypothesis Hw : same_world sp1 sp2.
  Hypothesis Hshares : type_shares mp1 = type_shares mp2.
  Hypothesis Hsd : shock_sd mp1 = shock_sd mp2.
  Variables b1 b2 : bool.

  (** [K]: what all agents have in common; [J]: education and type of those that agree *)
  Variable K : Z * Z * Z * Z * Z * Z -> Prop.
  Variable J : Z -> Z -> Prop.
  (** [Q]: how their rows agree; [L]: rows that occur in the first data set; [D]: shocks that occur *)
  Variable Q : out_row T -> out_row T -> Prop.
  Variable L : out_row T -> Prop.
  Variable D : T -> Prop.
  Hypothesis Qchoice : forall r1 r2, Q r1 r2 -> o_choice r1 = o_choice r2.
  Hypothesis Qhide : forall r1 r2, Q r1 r2 -> Q (hide_wage r1) (hide_wage r2).
  Hypothesis Hinit : forall id p e a m x y t, let a0 := init_agent mp1 sp1 b1 id p e a m x y t in
    agent_in_space sp1 a0 -> K (exogenous a0) -> J e t -> init_agent mp2 sp2 b2 id p e a m x y t = a0.
  Hypothesis Hrow : forall a d r1 i1 r2 i2, agent_in_space sp1 a -> K (exogenous a) -> D d -> J (a_educ a) (a_type a) ->
    sim_row mp1 sp1 sol1 b1 false (a_period a) a d = Ok (r1, i1) -> L (hide_wage r1) ->
    sim_row mp2 sp2 sol2 b2 false (a_period a) a d = Ok (r2, i2) -> Q r1 r2.
  Hypothesis Hnext : forall a c age m, agent_in_space sp1 a -> K (exogenous a) -> J (a_educ a) (a_type a) ->
    next_agent mp2 sp2 b2 (a_period a) a c age m = next_agent mp1 sp1 b1 (a_period a) a c age m.

  Definition both_init (a1 a2 : agent T) : Prop :=
    exists id p e a m x y t, a1 = init_agent mp1 sp1 b1 id p e a m x y t /\ a2 = init_agent mp2 sp2 b2 id p e a m x y t.
  Definition alike (a1 a2 : agent T) : Prop :=
    exogenous a1 = exogenous a2 /\ (J (a_educ a1) (a_type a1) -> a1 = a2).
  Definition alike_rows (r1 r2 : out_row T) : Prop :=
    exogenous (o_state r1) = exogenous (o_state r2) /\ (J (a_educ (o_state r1)) (a_type (o_state r1)) -> Q r1 r2).

  Lemma zip_init_both id ps es ags ms xs ys ts :
    Forall2 both_init (zip_init mp1 sp1 b1 id ps es ags ms xs ys ts) (zip_init mp2 sp2 b2 id ps es ags ms xs ys ts).
  Proof.
    revert id es ags ms xs ys ts. induction ps as [|p ps IH]; intros id [|e es] [|a ags] [|m ms] [|x xs] [|y ys] [|t ts]; try constructor.
    - exists id, p, e, a, m, x, y, t. split; reflexivity.
    - apply IH.
  Qed.

  Lemma prepare_both g i1 i2 d1 d2 g1 g2 :
    prepare_simulation_data rg mp1 sp1 ip b1 g = Ok (i1, d1, g1) ->
    prepare_simulation_data rg mp2 sp2 ip b2 g = Ok (i2, d2, g2) ->
    Forall2 both_init i1 i2 /\ d1 = d2 /\ g1 = g2.
  Proof.
    destruct Hw as (W1 & W2 & W3 & W4 & W5 & W6 & W7 & W8 & W9 & W10).
    unfold prepare_simulation_data. rewrite W2, W3, W4, W9, W10, W1, Hshares, Hsd.
    assert (Eb : init_body rg sp1 ip = init_body rg sp2 ip) by (unfold init_body; rewrite W6, W7; reflexivity).
    rewrite Eb. destruct (rng_choice rg g _ _ _) as [[educs h1]|]; cbn [bind]; [|discriminate].
    destruct (np_size _) as [?|]; cbn [bind]; [|discriminate].
    destruct (mapM _ educs) as [ps|]; cbn [bind]; [|discriminate].
    destruct (for_each _ _ _) as [acc|]; cbn [bind]; [|discriminate].
    destruct (rng_choice rg (ia_g rg acc) _ _ _) as [[types h2]|]; cbn [bind]; [|discriminate].
    destruct (draw_zero_one_distributed_shocks _ _ _ _) as [[dr h3]|]; cbn [bind]; [|discriminate].
    destruct (no_nan (ia_pt rg acc)) as [pts|]; cbn [bind]; [|discriminate]. destruct (no_nan (ia_ft rg acc)) as [fts|]; cbn [bind]; [|discriminate].
    destruct (no_nan (ia_age rg acc)) as [ages|]; cbn [bind]; [|discriminate]. destruct (no_nan (ia_partner rg acc)) as [parts|]; cbn [bind]; [|discriminate].
    intros H1 H2.
    assert (E1 : zip_init mp1 sp1 b1 0 ps educs ages parts pts fts types = i1) by congruence.
    assert (E2 : zip_init mp2 sp2 b2 0 ps educs ages parts pts fts types = i2) by congruence.
    split; [rewrite <- E1, <- E2; apply zip_init_both|]. split; congruence.
  Qed.

  Lemma filter_both t i1 i2 : Forall2 both_init i1 i2 ->
    Forall2 both_init (filter (fun a => (a_period a =? t)%Z) i1) (filter (fun a => (a_period a =? t)%Z) i2).
  Proof.
    intros F. induction F as [|a1 a2 l1 l2 H F IH]; [constructor|]. cbn [filter].
    assert (E : a_period a1 = a_period a2) by (destruct H as (id & p & e & a & m & x & y & ty & -> & ->); reflexivity).
    rewrite E. destruct (a_period a2 =? t)%Z; [constructor; assumption|assumption].
  Qed.

  Lemma both_alike a1 a2 : agent_in_space sp1 a1 -> K (exogenous a1) -> both_init a1 a2 -> alike a1 a2.
  Proof.
    intros Hin HK (id & p & e & a & m & x & y & t & -> & ->). split; [reflexivity|]. intros HJ.
    symmetry. apply Hinit; assumption.
  Qed.

  Lemma rows_alike t c1 c2 ds rows1 rows2 : Forall2 alike c1 c2 -> (forall d, In d ds -> D d) ->
    (forall a, In a c1 -> agent_in_space sp1 a /\ a_period a = t /\ K (exogenous a)) -> (forall q, In q rows1 -> L (hide_wage (fst q))) ->
    map o_state (map fst rows1) = c1 -> map o_state (map fst rows2) = c2 ->
    mapM (fun '(a, d) => sim_row mp1 sp1 sol1 b1 false t a d) (combine c1 ds) = Ok rows1 ->
    mapM (fun '(a, d) => sim_row mp2 sp2 sol2 b2 false t a d) (combine c2 ds) = Ok rows2 ->
    Forall2 (fun q1 q2 => alike_rows (fst q1) (fst q2)) rows1 rows2.
  Proof.
    intros F. revert ds rows1 rows2. induction F as [|a1 a2 c1 c2 [E Ha] F IH]; intros ds rows1 rows2 HD Hin HL S1 S2 R1 R2.
    - cbn in R1, R2. injection R1 as <-. injection R2 as <-. constructor.
    - destruct rows1 as [|[r1 i1] rows1]; [discriminate S1|]. destruct rows2 as [|[r2 i2] rows2]; [discriminate S2|].
      destruct ds as [|d ds]; [discriminate R1|]. cbn [combine mapM] in R1, R2.
      destruct (sim_row mp1 sp1 sol1 b1 false t a1 d) as [q1|] eqn:Q1; cbn [bind] in R1; [|discriminate].
      destruct (mapM _ (combine c1 ds)) as [t1|] eqn:T1; cbn [bind] in R1; [|discriminate].
      destruct (sim_row mp2 sp2 sol2 b2 false t a2 d) as [q2|] eqn:Q2; cbn [bind] in R2; [|discriminate].
      destruct (mapM _ (combine c2 ds)) as [t2|] eqn:T2; cbn [bind] in R2; [|discriminate].
      injection R1 as -> ->. injection R2 as -> ->. cbn [map fst] in S1, S2.
      assert (O1 : o_state r1 = a1) by congruence. assert (O2 : o_state r2 = a2) by congruence.
      assert (P1 : map o_state (map fst rows1) = c1) by congruence. assert (P2 : map o_state (map fst rows2) = c2) by congruence.
      constructor; [|apply (IH ds); try assumption; intros; [apply HD|apply Hin|apply HL]; right; assumption].
      cbn [fst]. split; [congruence|]. rewrite O1. intros HJ. specialize (Ha HJ). subst a2.
      destruct (Hin a1 (or_introl eq_refl)) as (I1 & I2 & I3). rewrite <- I2 in Q1, Q2.
      exact (Hrow a1 d r1 i1 r2 i2 I1 I3 (HD d (or_introl eq_refl)) HJ Q1 (HL (r1, i1) (or_introl eq_refl)) Q2).
  Qed.

  Lemma advance_alike t c1 c2 rows1 rows2 ages ms : Forall2 alike c1 c2 ->
    (forall a, In a c1 -> agent_in_space sp1 a /\ a_period a = t /\ K (exogenous a)) ->
    map o_state (map fst rows1) = c1 ->
    Forall2 (fun q1 q2 => alike_rows (fst q1) (fst q2)) rows1 rows2 ->
    Forall2 alike (advance mp1 sp1 b1 t c1 rows1 ages ms) (advance mp2 sp2 b2 t c2 rows2 ages ms).
  Proof.
    intros F. revert rows1 rows2 ages ms. unfold advance.
    induction F as [|a1 a2 c1 c2 [E Ha] F IH]; intros rows1 rows2 ages ms Hin S1 R; [constructor|].
    destruct R as [|[r1 i1] [r2 i2] rows1 rows2 [Er Hr] R]; [constructor|].
    destruct ages as [|age ages]; [constructor|]. destruct ms as [|m ms]; [constructor|].
    cbn [map fst] in S1. assert (O1 : o_state r1 = a1) by congruence. assert (P1 : map o_state (map fst rows1) = c1) by congruence.
    cbn [combine map fst] in *. constructor; [|apply IH; try assumption; intros; apply Hin; right; assumption].
    destruct (Hin a1 (or_introl eq_refl)) as (I1 & I2 & I3). split.
    - unfold exogenous in *. cbn [next_agent a_id a_period a_educ a_type a_age a_partner]. congruence.
    - cbn [next_agent a_educ a_type]. intros HJ. specialize (Ha HJ). rewrite O1 in Hr. specialize (Hr HJ). subst a2.
      rewrite <- I2, <- (Qchoice _ _ Hr). symmetry. apply Hnext; assumption.
  Qed.

  Lemma sim_body_alike draws init1 init2 maxy t acc1 acc2 acc1' acc2' :
    Forall2 both_init init1 init2 -> (forall row, In row draws -> forall d, In d row -> D d) ->
    Forall2 alike (sa_current rg acc1) (sa_current rg acc2) -> sa_g rg acc1 = sa_g rg acc2 ->
    Forall2 (Forall2 alike_rows) (sa_data rg acc1) (sa_data rg acc2) ->
    (forall a, In a (sa_current rg acc1 ++ filter (fun a => (a_period a =? t)%Z) init1) -> agent_in_space sp1 a /\ a_period a = t) ->
    (forall a, In a (sa_current rg acc2 ++ filter (fun a => (a_period a =? t)%Z) init2) -> agent_in_space sp2 a) ->
    sim_body rg mp1 sp1 sol1 pc pp draws init1 b1 false maxy t acc1 = Ok acc1' ->
    sim_body rg mp2 sp2 sol2 pc pp draws init2 b2 false maxy t acc2 = Ok acc2' ->
    (forall r, In r (List.concat (sa_data rg acc1')) -> K (exogenous (o_state r)) /\ L (hide_wage r)) ->
    Forall2 alike (sa_current rg acc1') (sa_current rg acc2') /\ sa_g rg acc1' = sa_g rg acc2' /\
    Forall2 (Forall2 alike_rows) (sa_data rg acc1') (sa_data rg acc2').
  Proof.
    intros Fi HD Fc Eg Fd Hin1 Hin2 H1 H2 HK. unfold sim_body in H1, H2.
    set (c1 := if (t <=? maxy)%Z then sa_current rg acc1 ++ _ else _) in H1.
    set (c2 := if (t <=? maxy)%Z then sa_current rg acc2 ++ _ else _) in H2.
    assert (Hc1 : forall a, In a c1 -> agent_in_space sp1 a /\ a_period a = t).
    { intros a Ha. apply Hin1. unfold c1 in Ha. destruct (t <=? maxy)%Z; [exact Ha|apply in_app_iff; left; exact Ha]. }
    assert (Hc2 : forall a, In a c2 -> agent_in_space sp2 a).
    { intros a Ha. apply Hin2. unfold c2 in Ha. destruct (t <=? maxy)%Z; [exact Ha|apply in_app_iff; left; exact Ha]. }
    assert (Hb : (forall a, In a c1 -> K (exogenous a)) -> Forall2 alike c1 c2).
    { intros HKc. unfold c1, c2. unfold c1 in Hc1, HKc. destruct (t <=? maxy)%Z; [|exact Fc].
      apply Forall2_app; [exact Fc|]. eapply Forall2_weaken; [|apply filter_both; exact Fi].
      intros a b Ha _ Hab. apply both_alike; [apply Hc1, in_app_iff; right; exact Ha|apply HKc, in_app_iff; right; exact Ha|exact Hab]. }
    assert (Hlen : List.length c1 = List.length c2).
    { unfold c1, c2. pose proof (Forall2_length _ _ _ Fc) as L1. pose proof (Forall2_length _ _ _ (filter_both t _ _ Fi)) as L2.
      destruct (t <=? maxy)%Z; [rewrite !app_length; lia|exact L1]. }
    clearbody c1 c2.
    destruct (np_get draws t) as [d|] eqn:Ed; cbn [bind] in H1, H2; [|discriminate].
    assert (HDd : forall x, In x (firstn (List.length c1) d) -> D x).
    { intros x Hx. apply (HD d (np_get_Ok_in _ _ _ Ed)). rewrite <- (firstn_skipn (List.length c1) d). apply in_app_iff. left. exact Hx. }
    rewrite <- Hlen in H2. set (ds := firstn (List.length c1) d) in *.
    destruct (negb _) eqn:L1 in H1; [discriminate|]. rewrite L1 in H2. apply Bool.negb_false_iff, Nat.eqb_eq in L1.
    destruct (mapM _ (combine c1 ds)) as [rows1|] eqn:R1; cbn [bind] in H1; [|discriminate].
    destruct (mapM _ (combine c2 ds)) as [rows2|] eqn:R2; cbn [bind] in H2; [|discriminate].
    destruct (rule_values _ _ _ _ _ _ _ _ (sizes sp1 Hspec1) Hsol1 L1 (fun a Ha => proj1 (Hc1 a Ha)) R1) as [V1 S1].
    destruct (rule_values _ _ _ _ _ _ _ _ (sizes sp2 Hspec2) Hsol2 (eq_trans L1 Hlen) Hc2 R2) as [V2 S2].
    destruct (child_update rg sp1 _ _ _ c1 _ _) as [[ages1 g1]|] eqn:U1 in H1; cbn [bind] in H1; [|discriminate].
    destruct (partner_update _ _ _ c1 _) as [[ms1 h1]|] eqn:M1 in H1; cbn [bind] in H1; [|discriminate].
    injection H1 as <-. cbn [sa_current sa_g sa_data] in *.
    assert (HKL : forall r, In r (map fst rows1) -> K (exogenous (o_state r)) /\ L (hide_wage r)).
    { intros r Hr. apply HK. rewrite concat_app. apply in_app_iff. right. cbn [List.concat]. rewrite app_nil_r. exact Hr. }
    assert (HKc : forall a, In a c1 -> K (exogenous a)).
    { intros a Ha. rewrite <- S1 in Ha. apply in_map_iff in Ha. destruct Ha as (r & <- & Hr). apply HKL. exact Hr. }
    assert (HLr : forall q, In q rows1 -> L (hide_wage (fst q))) by (intros q Hq; apply HKL, in_map; exact Hq).
    specialize (Hb HKc).
    assert (Ecur : map exogenous c1 = map exogenous c2) by (apply (Forall2_eq_map _ _ alike); [intros a b [E _]; exact E|exact Hb]).
    assert (Hk1 : forall a, In a c1 -> agent_in_space sp1 a /\ a_period a = t /\ K (exogenous a)).
    { intros a Ha. destruct (Hc1 a Ha) as [A1 A2]. exact (conj A1 (conj A2 (HKc a Ha))). }
    assert (Fr : Forall2 (fun q1 q2 => alike_rows (fst q1) (fst q2)) rows1 rows2) by (apply (rows_alike t c1 c2 ds); assumption).
    rewrite <- Eg in H2.
    rewrite <- (child_update_exo rg sp1 sp2 pc Hw (sol_rule sol1) (sol_rule sol2) t c1 c2 (map snd rows1) (map snd rows2)) in H2; [|exact Ecur|].
    2:{ rewrite V1, V2. f_equal.
        rewrite (col_eq (fun a => aged sp1 (a_age a)) (fun q => aged sp1 (snd (fst q))) c1 c2 (fun _ => eq_refl) Ecur).
        apply map_ext. intros a. unfold aged. destruct Hw as (_ & _ & _ & _ & -> & _). reflexivity. }
    rewrite U1 in H2. cbn [bind] in H2. rewrite <- (partner_update_exo rg pp t c1 c2 g1 Ecur), M1 in H2. cbn [bind] in H2.
    injection H2 as <-. cbn [sa_current sa_g sa_data].
    split; [apply advance_alike; assumption|]. split; [reflexivity|].
    apply Forall2_app; [exact Fd|]. constructor; [|constructor]. apply Forall2_map2. exact Fr.
  Qed.

  Lemma same_rows g1 g2 data1 data2 g1' g2' :
    pyth_simulate rg mp1 sp1 sol1 ip pc pp b1 false g1 = Ok (data1, g1') ->
    pyth_simulate rg mp2 sp2 sol2 ip pc pp b2 false g2 = Ok (data2, g2') ->
    (forall r, In r data1 -> K (exogenous (o_state r)) /\ L r) ->
    (forall g i d g', prepare_simulation_data rg mp1 sp1 ip b1 g = Ok (i, d, g') ->
       forall row, In row d -> forall x, In x row -> D x) ->
    Forall2 alike_rows data1 data2.
  Proof.
    unfold pyth_simulate. intros H1 H2 HK HD. pose proof Hw as (W1 & W2 & W3 & W4 & W5 & W6 & W7 & W8 & W9 & W10).
    rewrite W9 in H1. destruct (np_seed rg (seed_sim sp2)) as [g0|]; cbn [bind] in H1, H2; [|discriminate].
    destruct (prepare_simulation_data rg mp1 _ _ _ _) as [[[i1 d1] h1]|] eqn:P1; cbn [bind] in H1; [|discriminate].
    destruct (prepare_simulation_data rg mp2 _ _ _ _) as [[[i2 d2] h2]|] eqn:P2; cbn [bind] in H2; [|discriminate].
    pose proof (HD _ _ _ _ P1) as HDd. destruct (prepare_both _ _ _ _ _ _ _ P1 P2) as (Fi & <- & <-).
    assert (E1 : (0 <= num_educ_levels sp1)%Z) by apply (sizes sp1 Hspec1).
    assert (E2 : (0 <= num_educ_levels sp2)%Z) by apply (sizes sp2 Hspec2).
    destruct (prepare_spec rg Hrg _ _ _ _ _ _ _ _ P1 E1) as (educs1 & _ & _ & _ & I1 & _).
    destruct (prepare_spec rg Hrg _ _ _ _ _ _ _ _ P2 E2) as (educs2 & _ & _ & _ & I2 & _). clear P1 P2.
    unfold simulate_agents_over_periods in H1, H2. rewrite W4, W1 in H1.
    destruct (np_max (educ_years sp2)) as [maxy|] eqn:Em; cbn [bind] in H1, H2; [|discriminate].
    destruct (for_each _ _ _) as [a1|] eqn:F1 in H1; cbn [bind] in H1; [|discriminate].
    destruct (for_each _ _ _) as [a2|] eqn:F2 in H2; cbn [bind] in H2; [|discriminate].
    cbn [fst snd] in H1, H2. destruct (pd_concat (sa_data rg a1)) as [c1|] eqn:C1; cbn [bind] in H1; [|discriminate].
    destruct (pd_concat (sa_data rg a2)) as [c2|] eqn:C2; cbn [bind] in H2; [|discriminate]. apply pd_concat_inv in C1, C2. subst c1 c2.
    injection H1 as <- <-. injection H2 as <- <-.
    assert (HP : (0 <= num_periods sp2)%Z) by (pose proof (proj1 Hspec2); lia).
    set (P := Z.to_nat (num_periods sp2)) in *. assert (EP : num_periods sp2 = Z.of_nat P) by (unfold P; lia).
    rewrite EP in F1, F2.
    apply for_each_trace in F1. destruct F1 as (s1 & Z1 & N1 & T1).
    apply for_each_trace in F2. destruct F2 as (s2 & Z2 & N2 & T2).
    pose proof (trace_inv rg Hrg mp1 sp1 sol1 ip pc pp d1 i1 b1 false Hspec1 Hsol1 educs1 b1 I1 maxy s1 h1 P
                  ltac:(rewrite W4; exact Em) ltac:(lia) Z1 T1) as V1.
    pose proof (trace_inv rg Hrg mp2 sp2 sol2 ip pc pp d1 i2 b2 false Hspec2 Hsol2 educs2 b2 I2 maxy s2 h1 P
                  Em EP Z2 T2) as V2.
    cbn zeta in V1, V2.
    assert (Hgrow : forall n t, (t + n = P)%nat -> forall r, In r (List.concat (sa_data rg (s1 t))) -> In r (List.concat (sa_data rg (s1 P)))).
    { induction n as [|n IH]; intros t Ht r Hr; [replace P with t by lia; exact Hr|].
      apply (IH (S t) ltac:(lia)). pose proof (T1 t ltac:(lia)) as Hb. unfold sim_body in Hb.
      destruct (np_get d1 _); cbn [bind] in Hb; [|discriminate]. destruct (negb _) in Hb; [discriminate|].
      destruct (mapM _ (combine _ _)) as [rows0|]; cbn [bind] in Hb; [|discriminate].
      destruct (child_update _ _ _ _ _ _ _ _) as [[? ?]|]; cbn [bind] in Hb; [|discriminate].
      destruct (partner_update _ _ _ _ _) as [[? ?]|]; cbn [bind] in Hb; [|discriminate].
      assert (E : sa_data rg (s1 (S t)) = sa_data rg (s1 t) ++ [map fst rows0]) by (apply (f_equal (fun r => match r with Ok a => sa_data rg a | _ => [] end)) in Hb; symmetry; exact Hb).
      rewrite E, concat_app. apply in_app_iff. left. exact Hr. }
    assert (HKt : forall t, (t <= P)%nat -> forall r, In r (List.concat (sa_data rg (s1 t))) -> K (exogenous (o_state r)) /\ L (hide_wage r)).
    { intros t Ht r Hr. apply (Hgrow (P - t)%nat t ltac:(lia)) in Hr. rewrite N1 in Hr. rewrite <- hide_state. apply HK. apply in_map. exact Hr. }
    assert (Hall : forall t, (t <= P)%nat ->
      Forall2 alike (sa_current rg (s1 t)) (sa_current rg (s2 t)) /\ sa_g rg (s1 t) = sa_g rg (s2 t) /\
      Forall2 (Forall2 alike_rows) (sa_data rg (s1 t)) (sa_data rg (s2 t))).
    { induction t as [|t IH]; intros Ht.
      - rewrite Z1, Z2. cbn. split; [constructor|]. split; [reflexivity|constructor].
      - destruct (IH ltac:(lia)) as (J1 & J2 & J3).
        destruct (V1 t ltac:(lia)) as (_ & Q1 & _). specialize (Q1 ltac:(lia)).
        destruct (V2 t ltac:(lia)) as (_ & Q2 & _). specialize (Q2 ltac:(lia)).
        eapply sim_body_alike; [exact Fi|exact HDd|exact J1|exact J2|exact J3| | |exact (T1 t ltac:(lia))|exact (T2 t ltac:(lia))|apply HKt; lia].
        + intros a Ha. apply In_nth_error in Ha. destruct Ha as [k Ha]. destruct (proj2 Q1 k a Ha) as (A1 & A2 & _). split; assumption.
        + intros a Ha. apply In_nth_error in Ha. destruct Ha as [k Ha]. apply (proj2 Q2 k a Ha). }
    destruct (Hall P ltac:(lia)) as (_ & _ & HF). rewrite N1, N2 in HF.
    apply Forall2_map2. apply Forall2_concat in HF. eapply Forall2_weaken; [|exact HF].
    intros r1 r2 _ _ [E H]. split; rewrite ?hide_state; [exact E|]. intros HJ. apply Qhide, H, HJ.
  Qed.
End Same.
