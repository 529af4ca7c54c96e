(** Comparing simulations: full and sparse output, and two behaviours in the same
    exogenous world. *)
From Coq Require Import Reals Lia ZArith List Arith.
From Verif Require Import Base Num M_Params M_Experience M_StateSpace M_Exog M_Sim L_Num S_StateSpace L_StateSpace
  S_Rng S_Sim L_Trace L_SimUpdate L_SimInit L_Sim L_SimData L_SimProps L_Seed.
Import ListNotations.

Definition rmap {A B} (f : A -> B) (r : result A) : result B :=
  match r with Ok a => Ok (f a) | Err e => Err e end.

Lemma mapM_rmap {A B C} (f : A -> result B) (h : A -> result C) (k : B -> C) l :
  (forall a, In a l -> h a = rmap k (f a)) -> mapM h l = rmap (map k) (mapM f l).
Proof.
  induction l as [|a l IH]; intros H; [reflexivity|]. cbn [mapM]. rewrite (H a (or_introl eq_refl)).
  destruct (f a); [|reflexivity]. cbn [rmap bind]. rewrite IH by (intros; apply H; right; assumption).
  destruct (mapM f l); reflexivity.
Qed.
Lemma mapM_map {A B C} (f : B -> result C) (g : A -> B) l : mapM (fun a => f (g a)) l = mapM f (map g l).
Proof. induction l as [|a l IH]; [reflexivity|]. cbn [mapM map]. rewrite IH. reflexivity. Qed.

Lemma for_each_rmap {A S S'} (body : A -> S -> result S) (body' : A -> S' -> result S') (k : S -> S') l r :
  (forall a s, In a l -> body' a (k s) = rmap k (body a s)) ->
  for_each l body' (rmap k r) = rmap k (for_each l body r).
Proof.
  revert r. induction l as [|a l IH]; intros r H; [reflexivity|].
  destruct r as [s|e]; cbn [rmap].
  - rewrite !for_each_cons, H by (left; reflexivity). apply IH. intros; apply H; right; assumption.
  - rewrite !for_each_err. reflexivity.
Qed.

Lemma mask_select_map {A B} (f : A -> B) mask l : mask_select mask (map f l) = map f (mask_select mask l).
Proof.
  unfold mask_select. revert l. induction mask as [|b mask IH]; intros [|x l]; try reflexivity.
  cbn [map combine filter fst]. destruct b; cbn [map snd]; rewrite IH; reflexivity.
Qed.

Section Sparse.
  Context {T : Type} {NT : Num T}.
  Local Open Scope num_scope.
  Variable rg : rng T.
  Variable mp : model_params T.
  Variable sp : model_spec T.
  Variable sol : solution T.
  Variable ip : init_probs T.
  Variable pc : list (list T).
  Variable pp : list (list (list (T * T))).
  Variable b : bool.

  Definition drop_full (r : out_row T) : out_row T := mkOut (o_state r) (o_choice r) (o_wage r) None.

  Lemma sim_row_sparse t a d :
    sim_row mp sp sol b true t a d = rmap (fun q => (drop_full (fst q), snd q)) (sim_row mp sp sol b false t a d).
  Proof.
    unfold sim_row. destruct (ix_get _ _) as [idx|]; [|reflexivity]. cbn [bind].
    destruct (np_get (sol_emaxs sol) idx); [|reflexivity]. cbn [bind].
    destruct (mapM _ _); [|reflexivity]. cbn [bind]. destruct (np_get (sol_non_cons sol) idx); [|reflexivity]. cbn [bind].
    destruct (np_get (sol_covariates sol) idx); [|reflexivity]. cbn [bind].
    destruct (np_get (sol_states sol) idx); [|reflexivity]. cbn [bind].
    destruct (sim_resources _ _ _ _ _ _ _); reflexivity.
  Qed.
  Lemma sim_row_choice sparse t a d r i : sim_row mp sp sol b sparse t a d = Ok (r, i) -> (0 <= o_choice r < 3)%Z.
  Proof.
    unfold sim_row. destruct (ix_get _ _) as [idx|]; [|discriminate]. cbn [bind].
    destruct (np_get (sol_emaxs sol) idx); [|discriminate]. cbn [bind].
    destruct (mapM _ _) as [cont|] eqn:Ec; [|discriminate]. cbn [bind]. destruct (np_get (sol_non_cons sol) idx); [|discriminate]. cbn [bind].
    destruct (np_get (sol_covariates sol) idx); [|discriminate]. cbn [bind].
    destruct (np_get (sol_states sol) idx); [|discriminate]. cbn [bind].
    destruct (sim_resources _ _ _ _ _ _ _); [|discriminate]. cbn [bind]. intros H. injection H as <- <-. cbn [o_choice].
    match goal with |- context [argmax ?v] => set (vl := v) end.
    apply mapM_length in Ec. change (List.length (range NUM_CHOICES)) with 3%nat in Ec.
    assert (Hlv : (zlen vl <= 3)%Z) by (unfold vl, zlen; rewrite map2_length, Ec; lia).
    destruct vl as [|v0 vl'] eqn:Ev; [cbn; lia|].
    pose proof (argmax_range (v0 :: vl') ltac:(congruence)). lia.
  Qed.
  Lemma sim_row_state sparse t a d r i : sim_row mp sp sol b sparse t a d = Ok (r, i) -> o_state r = a.
  Proof.
    unfold sim_row. destruct (ix_get _ _) as [idx|]; [|discriminate]. cbn [bind].
    destruct (np_get (sol_emaxs sol) idx); [|discriminate]. cbn [bind].
    destruct (mapM _ _) as [cont|]; [|discriminate]. cbn [bind]. destruct (np_get (sol_non_cons sol) idx); [|discriminate]. cbn [bind].
    destruct (np_get (sol_covariates sol) idx); [|discriminate]. cbn [bind].
    destruct (np_get (sol_states sol) idx); [|discriminate]. cbn [bind].
    destruct (sim_resources _ _ _ _ _ _ _); [|discriminate]. cbn [bind]. intros H. injection H as <- <-. reflexivity.
  Qed.

  Definition thin (acc : sim_acc rg) : sim_acc rg :=
    mkSimAcc rg (sa_current rg acc) (map (map drop_full) (sa_data rg acc)) (sa_g rg acc).

  Lemma advance_thin t cur rows ages ms :
    advance mp sp b t cur (map (fun q : out_row T * Z => (drop_full (fst q), snd q)) rows) ages ms
    = advance mp sp b t cur rows ages ms.
  Proof.
    unfold advance. revert rows ages ms. induction cur as [|a cur IH]; intros [|r rows] [|x ages] [|m ms]; try reflexivity.
    cbn [map combine]. rewrite IH. reflexivity.
  Qed.

  Lemma sim_body_sparse draws init maxy t acc :
    sim_body rg mp sp sol pc pp draws init b true maxy t (thin acc)
    = rmap thin (sim_body rg mp sp sol pc pp draws init b false maxy t acc).
  Proof.
    unfold sim_body. cbn [thin sa_current sa_data sa_g].
    set (cur := if (t <=? maxy)%Z then _ else _).
    destruct (np_get draws t) as [drow|]; [|reflexivity]. cbn [bind].
    destruct (negb _); [reflexivity|].
    rewrite (mapM_rmap (fun '(a, draw) => sim_row mp sp sol b false t a draw) _ (fun q => (drop_full (fst q), snd q)))
      by (intros [a d] _; apply sim_row_sparse).
    destruct (mapM _ (combine cur _)) as [rows|]; [|reflexivity]. cbn [rmap bind].
    rewrite map_map. cbn [snd]. destruct (child_update _ _ _ _ _ _ _ _) as [[ages g1]|]; [|reflexivity]. cbn [bind].
    destruct (partner_update _ _ _ _ _) as [[ms g2]|]; [|reflexivity]. cbn [bind rmap]. unfold thin. cbn [sa_current sa_data sa_g].
    rewrite advance_thin, map_app. cbn [map]. rewrite !map_map. reflexivity.
  Qed.

  Lemma choices_in_range draws init g dl g' :
    simulate_agents_over_periods rg mp sp sol pc pp draws init b false g = Ok (dl, g') ->
    forall r, In r (List.concat dl) -> (0 <= o_choice r < 3)%Z.
  Proof.
    unfold simulate_agents_over_periods. destruct (np_max _) as [maxy|]; [|discriminate]. cbn [bind].
    intros H. destruct (for_each _ _ _) as [acc|] eqn:E; [|discriminate]. cbn [bind] in H. injection H as <- <-.
    revert E. generalize (range (num_periods sp)). intros l.
    assert (H0 : forall r, In r (List.concat (sa_data rg (mkSimAcc rg [] [] g))) -> (0 <= o_choice r < 3)%Z) by (intros r []).
    revert H0. generalize (mkSimAcc rg (T:=T) [] [] g). induction l as [|t l IH]; intros a0 H0 E.
    - cbn in E. injection E as <-. exact H0.
    - rewrite for_each_cons in E. destruct (sim_body _ _ _ _ _ _ _ _ _ _ _ _ _) as [a1|] eqn:E1; [|rewrite for_each_err in E; discriminate].
      apply (IH a1); [|exact E]. clear IH E. unfold sim_body in E1.
      destruct (np_get draws t) as [drow|]; [|discriminate]. cbn [bind] in E1. destruct (negb _); [discriminate|].
      destruct (mapM _ (combine _ _)) as [rows|] eqn:Er; [|discriminate]. cbn [bind] in E1.
      destruct (child_update _ _ _ _ _ _ _ _) as [[ages g1]|]; [|discriminate]. cbn [bind] in E1.
      destruct (partner_update _ _ _ _ _) as [[ms g2]|]; [|discriminate]. cbn [bind] in E1. injection E1 as <-. cbn [sa_data].
      intros r Hr. rewrite concat_app in Hr. apply in_app_iff in Hr. destruct Hr as [Hr|Hr]; [apply H0; exact Hr|].
      cbn [List.concat] in Hr. rewrite app_nil_r in Hr. apply in_map_iff in Hr. destruct Hr as ([r' i] & <- & Hr).
      apply In_nth_error in Hr. destruct Hr as [k Hk].
      assert (Hlt : (k < List.length rows)%nat) by (apply nth_error_Some; congruence).
      rewrite (mapM_length _ _ _ Er) in Hlt. destruct (nth_error_some _ _ Hlt) as [[a d] Ha].
      destruct (mapM_nth_error _ _ _ _ _ Er Ha) as (q & Hq & Hs). rewrite Hk in Hq. injection Hq as <-.
      eapply sim_row_choice. exact Hs.
  Qed.

  Lemma wrap8_choice c : (0 <= c < 3)%Z -> wrap8 c = c.
  Proof. intros H. unfold wrap8. rewrite Z.mod_small; lia. Qed.

  Lemma pd_concat_map (f : out_row T -> out_row T) (l : list (list (out_row T))) :
    pd_concat (map (map f) l) = rmap (map f) (pd_concat l).
  Proof. destruct l as [|x l]; [reflexivity|]. cbn [map pd_concat rmap]. f_equal. symmetry. apply (concat_map f (x :: l)). Qed.
  Lemma sparse_run g :
    pyth_simulate rg mp sp sol ip pc pp b true g
    = rmap (fun q => (map (fun r => cast_sparse (drop_full r)) (fst q), snd q)) (pyth_simulate rg mp sp sol ip pc pp b false g).
  Proof.
    unfold pyth_simulate. destruct (np_seed _ _) as [g0|]; [|reflexivity]. cbn [bind]. destruct (prepare_simulation_data _ _ _ _ _ _) as [[[init draws] g1]|]; [|reflexivity]. cbn [bind].
    pose proof (choices_in_range draws init g1) as Hc. unfold simulate_agents_over_periods in *.
    destruct (np_max _) as [maxy|]; [|reflexivity]. cbn [bind] in *.
    pose proof (for_each_rmap (sim_body rg mp sp sol pc pp draws init b false maxy)
      (sim_body rg mp sp sol pc pp draws init b true maxy) thin (range (num_periods sp)) (Ok (mkSimAcc rg [] [] g1))) as Hf.
    cbn [rmap] in Hf. change (thin (mkSimAcc rg [] [] g1)) with (mkSimAcc rg (T:=T) [] [] g1) in Hf.
    rewrite Hf by (intros; apply sim_body_sparse).
    destruct (for_each _ _ _) as [acc|]; [|reflexivity]. cbn [bind rmap fst snd] in *.
    unfold thin. cbn [sa_data sa_g]. rewrite pd_concat_map. destruct (pd_concat (sa_data rg acc)) as [dc|] eqn:Ec; [|reflexivity]. apply pd_concat_inv in Ec. subst dc.
    cbn [rmap bind fst snd]. f_equal. f_equal. rewrite !map_map. apply map_ext_in. intros r Hr. specialize (Hc _ _ eq_refl r Hr).
    unfold hide_wage, cast_sparse, drop_full. cbn [o_state o_choice o_wage o_full]. rewrite !(wrap8_choice (o_choice r) Hc).
    destruct (o_choice r =? 0)%Z eqn:E; cbn [o_state o_choice o_wage o_full]; rewrite ?(wrap8_choice (o_choice r) Hc); reflexivity.
  Qed.

  Lemma wrap8_int8 z : as_int8 z (wrap8 z).
  Proof.
    unfold as_int8, wrap8. pose proof (Z.mod_pos_bound (z + 128) 256 ltac:(lia)). split; [lia|].
    exists (- ((z + 128) / 256))%Z. pose proof (Z.div_mod (z + 128) 256 ltac:(lia)). lia.
  Qed.
  Lemma sparse_of_cast r : sparse_of r (cast_sparse (drop_full r)).
  Proof. unfold sparse_of. cbn. repeat (split; [first [reflexivity|apply wrap8_int8]|]). apply wrap8_int8. Qed.
End Sparse.

Section World.
  Context {T : Type} {NT : Num T}.
  Local Open Scope num_scope.
  Variable rg : rng T.
  Hypothesis Hrg : rng_ok rg.
  Variables mp1 mp2 : model_params T.
  Variables sp1 sp2 : model_spec T.
  Variables sol1 sol2 : solution T.
  Variable ip : init_probs T.
  Variable pc : list (list T).
  Variable pp : list (list (list (T * T))).
  Hypothesis Hspec1 : sim_spec_ok sp1.
  Hypothesis Hspec2 : sim_spec_ok sp2.
  Hypothesis Hsol1 : solution_for sp1 sol1.
  Hypothesis Hsol2 : solution_for sp2 sol2.
  Hypothesis Hw : same_world sp1 sp2.
  Hypothesis Hshares : type_shares mp1 = type_shares mp2.
  Variables b1 b2 : bool.

  Lemma zip_init_exo id ps es ags ms xs ys ts :
    map exogenous (zip_init mp1 sp1 b1 id ps es ags ms xs ys ts)
    = map exogenous (zip_init mp2 sp2 b2 id ps es ags ms xs ys ts).
  Proof.
    revert id es ags ms xs ys ts. induction ps as [|p ps IH]; intros id [|e es] [|a ags] [|m ms] [|x xs] [|y ys] [|t ts]; try reflexivity.
    cbn [zip_init map]. rewrite IH. reflexivity.
  Qed.

  Lemma prepare_exo g : match prepare_simulation_data rg mp1 sp1 ip b1 g, prepare_simulation_data rg mp2 sp2 ip b2 g with
    | Ok (i1, _, g1), Ok (i2, _, g2) => map exogenous i1 = map exogenous i2 /\ g1 = g2
    | Err e, Err e' => e = e'
    | _, _ => False
    end.
  Proof.
    destruct Hw as (W1 & W2 & W3 & W4 & W5 & W6 & W7 & W8 & W9 & W10).
    unfold prepare_simulation_data. rewrite W2, W3, W4, W9, W10, W1, Hshares.
    assert (Eb : init_body rg sp1 ip = init_body rg sp2 ip) by (unfold init_body; rewrite W6, W7; reflexivity).
    rewrite Eb. destruct (rng_choice rg g _ _ _) as [[educs g1]|]; cbn [bind]; [|reflexivity].
    destruct (np_size _) as [?|]; cbn [bind]; [|reflexivity].
    destruct (mapM _ educs) as [ps|]; cbn [bind]; [|reflexivity].
    destruct (for_each _ _ _) as [acc|]; cbn [bind]; [|reflexivity].
    destruct (rng_choice rg (ia_g rg acc) _ _ _) as [[types g2]|]; cbn [bind]; [|reflexivity].
    destruct (draw_zero_one_distributed_shocks _ _ _ _) as [[dr g3]|]; cbn [bind]; [|reflexivity].
    destruct (no_nan (ia_pt rg acc)); cbn [bind]; [|reflexivity]. destruct (no_nan (ia_ft rg acc)); cbn [bind]; [|reflexivity].
    destruct (no_nan (ia_age rg acc)); cbn [bind]; [|reflexivity]. destruct (no_nan (ia_partner rg acc)); cbn [bind]; [|reflexivity].
    split; [apply zip_init_exo|reflexivity].
  Qed.

  Notation x_id := (fun q : Z * Z * Z * Z * Z * Z => fst (fst (fst (fst (fst q))))).
  Notation x_period := (fun q : Z * Z * Z * Z * Z * Z => snd (fst (fst (fst (fst q))))).
  Notation x_educ := (fun q : Z * Z * Z * Z * Z * Z => snd (fst (fst (fst q)))).
  Notation x_type := (fun q : Z * Z * Z * Z * Z * Z => snd (fst (fst q))).
  Notation x_age := (fun q : Z * Z * Z * Z * Z * Z => snd (fst q)).
  Notation x_partner := (fun q : Z * Z * Z * Z * Z * Z => snd q).

  Lemma col_eq {B} (f : agent T -> B) (h : Z * Z * Z * Z * Z * Z -> B) c1 c2 :
    (forall a, f a = h (exogenous a)) -> map exogenous c1 = map exogenous c2 -> map f c1 = map f c2.
  Proof.
    intros Hf E. rewrite (map_ext f (fun a => h (exogenous a)) Hf c1), (map_ext f (fun a => h (exogenous a)) Hf c2).
    rewrite <- !map_map with (g := h) (f := exogenous). rewrite E. reflexivity.
  Qed.

  Lemma child_update_exo rule1 rule2 t c1 c2 idx1 idx2 g :
    map exogenous c1 = map exogenous c2 -> mapM (np_get rule1) idx1 = mapM (np_get rule2) idx2 ->
    child_update rg sp1 rule1 pc t c1 idx1 g = child_update rg sp2 rule2 pc t c2 idx2 g.
  Proof.
    intros Ec Er. destruct Hw as (W1 & W2 & W3 & W4 & W5 & W6 & W7 & W8 & W9 & W10).
    unfold child_update. rewrite W1, W8, Er. rewrite (col_eq a_age x_age c1 c2 (fun _ => eq_refl) Ec).
    rewrite !(mapM_map (fun e => do r <- np_get pc (t + 1)%Z; np_get r e) a_educ).
    rewrite (col_eq a_educ x_educ c1 c2 (fun _ => eq_refl) Ec). reflexivity.
  Qed.

  Lemma partner_update_exo t (c1 c2 : list (agent T)) g : map exogenous c1 = map exogenous c2 ->
    partner_update rg pp t c1 g = partner_update rg pp t c2 g.
  Proof.
    intros Ec. unfold partner_update. rewrite (col_eq a_partner x_partner c1 c2 (fun _ => eq_refl) Ec).
    rewrite !(mapM_map (fun e => do pr <- partner_prob pp t e 0; Ok (snd pr)) a_educ).
    rewrite !(mapM_map (fun e => do pr <- partner_prob pp t e 1; Ok (fst pr)) a_educ).
    rewrite <- !mask_select_map. rewrite (col_eq a_educ x_educ c1 c2 (fun _ => eq_refl) Ec). reflexivity.
  Qed.

  Lemma advance_exo mp sp b t cur rows ages ms : List.length rows = List.length cur ->
    map exogenous (advance mp sp b t cur rows ages ms)
    = map (fun '(q, age, m) => (x_id q, x_period q + 1, x_educ q, x_type q, age, m)%Z)
        (combine (combine (map exogenous cur) ages) ms).
  Proof.
    unfold advance. revert rows ages ms. induction cur as [|a cur IH]; intros [|r rows] [|x ages] [|m ms] H; try discriminate H; try reflexivity.
    cbn [map combine]. injection H as H. rewrite IH by assumption. reflexivity.
  Qed.

  Lemma rule_values mp sp sol b t cur ds rows : sizes_ok sp -> solution_for sp sol ->
    List.length ds = List.length cur -> (forall a, In a cur -> agent_in_space sp a) ->
    mapM (fun '(a, d) => sim_row mp sp sol b false t a d) (combine cur ds) = Ok rows ->
    mapM (np_get (sol_rule sol)) (map snd rows) = Ok (map (fun a => aged sp (a_age a)) cur) /\
    map o_state (map fst rows) = cur.
  Proof.
    intros Hsz Hsol. revert ds rows. induction cur as [|a cur IH]; intros [|d ds] rows Hl Hin H; try discriminate Hl.
    - cbn in H. injection H as <-. split; reflexivity.
    - cbn [combine mapM] in H. destruct (sim_row mp sp sol b false t a d) as [[r i]|] eqn:E; [|discriminate]. cbn [bind] in H.
      destruct (mapM _ (combine cur ds)) as [rows'|] eqn:E'; [|discriminate]. cbn [bind] in H. injection H as <-.
      injection Hl as Hl. destruct (IH ds rows' Hl ltac:(intros; apply Hin; right; assumption) E') as [I1 I2].
      pose proof (sim_row_facts mp sp sol Hsz Hsol b false t a d r i (Hin a (or_introl eq_refl)) E) as RF.
      cbn [map mapM fst snd]. rewrite (rf_rule _ _ _ _ _ _ _ _ _ _ RF), I1, I2. split; [reflexivity|].
      rewrite (rf_state _ _ _ _ _ _ _ _ _ _ RF). reflexivity.
  Qed.

  Lemma filter_exo t (l1 l2 : list (agent T)) : map exogenous l1 = map exogenous l2 ->
    map exogenous (filter (fun a => (a_period a =? t)%Z) l1) = map exogenous (filter (fun a => (a_period a =? t)%Z) l2).
  Proof.
    revert l2. induction l1 as [|a1 l1 IH]; intros [|a2 l2] E; try discriminate E; [reflexivity|].
    cbn [map] in E. assert (E0 : exogenous a1 = exogenous a2) by congruence. assert (E1 : map exogenous l1 = map exogenous l2) by congruence.
    cbn [filter]. replace (a_period a2) with (a_period a1) by (apply (f_equal x_period) in E0; exact E0).
    destruct (a_period a1 =? t)%Z; cbn [map]; rewrite (IH l2 E1); [rewrite E0|]; reflexivity.
  Qed.

  Lemma sim_body_exo draws1 draws2 init1 init2 maxy t acc1 acc2 acc1' acc2' :
    map exogenous init1 = map exogenous init2 ->
    map exogenous (sa_current rg acc1) = map exogenous (sa_current rg acc2) ->
    sa_g rg acc1 = sa_g rg acc2 ->
    map (map (fun r => exogenous (o_state r))) (sa_data rg acc1) = map (map (fun r => exogenous (o_state r))) (sa_data rg acc2) ->
    (forall a, In a (sa_current rg acc1 ++ filter (fun a => (a_period a =? t)%Z) init1) -> agent_in_space sp1 a) ->
    (forall a, In a (sa_current rg acc2 ++ filter (fun a => (a_period a =? t)%Z) init2) -> agent_in_space sp2 a) ->
    sim_body rg mp1 sp1 sol1 pc pp draws1 init1 b1 false maxy t acc1 = Ok acc1' ->
    sim_body rg mp2 sp2 sol2 pc pp draws2 init2 b2 false maxy t acc2 = Ok acc2' ->
    map exogenous (sa_current rg acc1') = map exogenous (sa_current rg acc2') /\ sa_g rg acc1' = sa_g rg acc2' /\
    map (map (fun r => exogenous (o_state r))) (sa_data rg acc1') = map (map (fun r => exogenous (o_state r))) (sa_data rg acc2').
  Proof.
    intros Ei Ec Eg Ed Hin1 Hin2 H1 H2. unfold sim_body in H1, H2.
    set (c1 := if (t <=? maxy)%Z then sa_current rg acc1 ++ _ else _) in H1.
    set (c2 := if (t <=? maxy)%Z then sa_current rg acc2 ++ _ else _) in H2.
    assert (Ecur : map exogenous c1 = map exogenous c2).
    { unfold c1, c2. destruct (t <=? maxy)%Z; [|exact Ec]. rewrite !map_app, Ec, (filter_exo t _ _ Ei). reflexivity. }
    assert (Hc1 : forall a, In a c1 -> agent_in_space sp1 a).
    { intros a Ha. apply Hin1. unfold c1 in Ha. destruct (t <=? maxy)%Z; [exact Ha|apply in_app_iff; left; exact Ha]. }
    assert (Hc2 : forall a, In a c2 -> agent_in_space sp2 a).
    { intros a Ha. apply Hin2. unfold c2 in Ha. destruct (t <=? maxy)%Z; [exact Ha|apply in_app_iff; left; exact Ha]. }
    clearbody c1 c2.
    destruct (np_get draws1 t) as [d1|]; cbn [bind] in H1; [|discriminate].
    destruct (np_get draws2 t) as [d2|]; cbn [bind] in H2; [|discriminate].
    destruct (negb _) eqn:L1 in H1; [discriminate|]. apply Bool.negb_false_iff, Nat.eqb_eq in L1.
    destruct (negb _) eqn:L2 in H2; [discriminate|]. apply Bool.negb_false_iff, Nat.eqb_eq in L2.
    destruct (mapM _ (combine c1 _)) as [rows1|] eqn:R1; cbn [bind] in H1; [|discriminate].
    destruct (mapM _ (combine c2 _)) as [rows2|] eqn:R2; cbn [bind] in H2; [|discriminate].
    destruct (rule_values _ _ _ _ _ _ _ _ (sizes sp1 Hspec1) Hsol1 L1 Hc1 R1) as [V1 S1].
    destruct (rule_values _ _ _ _ _ _ _ _ (sizes sp2 Hspec2) Hsol2 L2 Hc2 R2) as [V2 S2].
    apply mapM_length in R1. rewrite combine_length, L1, Nat.min_id in R1.
    apply mapM_length in R2. rewrite combine_length, L2, Nat.min_id in R2.
    assert (Ecc : child_update rg sp1 (sol_rule sol1) pc t c1 (map snd rows1) (sa_g rg acc1)
                = child_update rg sp2 (sol_rule sol2) pc t c2 (map snd rows2) (sa_g rg acc2)).
    { rewrite Eg. apply child_update_exo; [exact Ecur|]. rewrite V1, V2. f_equal.
      rewrite (col_eq (fun a => aged sp1 (a_age a)) (fun q => aged sp1 (x_age q)) c1 c2 (fun _ => eq_refl) Ecur).
      apply map_ext. intros a. unfold aged. destruct Hw as (_ & _ & _ & _ & -> & _). reflexivity. }
    rewrite Ecc in H1. destruct (child_update _ _ _ _ _ _ _ _) as [[ages g1]|]; cbn [bind] in H1, H2; [|discriminate].
    rewrite (partner_update_exo t c1 c2 g1 Ecur) in H1.
    destruct (partner_update _ _ _ _ _) as [[ms g2]|]; cbn [bind] in H1, H2; [|discriminate].
    injection H1 as <-. injection H2 as <-. cbn [sa_current sa_g sa_data].
    split; [rewrite !advance_exo by assumption; rewrite Ecur; reflexivity|]. split; [reflexivity|].
    rewrite !map_app, Ed. cbn [map]. do 2 f_equal.
    rewrite <- (map_map o_state exogenous), S1, <- (map_map o_state exogenous), S2. exact Ecur.
  Qed.

  Lemma same_exogenous g1 g2 data1 data2 g1' g2' :
    pyth_simulate rg mp1 sp1 sol1 ip pc pp b1 false g1 = Ok (data1, g1') ->
    pyth_simulate rg mp2 sp2 sol2 ip pc pp b2 false g2 = Ok (data2, g2') ->
    map (fun r => exogenous (o_state r)) data1 = map (fun r => exogenous (o_state r)) data2.
  Proof.
    unfold pyth_simulate. intros H1 H2. pose proof Hw as (W1 & W2 & W3 & W4 & W5 & W6 & W7 & W8 & W9 & W10).
    rewrite W9 in H1. destruct (np_seed rg (seed_sim sp2)) as [g0|]; cbn [bind] in H1, H2; [|discriminate].
    pose proof (prepare_exo g0) as Hp.
    destruct (prepare_simulation_data rg mp1 _ _ _ _) as [[[i1 d1] h1]|] eqn:P1; cbn [bind] in H1; [|discriminate].
    destruct (prepare_simulation_data rg mp2 _ _ _ _) as [[[i2 d2] h2]|] eqn:P2; cbn [bind] in H2; [|discriminate].
    destruct Hp as [Ei <-].
    assert (E1 : (0 <= num_educ_levels sp1)%Z) by apply (sizes sp1 Hspec1).
    assert (E2 : (0 <= num_educ_levels sp2)%Z) by apply (sizes sp2 Hspec2).
    destruct (prepare_spec rg Hrg _ _ _ _ _ _ _ _ P1 E1) as (educs1 & _ & _ & _ & I1 & _).
    destruct (prepare_spec rg Hrg _ _ _ _ _ _ _ _ P2 E2) as (educs2 & _ & _ & _ & I2 & _). clear P1 P2.
    unfold simulate_agents_over_periods in H1, H2. rewrite W4, W1 in H1.
    destruct (np_max (educ_years sp2)) as [maxy|] eqn:Em; cbn [bind] in H1, H2; [|discriminate].
    destruct (for_each _ _ _) as [a1|] eqn:F1 in H1; cbn [bind] in H1; [|discriminate].
    destruct (for_each _ _ _) as [a2|] eqn:F2 in H2; cbn [bind] in H2; [|discriminate].
    cbn [fst snd] in H1, H2. destruct (pd_concat (sa_data rg a1)) as [c1|] eqn:C1; cbn [bind] in H1; [|discriminate].
    destruct (pd_concat (sa_data rg a2)) as [c2|] eqn:C2; cbn [bind] in H2; [|discriminate]. apply pd_concat_inv in C1, C2. subst c1 c2.
    injection H1 as <- <-. injection H2 as <- <-.
    assert (HP : (0 <= num_periods sp2)%Z) by (pose proof (proj1 Hspec2); lia).
    set (P := Z.to_nat (num_periods sp2)) in *. assert (EP : num_periods sp2 = Z.of_nat P) by (unfold P; lia).
    rewrite EP in F1, F2.
    apply for_each_trace in F1. destruct F1 as (s1 & Z1 & N1 & T1).
    apply for_each_trace in F2. destruct F2 as (s2 & Z2 & N2 & T2).
    pose proof (trace_inv rg Hrg mp1 sp1 sol1 ip pc pp d1 i1 b1 false Hspec1 Hsol1 educs1 b1 I1 maxy s1 h1 P
                  ltac:(rewrite W4; exact Em) ltac:(lia) Z1 T1) as V1.
    pose proof (trace_inv rg Hrg mp2 sp2 sol2 ip pc pp d2 i2 b2 false Hspec2 Hsol2 educs2 b2 I2 maxy s2 h1 P
                  Em EP Z2 T2) as V2.
    cbn zeta in V1, V2.
    assert (Hall : forall t, (t <= P)%nat ->
      map exogenous (sa_current rg (s1 t)) = map exogenous (sa_current rg (s2 t)) /\ sa_g rg (s1 t) = sa_g rg (s2 t) /\
      map (map (fun r => exogenous (o_state r))) (sa_data rg (s1 t)) = map (map (fun r => exogenous (o_state r))) (sa_data rg (s2 t))).
    { induction t as [|t IH]; intros Ht.
      - rewrite Z1, Z2. repeat split.
      - destruct (IH ltac:(lia)) as (J1 & J2 & J3).
        destruct (V1 t ltac:(lia)) as (_ & Q1 & _). specialize (Q1 ltac:(lia)).
        destruct (V2 t ltac:(lia)) as (_ & Q2 & _). specialize (Q2 ltac:(lia)).
        eapply sim_body_exo; [exact Ei|exact J1|exact J2|exact J3| | |exact (T1 t ltac:(lia))|exact (T2 t ltac:(lia))].
        + intros a Ha. apply In_nth_error in Ha. destruct Ha as [k Ha]. apply (proj2 Q1 k a Ha).
        + intros a Ha. apply In_nth_error in Ha. destruct Ha as [k Ha]. apply (proj2 Q2 k a Ha). }
    destruct (Hall P ltac:(lia)) as (_ & _ & HD). rewrite N1, N2 in HD.
    rewrite !map_map. rewrite (map_ext _ (fun r => exogenous (o_state r))) by (intros r; rewrite hide_state; reflexivity).
    rewrite (map_ext (fun x => exogenous (o_state (hide_wage x))) (fun r => exogenous (o_state r))) by (intros r; rewrite hide_state; reflexivity).
    rewrite !concat_map. f_equal. exact HD.
  Qed.
End World.
