(** The exogenous updates of one simulated period. *)
From Coq Require Import ZArith List Lia Arith.
From Verif Require Import Base Num M_Params M_StateSpace M_Exog M_Sim
  S_StateSpace S_Rng S_Sim L_Num L_StateSpace L_Trace.
Import ListNotations.

Section Updates.
  Context {T : Type} {NT : Num T}.
  Variable rg : rng T.
  Hypothesis Hrg : rng_ok rg.
  Local Open Scope num_scope.

  Lemma binomial_masked {A} (f : A -> result T) mask (cur : list A) ps g l g' k a p :
    List.length mask = List.length cur ->
    mapM f (mask_select mask cur) = Ok ps -> rng_binomial rg g ps = Ok (l, g') ->
    nth_error mask k = Some true -> nth_error cur k = Some a -> f a = Ok p ->
    exists x, nth_error l (rank mask k) = Some x /\ drawn rg p x.
  Proof.
    intros Hlen Hm Hb Hk Ha Hf.
    pose proof (mask_select_nth mask cur k a Hk Ha) as Hs.
    destruct (mapM_nth_error f _ _ _ _ Hm Hs) as (p' & Hp & Hf'). rewrite Hf in Hf'. injection Hf' as <-.
    pose proof (binomial_length rg Hrg _ _ _ _ Hb) as Hl.
    destruct (nth_error_some l (rank mask k)) as [x Hx].
    { rewrite Hl. apply nth_error_lt in Hp. exact Hp. }
    exists x. split; [exact Hx|]. exists g, ps, l, g', (rank mask k). repeat split; assumption.
  Qed.

  Lemma partner_update_spec pp t cur g ms g' :
    partner_update rg pp t cur g = Ok (ms, g') ->
    (forall a, In a cur -> a_partner a = 0%Z \/ a_partner a = 1%Z) ->
    List.length ms = List.length cur /\
    forall k a, nth_error cur k = Some a -> exists m',
      nth_error ms k = Some m' /\
      (a_partner a = 0%Z -> exists pr, partner_prob pp t (a_educ a) 0 = Ok pr /\ drawn rg (snd pr) m') /\
      (a_partner a = 1%Z -> exists pr s, partner_prob pp t (a_educ a) 1 = Ok pr /\ drawn rg (fst pr) s /\
                                          m' = (1 - s)%Z).
  Proof.
    unfold partner_update. intros H Hp01.
    set (ind := map a_partner cur) in *.
    set (no := map (fun m => (m =? 0)%Z) ind) in *.
    set (has := map (fun m => (m =? 1)%Z) ind) in *.
    assert (Lind : List.length ind = List.length cur) by (unfold ind; apply map_length).
    assert (Lno : List.length no = List.length ind) by (unfold no; apply map_length).
    assert (Lhas : List.length has = List.length ind) by (unfold has; apply map_length).
    assert (Nno : forall k a, nth_error cur k = Some a -> nth_error no k = Some (a_partner a =? 0)%Z).
    { intros k a Ha. unfold no, ind. rewrite !nth_error_map', Ha. reflexivity. }
    assert (Nhas : forall k a, nth_error cur k = Some a -> nth_error has k = Some (a_partner a =? 1)%Z).
    { intros k a Ha. unfold has, ind. rewrite !nth_error_map', Ha. reflexivity. }
    assert (Nind : forall k a, nth_error cur k = Some a -> nth_error ind k = Some (a_partner a)).
    { intros k a Ha. unfold ind. rewrite !nth_error_map', Ha. reflexivity. }
    (* first stage *)
    assert (H1 : exists np g1, (List.length np = List.length cur /\
        forall k a, nth_error cur k = Some a ->
          exists m', nth_error np k = Some m' /\
          (a_partner a = 0%Z -> exists pr, partner_prob pp t (a_educ a) 0 = Ok pr /\ drawn rg (snd pr) m')) /\
        (if existsb (fun b => b) has then
          do ps <- mapM (fun a => do pr <- partner_prob pp t (a_educ a) 1; Ok (fst pr)) (mask_select has cur);
          do (sep, g0) <- rng_binomial rg g1 ps;
          Ok (mask_assign has np (map2 Z.sub (mask_select has ind) sep), g0)
        else Ok (np, g1)) = Ok (ms, g')).
    { destruct (existsb (fun b => b) no) eqn:Eno.
      - destruct (mapM _ (mask_select no cur)) as [ps|] eqn:Em; cbn [bind] in H; [|discriminate].
        destruct (rng_binomial rg g ps) as [[arr g1]|] eqn:Eb; cbn [bind] in H; [|discriminate].
        exists (mask_assign no ind arr), g1. split; [|exact H]. split.
        + rewrite mask_assign_length by assumption. assumption.
        + intros k a Ha. destruct (Hp01 a (nth_error_In _ _ Ha)) as [E|E].
          * assert (Hk : nth_error no k = Some true) by (rewrite (Nno k a Ha), E; reflexivity).
            pose proof (mask_select_nth no cur k a Hk Ha) as Hs.
            destruct (mapM_nth_error _ _ _ _ _ Em Hs) as (p & Hp & Hf).
            destruct (partner_prob pp t (a_educ a) 0) as [pr|] eqn:Epr; cbn [bind] in Hf; [|discriminate].
            injection Hf as <-.
            destruct (binomial_masked _ no cur ps g arr g1 k a (snd pr) ltac:(congruence) Em Eb Hk Ha) as (x & Hx & Hd).
            { rewrite Epr. reflexivity. }
            exists x. split; [apply mask_assign_true; assumption|]. intros _. exists pr. split; [reflexivity|exact Hd].
          * exists (a_partner a). split; [|intros; congruence].
            rewrite mask_assign_false; [apply Nind; assumption|assumption|].
            rewrite (Nno k a Ha), E. reflexivity.
      - cbn [bind] in H. exists ind, g. split; [|exact H]. split; [exact Lind|].
        intros k a Ha. exists (a_partner a). split; [apply Nind; assumption|]. intros E.
        exfalso. apply (no_true_mask no k Eno). rewrite (Nno k a Ha), E. reflexivity. }
    destruct H1 as (np & g1 & (Lnp & Hnp) & H2). clear H.
    destruct (existsb (fun b => b) has) eqn:Ehas.
    - destruct (mapM _ (mask_select has cur)) as [ps|] eqn:Em; cbn [bind] in H2; [|discriminate].
      destruct (rng_binomial rg g1 ps) as [[sep g2]|] eqn:Eb; cbn [bind] in H2; [|discriminate].
      injection H2 as <- <-. split.
      + rewrite mask_assign_length by congruence. assumption.
      + intros k a Ha. destruct (Hp01 a (nth_error_In _ _ Ha)) as [E|E].
        * destruct (Hnp k a Ha) as (m' & Hm' & Hd). exists m'. split.
          { rewrite mask_assign_false; [assumption|congruence|]. rewrite (Nhas k a Ha), E. reflexivity. }
          split; [assumption|congruence].
        * assert (Hk : nth_error has k = Some true) by (rewrite (Nhas k a Ha), E; reflexivity).
          pose proof (mask_select_nth has cur k a Hk Ha) as Hs.
          destruct (mapM_nth_error _ _ _ _ _ Em Hs) as (p & Hp & Hf).
          destruct (partner_prob pp t (a_educ a) 1) as [pr|] eqn:Epr; cbn [bind] in Hf; [|discriminate].
          injection Hf as <-.
          destruct (binomial_masked _ has cur ps g1 sep g2 k a (fst pr) ltac:(congruence) Em Eb Hk Ha) as (x & Hx & Hd).
          { rewrite Epr. reflexivity. }
          exists (1 - x)%Z. split; [|split; [congruence|]].
          { apply mask_assign_true; [congruence|assumption|].
            apply map2_nth_error; [|assumption].
            rewrite (mask_select_nth has ind k (a_partner a) Hk (Nind k a Ha)), E. reflexivity. }
          intros _. exists pr, x. repeat split; assumption.
    - injection H2 as <- <-. split; [assumption|]. intros k a Ha.
      destruct (Hnp k a Ha) as (m' & Hm' & Hd). exists m'. split; [assumption|]. split; [assumption|].
      intros E. exfalso. apply (no_true_mask has k Ehas). rewrite (Nhas k a Ha), E. reflexivity.
  Qed.

  (** new child ages, given what the ageing rule says for every agent *)
  Lemma child_update_spec sp rule pc t cur idxs g ages g' :
    child_update rg sp rule pc t cur idxs g = Ok (ages, g') ->
    List.length idxs = List.length cur ->
    List.length ages = List.length cur /\
    forall k a idx u, nth_error cur k = Some a -> nth_error idxs k = Some idx -> np_get rule idx = Ok u ->
    exists age, nth_error ages k = Some age /\
      (t = (num_periods sp - 1)%Z -> age = a_age a) /\
      (t <> (num_periods sp - 1)%Z -> (t <= last_child_bearing_period sp)%Z ->
         exists r p d, np_get pc (t + 1)%Z = Ok r /\ np_get r (a_educ a) = Ok p /\ drawn rg p d /\
           age = if (d =? 0)%Z then u else 0%Z) /\
      (t <> (num_periods sp - 1)%Z -> (last_child_bearing_period sp < t)%Z -> age = u).
  Proof.
    unfold child_update. intros H Hl. destruct (t =? num_periods sp - 1)%Z eqn:E1.
    - injection H as <- <-. split; [apply map_length|]. intros k a idx u Ha _ _.
      exists (a_age a). split; [rewrite nth_error_map', Ha; reflexivity|].
      apply Z.eqb_eq in E1. repeat split; intros; congruence.
    - apply Z.eqb_neq in E1. destruct (t <=? last_child_bearing_period sp)%Z eqn:E2.
      + apply Z.leb_le in E2.
        destruct (mapM _ cur) as [ps|] eqn:Em; cbn [bind] in H; [|discriminate].
        destruct (rng_binomial rg g ps) as [[kd g1]|] eqn:Eb; cbn [bind] in H; [|discriminate].
        destruct (mapM (np_get rule) idxs) as [aged_|] eqn:Er; cbn [bind] in H; [|discriminate].
        injection H as <- <-.
        pose proof (binomial_length rg Hrg _ _ _ _ Eb) as Lb.
        apply mapM_length in Em as Lp. apply mapM_length in Er as Lr.
        split; [rewrite map2_length; lia|].
        intros k a idx u Ha Hi Hu.
        destruct (mapM_nth_error _ _ _ _ _ Em Ha) as (p & Hp & Hf).
        destruct (mapM_nth_error _ _ _ _ _ Er Hi) as (u' & Hu' & Hf'). rewrite Hu in Hf'. injection Hf' as <-.
        destruct (nth_error_some kd k) as [d Hd]; [rewrite Lb; apply nth_error_lt in Hp; exact Hp|].
        exists (if (d =? 0)%Z then u else 0%Z). split; [|split; [congruence|split; [|lia]]].
        * apply (map2_nth_error (fun k u => if (k =? 0)%Z then u else 0%Z)); assumption.
        * intros _ _. destruct (np_get pc (t + 1)%Z) as [r|] eqn:Er1; cbn [bind] in Hf; [|discriminate].
          exists r, p, d. split; [reflexivity|]. split; [exact Hf|]. split; [|reflexivity].
          exists g, ps, kd, g1, k. repeat split; assumption.
      + apply Z.leb_gt in E2.
        destruct (mapM (np_get rule) idxs) as [aged_|] eqn:Er; cbn [bind] in H; [|discriminate].
        injection H as <- <-. apply mapM_length in Er as Lr. split; [lia|].
        intros k a idx u Ha Hi Hu.
        destruct (mapM_nth_error _ _ _ _ _ Er Hi) as (u' & Hu' & Hf'). rewrite Hu in Hf'. injection Hf' as <-.
        exists u. repeat split; try assumption; try congruence; lia.
  Qed.

  Lemma drawn_01 p x : drawn rg p x -> x = 0%Z \/ x = 1%Z.
  Proof.
    intros (g & ps & l & g' & j & Hb & _ & Hx). apply (binomial_values rg Hrg _ _ _ _ Hb).
    apply nth_error_In in Hx. exact Hx.
  Qed.
  Lemma drawn_zero x : drawn rg #0 x -> x = 0%Z.
  Proof.
    intros (g & ps & l & g' & j & Hb & Hp & Hx).
    pose proof (binomial_zero rg Hrg _ _ _ _ _ Hb Hp). congruence.
  Qed.
  Lemma drawn_one x : drawn rg #1 x -> x = 1%Z.
  Proof.
    intros (g & ps & l & g' & j & Hb & Hp & Hx).
    pose proof (binomial_one rg Hrg _ _ _ _ _ Hb Hp). congruence.
  Qed.
End Updates.
