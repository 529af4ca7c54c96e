(** Lemmas for the assertions of the test suite (C92). *)
From Coq Require Import Reals Lra Lia ZArith List String Permutation.
From Verif Require Import Base Num M_Params M_StateSpace M_Tax M_Exog M_Sim M_Spec M_Main M_RandomInit S_StateSpace S_Bellman S_Solver S_Rng S_Sim S_SimInputs S_SimEntry S_Spec S_Main S_Entries S_RandomInit S_Tests
  M_Experience M_Solve L_Entries
  L_Num L_Spec L_SpecSame L_SpecField L_Params L_Main L_RandomInit L_RandomValues L_SimProps L_SimEntry L_SimData T_Sim T_SimEntry T_Entries T_Main T_RandomInit T_SimSame.
Import ListNotations.
Local Open Scope string_scope.
Local Open Scope list_scope.
Open Scope R_scope.

(** *** The run behind a data set *)
Lemma run_inv rg dr c s ri s' x biased data : draws_ok dr -> admissible c -> random_init dr c s = Ok (ri, s') ->
  run_returns rg ri x (own_params ri) biased data ->
  exists df mp sp ip pc pp zs ws sol,
    read_model_params_init (own_params ri) = Ok (df, mp) /\ (forall h, snd (read_model (own_params ri) (SpecPath (ri_yaml ri) 0) h) = Ok (mp, sp)) /\
    inputs_ok sp mp pc pp /\ solved sp mp biased zs ws pc pp sol /\ sim_inputs_ok rg mp sp sol ip pc pp /\ simulation rg mp sp sol ip pc pp data.
Proof.
  intros Hd Hc E (Hx & roots & s2 & spi & g & h & g' & Hrg & Htot & Hrun).
  destruct (random_init_inv dr c s ri s' E) as (st & d & fs & s1 & s2' & -> & E1 & E2 & E3). unfold own_params in *. cbn [ri_yaml ri_files ri_params] in *.
  destruct (params_drawn dr Hd s1) as (d' & s2'' & E2' & Hp). assert (d' = d) by congruence. subst d'. cbv zeta in Hp. destruct Hp as ((mp & Hp & _) & Ht).
  assert (Ha : arg_ok (SpecPath (spec_yaml st) 0) h) by (split; [exact (yaml_closed st)|cbn; lia]).
  destruct (complete_read (SpecPath (spec_yaml st) 0) h _ _ _ _ (frame_to_dict (params_frame d)) eq_refl (yaml_complete st)) as (sp & Er & Ag).
  destruct (drawn_files_ok dr Hd c s s1 s2' s' st d fs _ sp x Hc E1 E2 E3 Hx Ag) as (U & F).
  assert (Hr : runnable mp sp).
  { destruct Ht as [Ht|(n & share & p & f & Ht & Hs)].
    - exact (consistent_one (SpecPath (spec_yaml st) 0) h _ _ _ _ _ _ mp sp x eq_refl (yaml_complete st) Ag Hp Ht U F).
    - exact (consistent (SpecPath (spec_yaml st) 0) h _ _ _ _ _ _ mp n share p f sp x eq_refl (yaml_complete st) Ag Hp Ht Hs U F). }
  destruct (C54_inputs_of_the_simulation rg roots s2 spi _ (SpecPath (spec_yaml st) 0) x biased g h _ mp sp data g' Ha Hrg Htot Hp Er Hr F Hrun)
    as (ip & pc & pp & zs & ws & g1 & sol & _ & _ & B1 & B2 & B3 & B4).
  exists (frame_to_dict (params_frame d)), mp, sp, ip, pc, pp, zs, ws, sol. split; [exact Hp|]. split; [|exact (conj B1 (conj B2 (conj B3 B4)))].
  intros h'. rewrite read_model_value, Hp.
  destruct (complete_read (SpecPath (spec_yaml st) 0) h' _ _ _ _ (frame_to_dict (params_frame d)) eq_refl (yaml_complete st)) as (sp' & Er' & _).
  assert (snd (read_model_spec_init (SpecPath (spec_yaml st) 0) (frame_to_dict (params_frame d)) h') = snd (read_model_spec_init (SpecPath (spec_yaml st) 0) (frame_to_dict (params_frame d)) h)) as ->.
  { assert (Hc0 : closed (spec_yaml (T := R) st)) by exact (yaml_closed st). assert (Hl0 : (0 < List.length (spec_yaml (T := R) st))%nat) by (cbn; lia).
    pose proof (read_same (spec_yaml st) [] [] h' 0 (frame_to_dict (params_frame d)) Hc0 Hl0) as (_ & Q1). pose proof (read_same (spec_yaml st) [] [] h 0 (frame_to_dict (params_frame d)) Hc0 Hl0) as (_ & Q2).
    congruence. }
  rewrite Er. reflexivity.
Qed.

(** *** Counting rows *)
Lemma NoDup_prod {A B} (l : list A) (m : list B) : NoDup l -> NoDup m -> NoDup (list_prod l m).
Proof.
  intros Hl Hm. induction Hl as [|x l Hx Hl IH]; [constructor|]. cbn [list_prod].
  assert (Happ : forall u v : list (A * B), NoDup u -> NoDup v -> (forall z, In z u -> ~ In z v) -> NoDup (u ++ v)).
  { induction u as [|z u IHu]; intros v Hu Hv Hd; [exact Hv|]. inversion Hu as [|? ? Hz Hu']; subst. cbn [app]. constructor.
    - rewrite in_app_iff. intros [H|H]; [exact (Hz H)|exact (Hd z (or_introl eq_refl) H)].
    - apply IHu; [exact Hu'|exact Hv|]. intros q Hq. exact (Hd q (or_intror Hq)). }
  apply Happ; [|exact IH|].
  - clear -Hm. induction Hm as [|y m Hy Hm IH]; [constructor|]. cbn [map]. constructor; [|exact IH].
    intros H. apply in_map_iff in H. destruct H as (z & E & H). injection E as ->. exact (Hy H).
  - intros (a & b) H1 H2. apply in_map_iff in H1. destruct H1 as (y & E & _). injection E as <- <-. apply in_prod_iff in H2. exact (Hx (proj1 H2)).
Qed.

Lemma NoDup_filter_map {A B} (f : A -> B) p l : NoDup (map f l) -> NoDup (map f (filter p l)).
Proof.
  induction l as [|x l IH]; intros H; [constructor|]. cbn [map] in H. inversion H as [|? ? Hx Hl]; subst. cbn [filter].
  destruct (p x); [|exact (IH Hl)]. cbn [map]. constructor; [|exact (IH Hl)].
  intros Hin. apply Hx. apply in_map_iff in Hin. destruct Hin as (y & <- & Hy). apply in_map. apply filter_In in Hy. exact (proj1 Hy).
Qed.

(** every element counted under its class *)
Lemma classes {A} (f : A -> Z) (l : list A) : forall n, (forall x, In x l -> (0 <= f x < Z.of_nat n)%Z) ->
  zlen l = sumZ (map (fun i => zlen (filter (fun x => (f x =? Z.of_nat i)%Z) l)) (seq 0 n)).
Proof.
  induction l as [|x l IH]; intros n H.
  - assert (E : forall is, sumZ (map (fun _ : nat => 0%Z) is) = 0%Z) by (induction is as [|i is IHi]; [reflexivity|cbn [map]; rewrite sumZ_cons, IHi; reflexivity]).
    cbn [filter]. symmetry. exact (E (seq 0 n)).
  - assert (Hx := H x (or_introl eq_refl)). specialize (IH n (fun y Hy => H y (or_intror Hy))).
    assert (E : forall m, sumZ (map (fun i => zlen (filter (fun y => (f y =? Z.of_nat i)%Z) (x :: l))) (seq 0 m))
      = (sumZ (map (fun i => zlen (filter (fun y => (f y =? Z.of_nat i)%Z) l)) (seq 0 m)) + if (f x <? Z.of_nat m)%Z then 1 else 0)%Z).
    { induction m as [|m IHm]; [cbn [seq map]; destruct (Z.ltb_spec (f x) (Z.of_nat 0)); unfold sumZ; cbn; lia|].
      rewrite seq_S, !map_app, !sumZ_app, IHm. cbn [map]. rewrite !sumZ_cons. cbn [filter Nat.add]. change (sumZ []) with 0%Z.
      destruct (Z.eqb_spec (f x) (Z.of_nat m)); unfold zlen; cbn [List.length];
        destruct (Z.ltb_spec (f x) (Z.of_nat m)); destruct (Z.ltb_spec (f x) (Z.of_nat (S m))); lia. }
    rewrite E, <- IH. destruct (Z.ltb_spec (f x) (Z.of_nat n)); unfold zlen; cbn [List.length]; lia.
Qed.

Lemma zlen_range_to y p : (y <= p)%Z -> zlen (range2 y p) = (p - y)%Z.
Proof. intros H. unfold zlen, range2. rewrite map_length, seq_length. lia. Qed.
Lemma range_to_NoDup y p : NoDup (range2 y p).
Proof. unfold range2. apply FinFun.Injective_map_NoDup; [|apply seq_NoDup]. intros a b H. lia. Qed.
Lemma in_range_to y p t : In t (range2 y p) <-> (y <= t < p)%Z.
Proof.
  unfold range2. rewrite in_map_iff. split.
  - intros (k & <- & Hk). apply in_seq in Hk. lia.
  - intros H. exists (Z.to_nat (t - y)). split; [lia|]. apply in_seq. lia.
Qed.

Section Rows.
  Variables (rg : rng R) (mp : model_params R) (sp : model_spec R) (sol : solution R) (ip : init_probs R)
    (pc : list (list R)) (pp : list (list (list (R * R)))) (data : list (out_row R)).
  Hypothesis Hset : sim_setting rg sp sol.
  Hypothesis Hsim : simulation rg mp sp sol ip pc pp data.

  Lemma level_period r : In r data -> exists y, (0 <= a_educ (o_state r))%Z /\
    nth_error (educ_years sp) (Z.to_nat (a_educ (o_state r))) = Some y /\ (y <= row_period r < num_periods sp)%Z /\
    forall t, (y <= t < num_periods sp)%Z -> exists q, In q data /\ row_id q = row_id r /\ row_period q = t /\ a_educ (o_state q) = a_educ (o_state r).
  Proof.
    intros Hr. destruct (C32_panel rg mp sp sol ip pc pp data Hset Hsim) as (_ & educs & _ & P1 & P2 & _).
    destruct (P1 r Hr) as (K & Ke). destruct (P2 _ _ Ke) as (y & He & Hy & Hp). exists y. split; [exact He|]. split; [exact Hy|].
    assert (Hk : Z.of_nat (Z.to_nat (row_id r)) = row_id r) by lia. rewrite Hk in Hp.
    split; [apply Hp; exists r; split; [exact Hr|reflexivity]|].
    intros t Ht. apply Hp in Ht. destruct Ht as (q & Hq & Kq). unfold row_key in Kq. injection Kq as Kq1 Kq2. exists q.
    split; [exact Hq|]. split; [exact Kq1|]. split; [exact Kq2|].
    destruct (P1 q Hq) as (_ & Kq). rewrite Kq1 in Kq. congruence.
  Qed.

  Lemma first_of_level e y : (0 <= e)%Z -> nth_error (educ_years sp) (Z.to_nat e) = Some y ->
    (exists r, In r data /\ a_educ (o_state r) = e) -> first_period data e y.
  Proof.
    intros He Hy (r & Hr & Er). split.
    - destruct (level_period r Hr) as (y' & _ & Hy' & Hp & Hq). rewrite Er in Hy', Hq. assert (y' = y) by congruence. subst y'.
      destruct (Hq y ltac:(lia)) as (q & Q1 & _ & Q3 & Q4). exists q. split; [exact Q1|]. split; [exact Q4|exact Q3].
    - intros q Hq Eq. destruct (level_period q Hq) as (y' & _ & Hy' & Hp & _). rewrite Eq in Hy'. assert (y' = y) by congruence. lia.
  Qed.

  Lemma rows_of_level e y ids : (0 <= e)%Z -> nth_error (educ_years sp) (Z.to_nat e) = Some y -> ids_of_level data e ids ->
    zlen (filter (fun r => (a_educ (o_state r) =? e)%Z) data) = (zlen ids * (num_periods sp - y))%Z.
  Proof.
    intros He Hy (N & Hids).
    assert (P : Permutation (map row_key (filter (fun r => (a_educ (o_state r) =? e)%Z) data)) (list_prod ids (range2 y (num_periods sp)))).
    { apply NoDup_Permutation.
      - apply NoDup_filter_map. exact (proj1 (C32_panel rg mp sp sol ip pc pp data Hset Hsim)).
      - apply NoDup_prod; [exact N|apply range_to_NoDup].
      - intros (id & t). rewrite in_prod_iff, in_range_to, in_map_iff. split.
        + intros (r & K & Hr). apply filter_In in Hr. destruct Hr as (Hr & Er). apply Z.eqb_eq in Er. unfold row_key in K. injection K as <- <-.
          split; [apply Hids; exists r; auto|]. destruct (level_period r Hr) as (y' & _ & Hy' & Hp & _). rewrite Er in Hy'. assert (y' = y) by congruence. lia.
        + intros (Hid & Ht). apply Hids in Hid. destruct Hid as (r & Hr & Er & <-). destruct (level_period r Hr) as (y' & _ & Hy' & _ & Hq).
          rewrite Er in Hy', Hq. assert (y' = y) by congruence. subst y'. destruct (Hq t Ht) as (q & Q1 & Q2 & Q3 & Q4). exists q.
          split; [unfold row_key; congruence|]. apply filter_In. split; [exact Q1|]. apply Z.eqb_eq. exact Q4. }
    apply Permutation_length in P. rewrite map_length, prod_length in P. unfold zlen. rewrite P, Nat2Z.inj_mul.
    destruct ids as [|id ids]; [reflexivity|]. f_equal. apply zlen_range_to.
    destruct (proj1 (Hids id) (or_introl eq_refl)) as (r & Hr & Er & _). destruct (level_period r Hr) as (y' & _ & Hy' & Hp & _).
    rewrite Er in Hy'. assert (y' = y) by congruence. lia.
  Qed.

  Lemma number_of_rows idss : List.length idss = List.length (educ_years sp) ->
    (forall e ids, nth_error idss e = Some ids -> ids_of_level data (Z.of_nat e) ids) ->
    zlen data = sumZ (map2 (fun ids y => zlen ids * (num_periods sp - y))%Z idss (educ_years sp)).
  Proof.
    intros Hl Hids. rewrite (classes (fun r => a_educ (o_state r)) data (List.length (educ_years sp))).
    - f_equal. assert (H : forall k (is : list (list Z)) (ys : list Z), List.length is = List.length ys ->
        (forall e ids y, nth_error is e = Some ids -> nth_error ys e = Some y ->
          zlen (filter (fun r => (a_educ (o_state r) =? Z.of_nat (k + e))%Z) data) = (zlen ids * (num_periods sp - y))%Z) ->
        map (fun i => zlen (filter (fun r => (a_educ (o_state r) =? Z.of_nat i)%Z) data)) (seq k (List.length ys))
        = map2 (fun ids y => zlen ids * (num_periods sp - y))%Z is ys).
      { intros k is. revert k. induction is as [|i is IH]; intros k [|y ys] L H; try discriminate L; [reflexivity|].
        cbn [List.length seq map map2]. f_equal; [rewrite <- (H 0%nat i y eq_refl eq_refl); rewrite Nat.add_0_r; reflexivity|].
        apply IH; [cbn in L; lia|]. intros e ids y' E1 E2. rewrite Nat.add_succ_comm. exact (H (S e) ids y' E1 E2). }
      apply H; [exact Hl|]. intros e ids y E1 E2. cbn [Nat.add]. apply rows_of_level; [lia|rewrite Nat2Z.id; exact E2|exact (Hids e ids E1)].
    - intros r Hr. destruct (level_period r Hr) as (y & He & Hy & _). split; [exact He|].
      assert (Hs : nth_error (educ_years sp) (Z.to_nat (a_educ (o_state r))) <> None) by congruence. apply nth_error_Some in Hs. lia.
  Qed.

  (** in period 0 everyone has just entered *)
  Lemma entered r : In r data -> row_period r = 0%Z -> entry_row data r.
  Proof.
    intros Hr Hp. split; [exact Hr|]. intros q Hq _. destruct (level_period q Hq) as (y & _ & Hy & Hq' & _). destruct Hset as (_ & (_ & _ & _ & _ & _ & Hy0 & _) & _).
    specialize (Hy0 y (nth_error_In _ _ Hy)). lia.
  Qed.
End Rows.

(** *** Other parameters, same demography *)
Lemma shares_only df df' d sd sh nt d' sd' sh' nt' : assoc_get "shares" df' = assoc_get "shares" df ->
  expand_model_params_dict (T := R) df = Ok (d, (sd, sh, nt)) -> expand_model_params_dict df' = Ok (d', (sd', sh', nt')) -> sh' = sh.
Proof.
  intros Hs H H'. unfold expand_model_params_dict in H, H'. rewrite Hs in H'.
  apply bind_ok in H. destruct H as (a1 & _ & H). apply bind_ok in H. destruct H as (a2 & _ & H).
  apply bind_ok in H'. destruct H' as (b1 & _ & H'). apply bind_ok in H'. destruct H' as (b2 & _ & H').
  destruct (assoc_get "shares" df) as [l|]; apply bind_ok in H; destruct H as (a3 & _ & H); apply bind_ok in H'; destruct H' as (b3 & _ & H'); congruence.
Qed.

Lemma spec_shares a df df' (h : heap R) : assoc_get "shares" df' = assoc_get "shares" df -> read_model_spec_init a df' h = read_model_spec_init a df h.
Proof. intros H. unfold read_model_spec_init, read_model_spec_flat, expand_model_spec_dict. rewrite H. reflexivity. Qed.

Lemma tables_unique sp x ip pc pp ip' pc' pp' : tables_of sp x ip pc pp -> tables_of sp x ip' pc' pp' -> ip' = ip /\ pc' = pc /\ pp' = pp.
Proof.
  intros (A1 & A2 & A3 & A4 & A5 & A6 & A7) (B1 & B2 & B3 & B4 & B5 & B6 & B7).
  split; [destruct ip, ip'; cbn in *; f_equal; congruence|]. split; congruence.
Qed.

Lemma solved_for sp mp biased zs ws pc pp sol : solved sp mp biased zs ws pc pp sol -> solution_for sp sol.
Proof. intros (ss & A1 & A2 & A3 & A4 & A5 & _). exists ss. exact (conj A1 (conj A2 (conj A3 (conj A4 A5)))). Qed.

Lemma demography rg roots s2 spi roots' s2' spi' pa pa' sa x biased biased' g g2 g' g2' h h2 df df' mp mp' sp data data' :
  rng_ok rg -> arg_ok sa h -> arg_ok sa h2 ->
  read_model_params_init pa = Ok (df, mp) -> read_model_params_init pa' = Ok (df', mp') -> assoc_get "shares" df' = assoc_get "shares" df ->
  snd (read_model_spec_init sa df h) = Ok sp -> snd (read_model_spec_init sa df h2) = Ok sp -> sim_spec_ok sp ->
  snd (simulate_of rg roots s2 spi pa sa x biased false g h) = Ok (data, g') ->
  snd (simulate_of rg roots' s2' spi' pa' sa x biased' false g2 h2) = Ok (data', g2') ->
  map (fun r => exogenous (o_state r)) data' = map (fun r => exogenous (o_state r)) data /\
  map (fun r => option_map f_male_wage (o_full r)) data' = map (fun r => option_map f_male_wage (o_full r)) data.
Proof.
  intros Hrg Ha Ha2 Hp Hp' Hs Hsp Hsp2 Hsim R1 R2.
  destruct (C54_simulation_of_the_solution rg roots s2 spi pa sa x biased false g h data g' Ha R1)
    as (df1 & mp1 & sp1 & ip & pc & pp & zs & ws & g1 & sol & E1 & E2 & T1 & _ & S1 & D1).
  destruct (C54_simulation_of_the_solution rg roots' s2' spi' pa' sa x biased' false g2 h2 data' g2' Ha2 R2)
    as (df2 & mp2 & sp2 & ip2 & pc2 & pp2 & zs2 & ws2 & g3 & sol2 & F1 & F2 & T2 & _ & S2 & D2).
  assert (df1 = df) by congruence. assert (mp1 = mp) by congruence. assert (df2 = df') by congruence. assert (mp2 = mp') by congruence. subst df1 mp1 df2 mp2.
  rewrite (spec_shares sa df df' h2 Hs) in F2. assert (sp1 = sp) by congruence. assert (sp2 = sp) by congruence. subst sp1 sp2.
  destruct (tables_unique _ _ _ _ _ _ _ _ T1 T2) as (-> & -> & ->).
  assert (Et : type_shares mp' = type_shares mp).
  { destruct (params_read pa df mp Hp) as (d & sd & sh & nt & het & X1 & _ & X2 & _). destruct (params_read pa' df' mp' Hp') as (d' & sd' & sh' & nt' & het' & Y1 & _ & Y2 & _).
    rewrite X2, Y2. exact (shares_only df df' _ _ _ _ _ _ _ _ Hs X1 Y1). }
  assert (W : same_world sp sp) by (repeat split; reflexivity).
  assert (G1 : sim_setting rg sp sol) by (split; [exact Hrg|split; [exact Hsim|exact (solved_for _ _ _ _ _ _ _ _ S1)]]).
  assert (G2 : sim_setting rg sp sol2) by (split; [exact Hrg|split; [exact Hsim|exact (solved_for _ _ _ _ _ _ _ _ S2)]]).
  assert (H1 : simulation rg mp sp sol ip pc pp data) by (exists g1, g'; exact D1).
  assert (H2 : simulation rg mp' sp sol2 ip pc pp data') by (exists g3, g2'; exact D2).
  split; [exact (C42_exogenous_columns rg mp' mp sp sp sol2 sol ip pc pp data' data G2 G1 W Et H2 H1)|].
  exact (C42_partner_wages rg mp' mp sp sp sol2 sol ip pc pp data' data G2 G1 W Et H2 H1 eq_refl eq_refl eq_refl eq_refl).
Qed.

(** *** Overwriting values of the parameter frame *)
Definition updated (c n : string) (v : R) (c' : string) (p : string * R) : string * R :=
  if (String.eqb c' c && String.eqb (fst p) n)%bool then (fst p, v) else p.
Lemma updated_fst c n v c' p : fst (updated c n v c' p) = fst p.
Proof. unfold updated. destruct (_ && _)%bool; reflexivity. Qed.
Lemma set_value_cats c n v rows : forall cs, fold_left (fun cs (r : string * string * R) => if existsb (String.eqb (fst (fst r))) cs then cs else cs ++ [fst (fst r)]) (set_value c n v rows) cs
  = fold_left (fun cs r => if existsb (String.eqb (fst (fst r))) cs then cs else cs ++ [fst (fst r)]) rows cs.
Proof.
  induction rows as [|r rows IH]; intros cs; [reflexivity|]. unfold set_value in *. cbn [map fold_left].
  destruct (String.eqb (fst (fst r)) c && String.eqb (snd (fst r)) n)%bool; cbn [fst]; apply IH.
Qed.
Lemma assoc_map_get {A} (f : string -> A) k l : assoc_get k (map (fun c => (c, f c)) l) = if existsb (String.eqb k) l then Some (f k) else None.
Proof.
  induction l as [|c l IH]; [reflexivity|]. unfold assoc_get in *. cbn [map find existsb fst]. rewrite (String.eqb_sym c k).
  destruct (String.eqb_spec k c) as [->|]; [reflexivity|exact IH].
Qed.
Lemma updated_set c n v c' k x d : assoc_set k (snd (updated c n v c' (k, x))) (map (updated c n v c') d) = map (updated c n v c') (assoc_set k x d).
Proof.
  induction d as [|p d IH]; cbn [map assoc_set].
  - f_equal. unfold updated. cbn [fst]. destruct (_ && _)%bool; reflexivity.
  - destruct p as (k' & x'). destruct (updated c n v c' (k', x')) as (k2 & x2) eqn:U. cbn [fst].
    assert (k2 = k') by (pose proof (updated_fst c n v c' (k', x')) as F; rewrite U in F; exact F). subst k2.
    destruct (String.eqb k' k) eqn:E; cbn [map]; [f_equal|rewrite U; f_equal; exact IH].
    apply String.eqb_eq in E. subst k'. unfold updated. cbn [fst]. destruct (_ && _)%bool; reflexivity.
Qed.
Lemma updated_get c n v c' k d : assoc_get k (map (updated c n v c') d) = option_map (fun x => snd (updated c n v c' (k, x))) (assoc_get k d).
Proof.
  induction d as [|p d IH]; [reflexivity|]. unfold assoc_get in *. cbn [map find]. rewrite updated_fst.
  destruct (String.eqb_spec (fst p) k) as [E|E]; [|exact IH]. cbn [option_map]. f_equal. unfold updated. rewrite E. cbn [fst]. destruct (_ && _)%bool; reflexivity.
Qed.
Lemma set_value_rows c n v c' rows : forall d,
  fold_left (fun d (r : string * string * R) => assoc_set (snd (fst r)) (snd r) d) (filter (fun r => String.eqb (fst (fst r)) c') (set_value c n v rows)) (map (updated c n v c') d)
  = map (updated c n v c') (fold_left (fun d r => assoc_set (snd (fst r)) (snd r) d) (filter (fun r => String.eqb (fst (fst r)) c') rows) d).
Proof.
  induction rows as [|((rc & rn) & rx) rows IH]; intros d; [reflexivity|]. unfold set_value in *. cbn [map filter fst snd].
  assert (F : fst (fst (if (String.eqb rc c && String.eqb rn n)%bool then (rc, rn, v) else (rc, rn, rx))) = rc) by (destruct (_ && _)%bool; reflexivity).
  rewrite F. destruct (String.eqb_spec rc c') as [E|E]; [|apply IH]. cbn [fold_left fst snd]. rewrite <- IH. f_equal.
  rewrite <- updated_set. subst rc. f_equal; unfold updated; cbn [fst]; destruct (_ && _)%bool; reflexivity.
Qed.
(** a category after the assignment *)
Lemma set_value_get c n v rows k : assoc_get k (frame_to_dict (set_value c n v rows)) = option_map (map (updated c n v k)) (assoc_get k (frame_to_dict rows)).
Proof.
  unfold frame_to_dict. rewrite !assoc_map_get, set_value_cats. destruct (existsb (String.eqb k) _); [|reflexivity]. cbn [option_map]. f_equal.
  exact (set_value_rows c n v k rows []).
Qed.
Lemma set_value_shares c n v rows k : k <> c -> assoc_get k (frame_to_dict (set_value c n v rows)) = assoc_get k (frame_to_dict rows).
Proof.
  intros Hk. rewrite set_value_get. destruct (assoc_get k (frame_to_dict rows)) as [l|]; [|reflexivity]. cbn [option_map]. f_equal.
  rewrite <- (map_id l) at 2. apply map_ext. intros p. unfold updated. destruct (String.eqb_spec k c); [contradiction|reflexivity].
Qed.
Lemma set_value_entry c n v rows k name x : entry (frame_to_dict rows) k name x ->
  entry (frame_to_dict (set_value c n v rows)) k name (snd (updated c n v k (name, x))).
Proof.
  intros (l & H1 & H2). exists (map (updated c n v k) l). rewrite set_value_get, H1. split; [reflexivity|]. rewrite updated_get, H2. reflexivity.
Qed.
Lemma set_value_complete c n v rows : complete_frame (frame_to_dict rows) -> complete_frame (frame_to_dict (set_value c n v rows)).
Proof.
  intros (H1 & H2 & H3). split; [|split].
  - intros k name f Hi. destruct (H1 k name f Hi) as (x & Hx). eexists. exact (set_value_entry c n v rows k name x Hx).
  - intros k name f level Hi Hl. destruct (H2 k name f level Hi Hl) as (x & Hx). eexists. exact (set_value_entry c n v rows k _ x Hx).
  - rewrite !set_value_get. destruct (assoc_get "shares" (frame_to_dict rows)) as [sh|]; [|intros H; contradiction H; reflexivity].
    intros _. destruct (assoc_get "hetrg_unobs" (frame_to_dict rows)) as [het|]; [discriminate|]. exfalso. apply H3; [discriminate|reflexivity].
Qed.
Lemma increments_length a df (mp : model_params R) : read_model_params_init a = Ok (df, mp) ->
  exists rows, assoc_get "exp_increase_p" df = Some rows /\ List.length (gamma_p mp) = (3 + (List.length rows - 3))%nat.
Proof.
  unfold read_model_params_init. intros H. apply bind_ok in H. destruct H as (df' & _ & H). apply bind_ok in H.
  destruct H as ((d & ((sd & sh) & nt)) & E & H). apply bind_ok in H. destruct H as (mp' & G & H).
  assert (df' = df) by congruence. assert (mp' = mp) by congruence. subst df' mp'. clear H. unfold group_parameters in G.
  repeat (apply bind_ok in G; destruct G as (? & ? & G)). injection G as <-. cbn [gamma_p].
  lazymatch goal with H : educ_param d "exp_increase_p" _ = Ok _ |- _ => apply educ_ok in H; destruct H as (rows & lo & mi & hi & K & _ & _ & _ & ->) end.
  exists rows. split; [|cbn [List.length]; rewrite repeat_length; reflexivity].
  apply kget_ok in K. rewrite <- K. symmetry. apply (expand_other df d _ "exp_increase_p" E). discriminate.
Qed.

(** the frame of test_expectation *)
Lemma full_read rows (mp : model_params R) : read_model_params_init (ParamsPath (frame_to_dict rows)) = Ok (frame_to_dict rows, mp) ->
  List.length (gamma_p mp) = 3%nat ->
  let df := frame_to_dict (full_increments rows) in
  exists mp', read_model_params_init (ParamsFrame df) = Ok (df, mp') /\ gamma_p mp' = [1; 1; 1] /\ gamma_p_mom mp' = 0 /\
    forall k, k <> "exp_increase_p" -> k <> "exp_increase_p_mom" -> assoc_get k df = assoc_get k (frame_to_dict rows).
Proof.
  intros H HL df. rewrite (proj2 (C85_complete (frame_to_dict rows))) in H.
  assert (C : complete_frame df).
  { unfold df, full_increments. do 4 apply set_value_complete. apply (proj1 (C85_complete (frame_to_dict rows))). exists mp. exact H. }
  apply (proj1 (C85_complete df)) in C. destruct C as (mp' & Hr). exists mp'. split; [exact Hr|].
  destruct (read_entries _ _ _ H) as (S1 & E1 & _). destruct (read_entries _ _ _ Hr) as (S2 & E2 & _).
  assert (U : forall k n x y, entry df k n x -> entry df k n y -> x = y) by (intros k n x y (r & A1 & A2) (r' & B1 & B2); congruence).
  assert (L : List.length (gamma_p mp') = 3%nat).
  { destruct (increments_length _ _ _ H) as (r & R1 & R2). destruct (increments_length _ _ _ Hr) as (r' & R1' & R2').
    unfold df, full_increments in R1'. rewrite !set_value_get, R1 in R1'. cbn [option_map] in R1'. injection R1' as <-. rewrite !map_length in R2'. lia. }
  assert (G : forall i level, nth_error education_names i = Some level -> nth_error (gamma_p mp') i = Some 1).
  { intros i level Hi. assert (I : In ("exp_increase_p", "gamma_p_", @gamma_p R) education_entries) by (right; right; left; reflexivity).
    destruct (E2 _ _ _ i level I Hi) as (y & Hy & ->). f_equal. destruct (E1 _ _ _ i level I Hi) as (x & Hx & _).
    pose proof (set_value_entry "exp_increase_p" "gamma_p_low" 1 _ _ _ _ Hx) as Q1.
    pose proof (set_value_entry "exp_increase_p" "gamma_p_middle" 1 _ _ _ _ Q1) as Q2.
    pose proof (set_value_entry "exp_increase_p" "gamma_p_high" 1 _ _ _ _ Q2) as Q3.
    pose proof (set_value_entry "exp_increase_p_mom" "gamma_p_mom" 0 _ _ _ _ Q3) as Q4.
    rewrite (U _ _ _ _ Hy Q4). destruct i as [|[|[|i]]]; cbn in Hi; try (injection Hi as <-; reflexivity). destruct i; discriminate Hi. }
  split; [|split].
  - pose proof (G 0%nat _ eq_refl) as G0. pose proof (G 1%nat _ eq_refl) as G1. pose proof (G 2%nat _ eq_refl) as G2.
    destruct (gamma_p mp') as [|a [|b [|c [|? ?]]]]; try discriminate L. cbn in G0, G1, G2. congruence.
  - assert (I : In ("exp_increase_p_mom", "gamma_p_mom", @gamma_p_mom R) single_entries) by (left; reflexivity).
    pose proof (S1 _ _ _ I) as Hx.
    pose proof (set_value_entry "exp_increase_p" "gamma_p_low" 1 _ _ _ _ Hx) as Q1.
    pose proof (set_value_entry "exp_increase_p" "gamma_p_middle" 1 _ _ _ _ Q1) as Q2.
    pose proof (set_value_entry "exp_increase_p" "gamma_p_high" 1 _ _ _ _ Q2) as Q3.
    pose proof (set_value_entry "exp_increase_p_mom" "gamma_p_mom" 0 _ _ _ _ Q3) as Q4.
    rewrite (U _ _ _ _ (S2 _ _ _ I) Q4). reflexivity.
  - intros k H1 H2. unfold df, full_increments. rewrite !set_value_shares by assumption. reflexivity.
Qed.

(** *** Reading the file *)
Lemma yaml_arg_ok dr c s ri s' (h : heap R) : random_init dr c s = Ok (ri, s') -> arg_ok (SpecPath (ri_yaml ri) 0) h.
Proof.
  intros E. destruct (random_init_inv dr c s ri s' E) as (st & d & fs & s1 & s2 & -> & _). cbn [ri_yaml]. split; [exact (yaml_closed st)|cbn; lia].
Qed.
Lemma read_at_any_heap dr c s ri s' pa (h h' : heap R) : random_init dr c s = Ok (ri, s') ->
  snd (read_model pa (SpecPath (ri_yaml ri) 0) h) = snd (read_model pa (SpecPath (ri_yaml ri) 0) h').
Proof.
  intros E. destruct (yaml_arg_ok dr c s ri s' h E) as (Hc & Hl). cbn [source fst snd] in Hc, Hl. rewrite !read_model_value.
  destruct (read_model_params_init pa) as [(df & mp)|e]; [|reflexivity].
  pose proof (read_same (ri_yaml ri) [] [] h' 0 df Hc Hl) as (_ & Q1). pose proof (read_same (ri_yaml ri) [] [] h 0 df Hc Hl) as (_ & Q2).
  assert (Q : snd (read_model_spec_init (SpecPath (ri_yaml ri) 0) df h) = snd (read_model_spec_init (SpecPath (ri_yaml ri) 0) df h')) by congruence.
  rewrite Q. reflexivity.
Qed.
Lemma missing_entries st df :
  let out h := snd (read_model_spec_init (SpecDict 0) df h) in
  let y := spec_yaml (T := R) st in
  out (edit_taxes (without "tax_year") y) = Err (ValueError "Specify tax_year.") /\
  (forall n, n <> 2007%Z -> out (edit_taxes (with_entry "tax_year" (VInt n)) y) = Err (ValueError "Tax year not implemented.")) /\
  out (edit_taxes (without "child_care_costs") y) = Err (ValueError "Child care costs not properly specified.") /\
  out (edit_costs (without "under_3") y) = Err (ValueError "Child care costs not properly specified.") /\
  out (edit_costs (without "3_to_6") y) = Err (ValueError "Child care costs not properly specified.") /\
  out (edit_taxes (without "tax_splitting") y) = Err (ValueError "Specify if couples share taxes.") /\
  exists sp, out y = Ok sp.
Proof.
  cbv zeta. split; [reflexivity|]. split.
  - intros n Hn. destruct n as [|p|p]; try reflexivity. do 11 (destruct p as [p|p|]; try reflexivity). exfalso. apply Hn. reflexivity.
  - split; [reflexivity|]. split; [reflexivity|]. split; [reflexivity|]. split; [reflexivity|].
    destruct (complete_read (SpecDict 0) (spec_yaml st) _ _ _ _ df eq_refl (yaml_complete st)) as (sp & E & _). exists sp. exact E.
Qed.
