(** The summary statistic of the test suite (C90). *)
From Coq Require Import Reals Lra Lia ZArith List Arith String Permutation.
From Verif Require Import Base Num M_Params M_Experience M_Tax M_StateSpace M_Exog M_Sim M_AuxFuncs L_Num S_Interp L_Interp S_StateSpace S_Bellman L_Bellman
  S_Solver L_Solver S_Rng S_Sim L_SimPairs L_SimProps L_Trace S_SimInputs S_SimEntry S_Stability S_Grid L_SimFlow L_SimCompare L_Grid S_GridSim L_GridSim S_AuxFuncs L_SimSame L_SimInvariance L_GridWitness L_Stability L_Sim L_Rng L_Value L_Mono L_Reform L_SimUpdate L_SimTotal X_Example L_Witness L_SimExample L_SameWitness L_Reserve.
Import ListNotations.
Open Scope R_scope.

(** *** the column of chosen flow utilities *)
Definition full_row (r : out_row R) : Prop := (0 <= o_choice r < 3)%Z /\ exists f, o_full r = Some f /\ List.length (f_flow f) = 3%nat.

Lemma flow_column_ok name j (data : list (out_row R)) : (j < 3)%nat -> (forall r, In r data -> full_row r) ->
  flow_column name j data = Ok (map (fun r => match o_full r with Some f => nth j (f_flow f) 0 | None => 0 end) data).
Proof.
  intros Hj. induction data as [|r data IH]; intros H; [reflexivity|]. unfold flow_column in *. cbn [mapM map].
  destruct (H r (or_introl eq_refl)) as (_ & f & -> & Hl).
  rewrite (nth_error_nth' (f_flow f) 0) by lia. cbn [bind]. rewrite IH by (intros q Hq; apply H; right; exact Hq). reflexivity.
Qed.
Lemma assign_select {A} (p : A -> bool) (g h : A -> R) l :
  mask_assign (map p l) (map g l) (mask_select (map p l) (map h l)) = map (fun x => if p x then h x else g x) l.
Proof.
  induction l as [|x l IH]; [reflexivity|]. cbn [map]. rewrite mask_select_cons. cbn [mask_assign]. destruct (p x); rewrite IH; reflexivity.
Qed.
Lemma chosen_ok (data : list (out_row R)) : (forall r, In r data -> full_row r) ->
  exists us, create_chosen_flow_util data = Ok us /\ Forall2 chosen_flow data us.
Proof.
  intros H. unfold create_chosen_flow_util. rewrite !flow_column_ok by (try lia; assumption). cbn [bind].
  rewrite (assign_select (fun r => (o_choice r =? 1)%Z)), (assign_select (fun r => (o_choice r =? 2)%Z)). eexists. split; [reflexivity|].
  induction data as [|r data IH]; [constructor|]. cbn [map]. constructor; [|apply IH; intros q Hq; apply H; right; exact Hq].
  destruct (H r (or_introl eq_refl)) as (Hc & f & Ef & _). exists f. split; [exact Ef|]. rewrite Ef. unfold at_.
  assert (o_choice r = 0 \/ o_choice r = 1 \/ o_choice r = 2)%Z as [-> | [-> | ->]] by lia; reflexivity.
Qed.
Lemma chosen_unique (r : out_row R) u u' : chosen_flow r u -> chosen_flow r u' -> u = u'.
Proof. intros (f & E & ->) (f' & E' & ->). congruence. Qed.

(** *** groups *)
Lemma insert_key_in k l x : In x (insert_key k l) <-> x = k \/ In x l.
Proof.
  induction l as [|y l IH]; cbn [insert_key In]; [intuition congruence|].
  destruct (k <? y)%Z eqn:E1; [cbn [In]; intuition congruence|]. destruct (k =? y)%Z eqn:E2; cbn [In].
  - apply Z.eqb_eq in E2. subst. intuition congruence.
  - rewrite IH. intuition congruence.
Qed.
Inductive ascending : list Z -> Prop :=
| asc_nil : ascending []
| asc_cons k l : ascending l -> (forall x, In x l -> (k < x)%Z) -> ascending (k :: l).
Lemma insert_key_asc k l : ascending l -> ascending (insert_key k l).
Proof.
  intros H. induction H as [|y l Hl IH Hy]; cbn [insert_key].
  - constructor; [constructor|]. intros x [].
  - destruct (k <? y)%Z eqn:E1.
    + apply Z.ltb_lt in E1. constructor; [constructor; assumption|]. intros x [<- | Hx]; [assumption|]. specialize (Hy x Hx). lia.
    + apply Z.ltb_ge in E1. destruct (k =? y)%Z eqn:E2; [constructor; assumption|]. apply Z.eqb_neq in E2. constructor; [assumption|].
      intros x Hx. apply insert_key_in in Hx. destruct Hx as [-> | Hx]; [lia|auto].
Qed.
Lemma group_keys_asc ids : ascending (group_keys ids).
Proof. induction ids as [|i ids IH]; [constructor|]. apply insert_key_asc. exact IH. Qed.
Lemma group_keys_in ids x : In x (group_keys ids) <-> In x ids.
Proof.
  induction ids as [|i ids IH]; [reflexivity|]. unfold group_keys in *. cbn [fold_right In]. rewrite insert_key_in, IH. intuition congruence.
Qed.
Lemma ascending_nodup l : ascending l -> NoDup l.
Proof. intros H. induction H as [|k l Hl IH Hk]; constructor; [|assumption]. intros Hin. specialize (Hk k Hin). lia. Qed.

Lemma nsum_total (l : list R) : nsum l = total l.
Proof.
  unfold nsum. rn. unfold total. enough (forall a, fold_left Rplus l a = a + fold_right Rplus 0 l) as E by (rewrite E; lra).
  induction l as [|x l IH]; intros a; cbn [fold_left fold_right]; [lra|]. rewrite IH. lra.
Qed.
Lemma total_app l m : total (l ++ m) = total l + total m.
Proof. unfold total. induction l as [|x l IH]; cbn [app fold_right]; [lra|]. rewrite IH. lra. Qed.
Lemma total_perm l m : Permutation l m -> total l = total m.
Proof. intros H. unfold total. induction H; cbn [fold_right]; lra. Qed.

Lemma group_total ids (vs : list R) keys : NoDup keys -> (forall q, In q (combine ids vs) -> In (fst q) keys) -> List.length vs = List.length ids ->
  total (map (fun k => nsum (map snd (filter (fun q => (fst q =? k)%Z) (combine ids vs)))) keys) = total vs.
Proof.
  intros Hn Hk Hl.
  assert (E : forall l : list (Z * R), (forall q, In q l -> In (fst q) keys) ->
    total (map (fun k => nsum (map snd (filter (fun q => (fst q =? k)%Z) l))) keys) = total (map snd l)).
  { clear ids vs Hk Hl. induction l as [|[i v] l IH]; intros H.
    - cbn [filter map]. clear. unfold total at 2. cbn [fold_right]. induction keys as [|k keys IH]; [reflexivity|].
      cbn [map]. unfold total in *. cbn [fold_right]. rewrite IH. unfold nsum. cbn [fold_left]. rn. lra.
    - cbn [map snd]. change (total (v :: map snd l)) with (v + total (map snd l)).
      rewrite <- IH by (intros q Hq; apply H; right; exact Hq).
      assert (Hi : In i keys) by exact (H (i, v) (or_introl eq_refl)). clear - Hn Hi.
      induction keys as [|k keys IHk]; [contradiction|]. apply NoDup_cons_iff in Hn. destruct Hn as [Hk Hn].
      cbn [map]. change (fold_right Rplus 0) with total.
      change (total (?x :: ?y)) with (x + total y). cbn [filter fst].
      destruct (Z.eq_dec i k) as [-> | Hne].
      + rewrite Z.eqb_refl. cbn [map snd]. rewrite !nsum_total.
        change (total (v :: ?y)) with (v + total y).
        assert (Er : map (fun k0 => nsum (map snd (if (k =? k0)%Z then (k, v) :: filter (fun q => (fst q =? k0)%Z) l else filter (fun q => (fst q =? k0)%Z) l))) keys
                   = map (fun k0 => nsum (map snd (filter (fun q => (fst q =? k0)%Z) l))) keys).
        { apply map_ext_in. intros k0 Hk0. destruct (k =? k0)%Z eqn:E; [|reflexivity]. apply Z.eqb_eq in E. subst. contradiction. }
        rewrite Er. lra.
      + destruct Hi as [Hi | Hi]; [congruence|]. destruct (i =? k)%Z eqn:E; [apply Z.eqb_eq in E; congruence|].
        cbn [filter fst] in IHk. rewrite (IHk Hn Hi). lra. }
  rewrite E by assumption. f_equal. clear - Hl. revert ids Hl. induction vs as [|v vs IH]; intros [|i ids] Hl; try discriminate; [reflexivity|].
  cbn [combine map snd]. rewrite IH by (injection Hl; auto). reflexivity.
Qed.

Lemma int_power_pow d k : int_power d k = d ^ k.
Proof. induction k as [|k IH]; cbn [int_power pow]; rn; [reflexivity|]. rewrite IH. reflexivity. Qed.

(** *** the statistic *)
Lemma terms_are delta (data : list (out_row R)) us vs : Forall2 chosen_flow data us -> Forall2 (discounted_flow delta) data vs ->
  map2 (fun u r => nmul u (int_power delta (Z.to_nat (a_period (o_state r))))) us data = vs.
Proof.
  intros H. revert vs. induction H as [|r u data us Hu H IH]; intros vs H'.
  - apply forall2_nil_inv in H'. subst. reflexivity.
  - destruct (forall2_cons_inv _ _ _ _ H') as (v & vs' & -> & (u' & Hu' & ->) & Hvs). cbn [map2]. rewrite (IH vs' Hvs), int_power_pow.
    rewrite (chosen_unique r u u' Hu Hu'). reflexivity.
Qed.
Lemma discounted_exists delta (data : list (out_row R)) us : Forall2 chosen_flow data us -> exists vs, Forall2 (discounted_flow delta) data vs.
Proof.
  intros H. induction H as [|r u data us Hu H [vs IH]]; [exists []; constructor|].
  eexists. constructor; [|exact IH]. exists u. split; [exact Hu|reflexivity].
Qed.
Lemma map2_length {A B C} (f : A -> B -> C) l m : List.length l = List.length m -> List.length (map2 f l m) = List.length m.
Proof. revert m. induction l as [|x l IH]; intros [|y m] H; try discriminate; [reflexivity|]. cbn [map2 List.length]. rewrite IH by (injection H; auto). reflexivity. Qed.
Lemma keys_agents (data : list (out_row R)) ids : agents_of data ids -> Permutation (group_keys (map (fun r => a_id (o_state r)) data)) ids.
Proof.
  intros [Hn Hi]. apply NoDup_Permutation; [apply ascending_nodup, group_keys_asc|assumption|]. intros x. rewrite group_keys_in, Hi, in_map_iff.
  unfold row_id. split; intros (r & H1 & H2); exists r; auto.
Qed.
Lemma agents_exist (data : list (out_row R)) : exists ids, agents_of data ids.
Proof.
  exists (group_keys (map (fun r => a_id (o_state r)) data)). split; [apply ascending_nodup, group_keys_asc|].
  intros x. rewrite group_keys_in, in_map_iff. unfold row_id. split; intros (r & H1 & H2); exists r; auto.
Qed.

Definition agent_sum (data : list (out_row R)) (vs : list R) (id : Z) : R :=
  total (map snd (filter (fun q => (fst q =? id)%Z) (combine (map row_id data) vs))).

Lemma statistic_is (data : list (out_row R)) delta : data <> [] -> (forall r, In r data -> full_row r) ->
  exists s, create_disc_sum_av_utility data delta = Ok (Some s) /\
    forall ids vs, agents_of data ids -> Forall2 (discounted_flow delta) data vs ->
      s * INR (List.length ids) = total vs /\ s = mean (map (agent_sum data vs) ids).
Proof.
  intros Hne H. destruct (chosen_ok data H) as (us & Eu & Hus). unfold create_disc_sum_av_utility. rewrite Eu. cbn [bind].
  destruct (discounted_exists delta data us Hus) as [vs0 Hvs0]. rewrite (terms_are delta data us vs0 Hus Hvs0).
  assert (Hl : List.length vs0 = List.length data) by (symmetry; exact (Forall2_length _ _ _ Hvs0)).
  set (idl := map (fun r => a_id (o_state r)) data). unfold series_mean.
  assert (Hk : group_keys idl <> []).
  { destruct data as [|r data]; [congruence|]. intros E. assert (Hin : In (a_id (o_state r)) (group_keys idl)) by (apply group_keys_in; left; reflexivity).
    rewrite E in Hin. exact Hin. }
  assert (Hg : group_sums idl vs0 <> []) by (unfold group_sums; intros E; apply map_eq_nil in E; contradiction).
  destruct (group_sums idl vs0) as [|g0 gs] eqn:Eg; [congruence|]. rewrite <- Eg in *. clear Hg.
  eexists. split; [reflexivity|]. intros ids vs Hids Hvs.
  assert (vs0 = vs) as <-. { rewrite <- (terms_are delta data us vs0 Hus Hvs0). exact (terms_are delta data us vs Hus Hvs). }
  pose proof (keys_agents data ids Hids) as Hp. fold idl in Hp.
  assert (Hlen : List.length (group_sums idl vs0) = List.length ids) by (unfold group_sums; rewrite map_length; apply Permutation_length; exact Hp).
  assert (Hpos : 0 < INR (List.length ids)).
  { apply lt_0_INR. rewrite <- Hlen, Eg. cbn. lia. }
  rn. unfold zlen. rewrite Hlen, <- INR_IZR_INZ, nsum_total.
  split.
  - unfold group_sums. rewrite group_total; [field; lra|apply ascending_nodup, group_keys_asc| |unfold idl; rewrite map_length; exact Hl].
    intros [i v] Hq. apply group_keys_in. cbn [fst]. exact (in_combine_l _ _ _ _ Hq).
  - unfold mean. rewrite map_length. f_equal. unfold group_sums.
    rewrite (total_perm _ _ (Permutation_map _ Hp)). f_equal. apply map_ext. intros id. rewrite nsum_total. reflexivity.
Qed.

(** *** lives *)
Lemma career_chain last data rs : career last data rs -> forall r rs', rs = r :: rs' ->
  (forall q, In q rs' -> (row_period r < row_period q)%Z) /\ NoDup rs.
Proof.
  induction 1 as [r0 Hr Hl | r0 r1 rs Hf Hc IH]; intros r rs' E; injection E as <- <-.
  - split; [intros q []|]. constructor; [intros []|constructor].
  - destruct (IH r1 rs eq_refl) as [IH1 IH2]. destruct Hf as (_ & _ & _ & Hp).
    assert (Hlt : forall q, In q (r1 :: rs) -> (row_period r0 < row_period q)%Z).
    { intros q [<- | Hq]; [lia|]. specialize (IH1 q Hq). lia. }
    split; [exact Hlt|]. constructor; [|exact IH2]. intros Hin. specialize (Hlt r0 Hin). lia.
Qed.
Lemma NoDup_map_key {A B} (f : A -> B) l x y : NoDup (map f l) -> In x l -> In y l -> f x = f y -> x = y.
Proof.
  induction l as [|z l IH]; intros Hn Hx Hy E; [contradiction|]. cbn [map] in Hn. apply NoDup_cons_iff in Hn. destruct Hn as [Hz Hn].
  destruct Hx as [<- | Hx], Hy as [<- | Hy]; [reflexivity| | |auto].
  - exfalso. apply Hz. rewrite E. apply in_map. exact Hy.
  - exfalso. apply Hz. rewrite <- E. apply in_map. exact Hx.
Qed.
Lemma career_all last data rs : NoDup (map row_key data) -> career last data rs -> forall r rs', rs = r :: rs' ->
  forall q, In q data -> row_id q = row_id r -> (row_period r <= row_period q <= last)%Z -> In q rs.
Proof.
  intros Hn. induction 1 as [r0 Hr Hl | r0 r1 rs Hf Hc IH]; intros r rs' E q Hq Hid Hp; injection E as <- <-.
  - left. apply (NoDup_map_key row_key data); try assumption. unfold row_key. f_equal; [congruence|lia].
  - destruct Hf as (F1 & F2 & F3 & F4). destruct (Z.eq_dec (row_period q) (row_period r0)) as [Ep | Ep].
    + left. apply (NoDup_map_key row_key data); try assumption. unfold row_key. f_equal; congruence.
    + right. apply (IH r1 rs eq_refl q Hq); [congruence|lia].
Qed.

Definition value_of (delta : R) (r : out_row R) : R :=
  match o_full r with Some f => at_ (f_flow f) (o_choice r) * delta ^ Z.to_nat (row_period r) | None => 0 end.
Lemma discounted_value delta r v : discounted_flow delta r v -> v = value_of delta r.
Proof. intros (u & (f & E & ->) & ->). unfold value_of. rewrite E. reflexivity. Qed.
Lemma agent_sum_filter delta data vs id : Forall2 (discounted_flow delta) data vs ->
  agent_sum data vs id = total (map (value_of delta) (filter (fun r => (row_id r =? id)%Z) data)).
Proof.
  intros H. unfold agent_sum. induction H as [|r v data vs Hv H IH]; [reflexivity|]. cbn [map combine filter fst].
  destruct (row_id r =? id)%Z; [|exact IH]. cbn [map snd]. change (total (?a :: ?b)) with (a + total b).
  rewrite <- (discounted_value _ _ _ Hv), <- IH. reflexivity.
Qed.
Lemma career_discounted delta last data rs : career last data rs -> forall us, Forall2 chosen_flow rs us -> forall r rs', rs = r :: rs' -> (0 <= row_period r)%Z ->
  total (map (value_of delta) rs) = delta ^ Z.to_nat (row_period r) * discounted delta us.
Proof.
  induction 1 as [r0 Hr Hl | r0 r1 rs Hf Hc IH]; intros us Hus r rs' E H0; injection E as <- <-;
    destruct (forall2_cons_inv _ _ _ _ Hus) as (u & us' & -> & (f & Ef & ->) & Hrest); cbn [map discounted]; change (total (?a :: ?b)) with (a + total b);
    unfold value_of at 1; rewrite Ef.
  - apply forall2_nil_inv in Hrest. subst us'. cbn [discounted map]. unfold total. cbn [fold_right]. ring.
  - destruct Hf as (_ & _ & _ & Hp). pose proof (IH us' Hrest r1 rs eq_refl ltac:(lia)) as Hi. cbn [map] in Hi. change (fold_right Rplus 0) with total. rewrite Hi, Hp.
    replace (Z.to_nat (row_period r0 + 1)) with (S (Z.to_nat (row_period r0))) by lia. cbn [pow]. ring.
Qed.

Section Run.
  Variable rg : rng R.
  Variable mp : model_params R.
  Variable sp : model_spec R.
  Variable biased : bool.
  Variables zs ws : list R.
  Variable pc : list (list R).
  Variable pp : list (list (list (R * R))).
  Variable sol : solution R.
  Variable ip : init_probs R.
  Variable data : list (out_row R).
  Hypothesis Hok : inputs_ok sp mp pc pp.
  Hypothesis Hs : solved sp mp biased zs ws pc pp sol.
  Hypothesis Hset : sim_setting rg sp sol.
  Hypothesis Hsim : simulation rg mp sp sol ip pc pp data.

  Lemma rows_full r : In r data -> full_row r.
  Proof.
    intros Hr. destruct (rows_of_simulation rg mp sp biased zs ws pc pp sol Hok Hs ip data Hset Hsim) as (col & _ & H).
    destruct (H r Hr) as (z & f & _ & _ & Hf & _ & _ & Ef & _ & _ & Hb). split; [apply Hb|]. exists f. split; [exact Hf|].
    cbv zeta in Ef. rewrite Ef. apply map_length.
  Qed.
  Lemma data_space r : In r data -> agent_in_space sp (o_state r).
  Proof.
    intros Hr. destruct Hset as (S1 & S2 & S3). destruct Hsim as (g & g' & Hd). exact (proj1 (listed _ _ _ _ _ _ _ _ S1 S2 S3 g g' data Hd r Hr)).
  Qed.
  Lemma data_keys : NoDup (map row_key data).
  Proof.
    destruct Hset as (S1 & S2 & S3). destruct Hsim as (g & g' & Hd). exact (panel_keys rg mp sp sol ip pc pp false S1 S2 S3 g g' data Hd).
  Qed.

  Lemma life_sum delta first us vs : life sp data first us -> Forall2 (discounted_flow delta) data vs ->
    agent_sum data vs (row_id first) = delta ^ Z.to_nat (row_period first) * discounted delta us.
  Proof.
    intros [(rs & Hca & Hus) Hfirst] Hvs. rewrite (agent_sum_filter delta) by assumption.
    assert (Hin : In first data) by (apply (career_in _ _ _ Hca); left; reflexivity).
    pose proof (data_space first Hin) as Hsp. unfold agent_in_space, in_space in Hsp.
    rewrite <- (career_discounted delta _ _ _ Hca us Hus first rs eq_refl ltac:(unfold row_period; lia)).
    apply total_perm, Permutation_map. apply NoDup_Permutation.
    - apply NoDup_filter. eapply NoDup_map_inv. exact data_keys.
    - exact (proj2 (career_chain _ _ _ Hca first rs eq_refl)).
    - intros q. rewrite filter_In, Z.eqb_eq. split.
      + intros [Hq Hid]. apply (career_all _ _ _ data_keys Hca first rs eq_refl q Hq Hid). split; [apply Hfirst; assumption|].
        pose proof (data_space q Hq) as Hqs. unfold agent_in_space, in_space in Hqs. unfold row_period. lia.
      + intros Hq. split; [exact (career_in _ _ _ Hca q Hq)|exact (career_id _ _ _ Hca q first Hq eq_refl)].
  Qed.

  Lemma statistic delta : data <> [] -> exists s, create_disc_sum_av_utility data delta = Ok (Some s) /\
    (forall ids vs, agents_of data ids -> Forall2 (discounted_flow delta) data vs -> s * INR (List.length ids) = total vs) /\
    (forall firsts lives, agents_of data (map row_id firsts) -> Forall2 (life sp data) firsts lives ->
       s = mean (map2 (fun r us => delta ^ Z.to_nat (row_period r) * discounted delta us) firsts lives)).
  Proof.
    intros Hne. destruct (statistic_is data delta Hne rows_full) as (s & E & H). exists s. split; [exact E|].
    split; [intros ids vs H1 H2; exact (proj1 (H ids vs H1 H2))|]. intros firsts lives H1 H2.
    destruct (chosen_ok data rows_full) as (us & _ & Hus). destruct (discounted_exists delta data us Hus) as [vs Hvs].
    rewrite (proj2 (H _ vs H1 Hvs)). f_equal. clear H1. induction H2 as [|r us' firsts lives Hl H2 IH]; [reflexivity|].
    cbn [map map2]. rewrite IH. f_equal. apply life_sum; assumption.
  Qed.

  (** the first row of an agent and the life that begins with it *)
  Lemma first_row id : (exists r, In r data /\ row_id r = id) -> exists first, In first data /\ row_id first = id /\
    forall r, In r data -> row_id r = id -> (row_period first <= row_period r)%Z.
  Proof.
    intros (r0 & Hr0 & Hid0).
    assert (Hn : forall n r, In r data -> row_id r = id -> (row_period r <= Z.of_nat n)%Z -> exists first, In first data /\ row_id first = id /\
      forall r, In r data -> row_id r = id -> (row_period first <= row_period r)%Z).
    { induction n as [|n IH]; intros r Hr Hid Hp.
      - exists r. split; [exact Hr|]. split; [exact Hid|]. intros q Hq Hqi. pose proof (data_space q Hq) as Hqs. unfold agent_in_space, in_space in Hqs. unfold row_period in *. lia.
      - destruct (existsb (fun q => ((row_id q =? id) && (row_period q <? row_period r))%Z) data) eqn:Ex.
        + apply existsb_exists in Ex. destruct Ex as (q & Hq & Hb). apply andb_prop in Hb. destruct Hb as [B1 B2].
          apply Z.eqb_eq in B1. apply Z.ltb_lt in B2. apply (IH q Hq B1). lia.
        + exists r. split; [exact Hr|]. split; [exact Hid|]. intros q Hq Hqi.
          destruct (Z.le_gt_cases (row_period r) (row_period q)) as [Hle|Hgt]; [exact Hle|]. exfalso.
          assert (Ht : existsb (fun q => ((row_id q =? id) && (row_period q <? row_period r))%Z) data = true).
          { apply existsb_exists. exists q. split; [exact Hq|]. apply andb_true_intro. split; [apply Z.eqb_eq; exact Hqi|apply Z.ltb_lt; lia]. }
          congruence. }
    apply (Hn (Z.to_nat (row_period r0)) r0 Hr0 Hid0). lia.
  Qed.
  Lemma lives_exist : exists firsts lives, agents_of data (map row_id firsts) /\ Forall2 (life sp data) firsts lives.
  Proof.
    destruct (agents_exist data) as (ids & Hn & Hi).
    assert (Hsub : forall l, (forall id, In id l -> exists r, In r data /\ row_id r = id) ->
      exists firsts lives, map row_id firsts = l /\ Forall2 (life sp data) firsts lives).
    { induction l as [|id l IH]; intros Hl; [exists [], []; split; constructor|].
      destruct IH as (firsts & lives & E & HF); [intros i Hin; apply Hl; right; exact Hin|].
      destruct (first_row id (Hl id (or_introl eq_refl))) as (first & F1 & F2 & F3).
      destruct (careers_exist sp mp biased zs ws pc pp sol rg ip data Hok Hs Hset Hsim first F1) as (rs & us & v & C1 & C2 & _ & _).
      exists (first :: firsts), (us :: lives). split; [cbn [map]; congruence|]. constructor; [|exact HF]. constructor.
      - exists rs. split; assumption.
      - intros r Hr Hid. apply F3; [exact Hr|congruence]. }
    destruct (Hsub ids (fun id H => proj1 (Hi id) H)) as (firsts & lives & E & HF). exists firsts, lives. rewrite E. split; [split; assumption|exact HF].
  Qed.
End Run.

Section Value.
  Variable sp : model_spec R.
  Variable mp : model_params R.
  Variables zs ws : list R.
  Variable pc : list (list R).
  Variable pp : list (list (list (R * R))).
  Variable sol : solution R.
  Variable rg : rng R.
  Variable ip : init_probs R.
  Variable data : list (out_row R).
  Hypothesis Hok : inputs_ok sp mp pc pp.
  Hypothesis Hs : solved sp mp false zs ws pc pp sol.
  Hypothesis Hset : sim_setting rg sp sol.
  Hypothesis Hsim : simulation rg mp sp sol ip pc pp data.
  Variable e : out_row R -> R.
  Hypothesis Hd : 0 <= delta mp.
  Hypothesis Hcareer : forall r rs, career (num_periods sp - 1) data (r :: rs) ->
    forall us v, Forall2 chosen_flow (r :: rs) us -> chosen_value r v -> near (e r) (discounted (delta mp) us) v.
  Hypothesis Hne : data <> [].

  Lemma best_chosen r v : In r data -> best_value r v -> chosen_value r v.
  Proof.
    intros Hr (f & Ef & ->). exists f. split; [exact Ef|].
    destruct (rows_of_simulation rg mp sp false zs ws pc pp sol Hok Hs ip data Hset Hsim) as (col & _ & H).
    destruct (H r Hr) as (z & f' & _ & _ & Hf & _ & _ & _ & _ & _ & (Hc & Hb & _)). assert (f' = f) by congruence. subst f'.
    pose proof (Hb 0%Z ltac:(lia)). pose proof (Hb 1%Z ltac:(lia)). pose proof (Hb 2%Z ltac:(lia)). unfold at_.
    assert (o_choice r = 0 \/ o_choice r = 1 \/ o_choice r = 2)%Z as [E | [E | E]] by lia; rewrite E in *; rmm; lra.
  Qed.

  Lemma mean_value s firsts lives vs : create_disc_sum_av_utility data (delta mp) = Ok (Some s) ->
    agents_of data (map row_id firsts) -> Forall2 (life sp data) firsts lives -> Forall2 best_value firsts vs ->
    near (mean (map (fun r => delta mp ^ Z.to_nat (row_period r) * e r) firsts)) s
         (mean (map2 (fun r v => delta mp ^ Z.to_nat (row_period r) * v) firsts vs)).
  Proof.
    intros Es Hag HL Hvs.
    destruct (statistic rg mp sp false zs ws pc pp sol ip data Hok Hs Hset Hsim (delta mp) Hne) as (s' & Es' & _ & Hm).
    assert (s' = s) by congruence. subst s'. rewrite (Hm firsts lives Hag HL).
    assert (Hnf : firsts <> []).
    { assert (Hr : exists r, In r data) by (destruct data as [|r d]; [congruence|exists r; left; reflexivity]). destruct Hr as [r Hr].
      intros E. rewrite E in Hag. cbn [map] in Hag. apply (proj2 Hag (row_id r)). exists r. split; [exact Hr|reflexivity]. }
    clear Hag Es' Hm Es.
    assert (Ht : near (total (map (fun r => delta mp ^ Z.to_nat (row_period r) * e r) firsts))
      (total (map2 (fun r us => delta mp ^ Z.to_nat (row_period r) * discounted (delta mp) us) firsts lives))
      (total (map2 (fun r v => delta mp ^ Z.to_nat (row_period r) * v) firsts vs))).
    { clear Hnf. revert vs Hvs. induction HL as [|r us firsts lives Hl HL IH]; intros vs Hvs.
      - apply forall2_nil_inv in Hvs. subst vs. cbn [map map2]. unfold near. rewrite Rminus_diag_eq, Rabs_R0 by reflexivity. unfold total. cbn. lra.
      - destruct (forall2_cons_inv _ _ _ _ Hvs) as (v & vs' & -> & Hv & Hvs'). cbn [map map2]. change (total (?a :: ?b)) with (a + total b).
        specialize (IH vs' Hvs'). destruct Hl as [(rs & C1 & C2) _].
        pose proof (Hcareer r rs C1 us v C2 (best_chosen r v (career_in _ _ _ C1 r (or_introl eq_refl)) Hv)) as N.
        unfold near in *. apply Rabs_le_inv in N. apply Rabs_le_inv in IH. apply Rabs_le.
        pose proof (pow_le (delta mp) (Z.to_nat (row_period r)) Hd) as Hpow.
        pose proof (Rmult_le_compat_l _ _ _ Hpow (proj1 N)). pose proof (Rmult_le_compat_l _ _ _ Hpow (proj2 N)). lra. }
    assert (L1 : List.length lives = List.length firsts) by (symmetry; exact (Forall2_length _ _ _ HL)).
    assert (L2 : List.length vs = List.length firsts) by (symmetry; exact (Forall2_length _ _ _ Hvs)).
    unfold mean. rewrite map_length, !map2_length, L1, L2 by congruence.
    assert (Hp : 0 < / INR (List.length firsts)) by (apply Rinv_0_lt_compat, lt_0_INR; destruct firsts; [congruence|cbn; lia]).
    unfold near in *. unfold Rdiv. rewrite <- Rmult_minus_distr_r, Rabs_mult, (Rabs_right (/ _)) by lra.
    apply Rmult_le_compat_r; lra.
  Qed.
End Value.

(** *** another method of integration *)
Section Integration.
  Variable rg : rng R.
  Variable mp : model_params R.
  Variable sp : model_spec R.
  Variable biased : bool.
  Variables zs ws zs' ws' : list R.
  Variable pc : list (list R).
  Variable pp : list (list (list (R * R))).
  Variables (method : string) (draws seed : Z).
  Variables sol sol' : solution R.
  Variable ip : init_probs R.
  Variables data data' : list (out_row R).
  Let sp' := with_integration sp method draws seed.
  Hypothesis Hok : inputs_ok sp mp pc pp.
  Hypothesis Hs : solved sp mp biased zs ws pc pp sol.
  Hypothesis Hs' : solved sp' mp biased zs' ws' pc pp sol'.
  Variable k : nat.
  Hypothesis Hk : (2 <= k)%nat.
  Hypothesis Hg : exp_grid sp = uniform_grid k.
  Variable eps : R.
  Hypothesis Hnear : tables_near eps sp mp biased zs ws zs' ws' pc pp.
  Hypothesis Hd : 0 <= delta mp.
  Notation C w v := (continuation sp mp (is_elterngeld sp) biased (combine w v) (child_fun pc) (partner_fun pp)).

  Lemma Hok' : inputs_ok sp' mp pc pp. Proof. exact Hok. Qed.

  Lemma conts_near t e l ty a m c x : in_space sp t e l ty a m -> (0 <= c < 3)%Z ->
    near eps (interpolate (uniform_grid (List.length (exp_grid sp))) (map (C zs ws (remaining sp t) t e ty a m c) (exp_grid sp)) (clip01 x))
             (interpolate (uniform_grid (List.length (exp_grid sp))) (map (C zs' ws' (remaining sp t) t e ty a m c) (exp_grid sp)) (clip01 x)).
  Proof.
    intros Hin Hc. replace (uniform_grid (List.length (exp_grid sp))) with (exp_grid sp) by (rewrite Hg at 2; rewrite uniform_grid_length; exact Hg).
    apply interpolate_near_values; [rewrite Hg; apply uniform_increasing|rewrite Hg; apply uniform_spans; assumption|apply L_GridSim.clip01_unit|].
    intros y Hy. apply In_nth_error in Hy. destruct Hy as [g Hy].
    destruct (solver_values sp mp biased zs ws pc pp Hok t e l ty a m g y Hin Hy) as (E0 & E1 & E2 & _).
    destruct (solver_values sp mp biased zs' ws' pc pp Hok t e l ty a m g y Hin Hy) as (F0 & F1 & F2 & _).
    assert (Hlt : (g < List.length (exp_grid sp))%nat) by (apply nth_error_Some; congruence).
    assert (c = 0 \/ c = 1 \/ c = 2)%Z as [-> | [-> | ->]] by lia; eapply (Hnear t e l ty a m g); eassumption.
  Qed.

  Definition clear_row (r : out_row R) : Prop := exists f, o_full r = Some f /\
    (forall c, (0 <= c < o_choice r)%Z -> at_ (f_value f) c + 2 * delta mp * eps < at_ (f_value f) (o_choice r)) /\
    (forall c, (o_choice r < c < 3)%Z -> at_ (f_value f) c + 2 * delta mp * eps <= at_ (f_value f) (o_choice r)).

  Lemma row_same a d r1 i1 r2 i2 : agent_in_space sp a ->
    sim_row mp sp sol false false (a_period a) a d = Ok (r1, i1) -> clear_row (hide_wage r1) ->
    sim_row mp sp' sol' false false (a_period a) a d = Ok (r2, i2) -> same_but_expectations eps r1 r2.
  Proof.
    intros Hin R1 (f0 & F0 & Hm & Hm') R2. rewrite hide_full in F0. rewrite hide_choice in Hm, Hm'.
    pose proof (sizes' sp mp pc pp Hok) as Hsz. pose proof (sizes' sp' mp pc pp Hok') as Hsz'.
    pose proof (sim_row_facts mp sp sol Hsz (solved_solution mp sp biased zs ws pc pp sol Hs) false false (a_period a) a d r1 i1 Hin R1) as RF1.
    pose proof (sim_row_facts mp sp' sol' Hsz' (solved_solution mp sp' biased zs' ws' pc pp sol' Hs') false false (a_period a) a d r2 i2 Hin R2) as RF2.
    destruct a as [aid t e l pt ft x ty ag m]. unfold agent_in_space in Hin. cbn [a_period a_educ a_lagged a_type a_age a_partner] in *.
    destruct (row_payoffs mp sp biased zs ws pc pp sol Hok Hs t e l ty ag m x d aid pt ft r1 i1 Hin R1) as (f & F1 & F2 & F3 & F4 & F5 & F6 & F7).
    destruct (row_payoffs mp sp' biased zs' ws' pc pp sol' Hok' Hs' t e l ty ag m x d aid pt ft r2 i2 Hin R2) as (f' & G1 & G2 & G3 & G4 & G5 & G6 & G7).
    assert (f0 = f) by congruence. subst f0.
    assert (Ec : forall c, (0 <= c < 3)%Z -> near eps (at_ (f_cont f) c) (at_ (f_cont f') c)).
    { intros c Hc. rewrite F5, G5, !three by assumption. exact (conts_near t e l ty ag m c x Hin Hc). }
    assert (Efl : f_flow f' = f_flow f) by (rewrite F4, G4; reflexivity).
    assert (Ev : forall c, (0 <= c < 3)%Z -> at_ (f_value f) c = at_ (f_flow f) c + delta mp * at_ (f_cont f) c).
    { intros c Hc. rewrite F6, F4, F5. assert (c = 0 \/ c = 1 \/ c = 2)%Z as [-> | [-> | ->]] by lia; reflexivity. }
    assert (Ev' : forall c, (0 <= c < 3)%Z -> at_ (f_value f') c = at_ (f_flow f) c + delta mp * at_ (f_cont f') c).
    { intros c Hc. rewrite G6, Efl, F4, G5. assert (c = 0 \/ c = 1 \/ c = 2)%Z as [-> | [-> | ->]] by lia; reflexivity. }
    assert (Hchoice : o_choice r2 = o_choice r1).
    { destruct (Z.eq_dec (o_choice r2) (o_choice r1)) as [E|Hne]; [exact E|exfalso].
      pose proof (proj1 F7) as C1. pose proof (proj1 G7) as C2.
      pose proof (Ec _ C1) as N1. pose proof (Ec _ C2) as N2. unfold near in N1, N2. apply Rabs_le_inv in N1. apply Rabs_le_inv in N2.
      pose proof (Rmult_le_compat_l _ _ _ Hd (proj1 N1)) as P1. pose proof (Rmult_le_compat_l _ _ _ Hd (proj2 N2)) as P2.
      destruct (Z.lt_ge_cases (o_choice r2) (o_choice r1)) as [Hlt|Hge].
      - pose proof (Hm (o_choice r2) ltac:(lia)) as M. pose proof (proj1 (proj2 G7) _ C1) as B.
        change (at_ (f_value f') (o_choice r1) <= at_ (f_value f') (o_choice r2)) in B.
        rewrite !Ev in M by assumption. rewrite !Ev' in B by assumption. lra.
      - pose proof (Hm' (o_choice r2) ltac:(lia)) as M. pose proof (proj2 (proj2 G7) (o_choice r1) ltac:(lia)) as B.
        change (at_ (f_value f') (o_choice r1) < at_ (f_value f') (o_choice r2)) in B.
        rewrite !Ev in M by assumption. rewrite !Ev' in B by assumption. lra. }
    split; [rewrite (rf_state _ _ _ _ _ _ _ _ _ _ RF1), (rf_state _ _ _ _ _ _ _ _ _ _ RF2); reflexivity|]. split; [exact Hchoice|].
    split; [rewrite (rf_wage _ _ _ _ _ _ _ _ _ _ RF1), (rf_wage _ _ _ _ _ _ _ _ _ _ RF2); reflexivity|].
    exists f, f'. refine (conj F1 (conj G1 (conj _ (conj _ (conj Efl Ec))))).
    - rewrite F2, G2. reflexivity.
    - rewrite F3, G3. reflexivity.
  Qed.

  Lemma same_hide r1 r2 : same_but_expectations eps r1 r2 -> same_but_expectations eps (hide_wage r1) (hide_wage r2).
  Proof.
    intros (H1 & H2 & H3 & H4). unfold same_but_expectations. rewrite !hide_state, !hide_choice, !hide_full.
    split; [exact H1|]. split; [exact H2|]. split; [|exact H4]. unfold hide_wage. rewrite H2. destruct (_ =? _)%Z; [reflexivity|exact H3].
  Qed.

  Lemma same_panel : sim_setting rg sp sol -> sim_setting rg sp' sol' ->
    simulation rg mp sp sol ip pc pp data -> simulation rg mp sp' sol' ip pc pp data' ->
    margin (2 * delta mp * eps) data -> Forall2 (same_but_expectations eps) data data'.
  Proof.
    intros (Hrg & P1 & L1) (_ & P2 & L2) (g1 & g1' & D1) (g2 & g2' & D2) Hm.
    assert (Hw : same_world sp sp') by (repeat split).
    assert (HF : Forall2 (alike_rows (fun _ _ => True) (same_but_expectations eps)) data data').
    { apply (same_rows rg Hrg mp mp sp sp' sol sol' ip pc pp P1 P2 L1 L2 Hw eq_refl eq_refl false false (fun _ => True) (fun _ _ => True)
        (same_but_expectations eps) clear_row (fun _ => True)) with (g1 := g1) (g2 := g2) (g1' := g1') (g2' := g2'); try assumption.
      - intros r1 r2 (_ & H & _). symmetry. exact H.
      - exact same_hide.
      - intros. reflexivity.
      - intros a d r1 i1 r2 i2 Hin _ _ _ Q1 HL Q2. exact (row_same a d r1 i1 r2 i2 Hin Q1 HL Q2).
      - intros. reflexivity.
      - intros r Hr. split; [exact I|]. exact (Hm r Hr).
      - intros. exact I. }
    eapply Forall2_weaken; [|exact HF]. intros r1 r2 _ _ [_ H]. apply H. exact I.
  Qed.
End Integration.

Lemma same_statistic eps delta data data' : Forall2 (same_but_expectations eps) data data' ->
  create_disc_sum_av_utility data delta = create_disc_sum_av_utility data' delta.
Proof.
  intros H.
  assert (E : forall name j, flow_column name j data' = flow_column name j data).
  { intros name j. unfold flow_column. induction H as [|r r' data data' Hr H IH]; [reflexivity|]. cbn [mapM].
    destruct Hr as (_ & _ & _ & f & f' & -> & -> & _ & _ & -> & _). rewrite IH. reflexivity. }
  assert (Ec : forall c, map (fun r => (o_choice r =? c)%Z) data' = map (fun r => (o_choice r =? c)%Z) data).
  { intros c. clear E. induction H as [|r r' data data' (_ & Hr & _) H IH]; [reflexivity|]. cbn [map]. rewrite IH, Hr. reflexivity. }
  assert (Ei : map (fun r => a_id (o_state r)) data' = map (fun r => a_id (o_state r)) data).
  { clear E Ec. induction H as [|r r' data data' (Hr & _) H IH]; [reflexivity|]. cbn [map]. rewrite IH, Hr. reflexivity. }
  unfold create_disc_sum_av_utility, create_chosen_flow_util. rewrite !E, !Ec, Ei.
  destruct (flow_column _ 0 data); cbn [bind]; [|reflexivity]. destruct (flow_column _ 1 data); cbn [bind]; [|reflexivity].
  destruct (flow_column _ 2 data); cbn [bind]; [|reflexivity].
  match goal with |- Ok (series_mean (group_sums _ ?l)) = Ok (series_mean (group_sums _ ?m)) => assert (Em : l = m) end.
  { match goal with |- map2 ?F ?u _ = _ => generalize u end. clear - H. induction H as [|r r' data data' (Hr & _) H IH]; intros [|u us]; try reflexivity.
    cbn [map2]. rewrite IH, Hr. reflexivity. }
  rewrite Em. reflexivity.
Qed.

(** *** integration errors add up (C91) *)
Section Errors.
  Variable sp : model_spec R.
  Variable mp : model_params R.
  Variable biased : bool.
  Variables zs ws zs' ws' : list R.
  Variable pc : list (list R).
  Variable pp : list (list (list (R * R))).
  Variable eta : R.
  Hypothesis Hok : inputs_ok sp mp pc pp.
  Hypothesis Hw : nonneg_weights zs' ws'.
  Hypothesis Hw1 : average (fun _ => 1) (combine zs' ws') = 1.
  Hypothesis Hp : probabilities sp pc pp.
  Hypothesis Hgu : spans_unit (exp_grid sp).
  Hypothesis Hd : 0 <= delta mp.
  Hypothesis Heta : integrates_alike eta sp mp biased zs ws zs' ws' pc pp.
  Notation V w v := (value sp mp (is_elterngeld sp) biased (combine w v) (child_fun pc) (partner_fun pp)).
  Notation C w v := (continuation sp mp (is_elterngeld sp) biased (combine w v) (child_fun pc) (partner_fun pp)).

  Definition gap (n : nat) : R := match n with O => 0 | S n' => eta * geometric (delta mp) n' end.

  Lemma value_gap n t e l ty a m x : in_space sp t e l ty a m -> (t + Z.of_nat n = num_periods sp - 1)%Z -> In x (exp_grid sp) ->
    (forall c, (0 <= c < 3)%Z -> near (gap n) (C zs ws n t e ty a m c x) (C zs' ws' n t e ty a m c x)) ->
    near (eta * geometric (delta mp) n) (V zs ws n t e l ty a m x) (V zs' ws' n t e l ty a m x).
  Proof.
    intros Hin Hn Hx K. rewrite !value_eq. apply In_nth_error in Hx. destruct Hx as [g Hg].
    assert (Er : remaining sp t = n) by (unfold remaining; lia).
    assert (Hlt : (g < List.length (exp_grid sp))%nat) by (apply nth_error_Some; congruence).
    pose proof (Heta t e l ty a m g (fun c => C zs ws n t e ty a m c x) Hin Hlt) as N. cbv zeta in N.
    rewrite (nth_error_nth _ _ 0 Hg) in N.
    assert (N1 := N ltac:(intros c Hc; destruct (solver_values sp mp biased zs ws pc pp Hok t e l ty a m g x Hin Hg) as (E0 & E1 & E2 & _); rewrite Er in *;
      assert (c = 0 \/ c = 1 \/ c = 2)%Z as [-> | [-> | ->]] by lia; assumption)). clear N.
    assert (N2 : near (delta mp * gap n)
      (average (fun z => best3 (fun c => flow sp mp (is_elterngeld sp) biased t e l ty a m x c z + delta mp * C zs ws n t e ty a m c x)) (combine zs' ws'))
      (average (fun z => best3 (fun c => flow sp mp (is_elterngeld sp) biased t e l ty a m x c z + delta mp * C zs' ws' n t e ty a m c x)) (combine zs' ws'))).
    { apply average_near; try assumption. intros z w Hz. apply best3_near. intros c Hc. specialize (K c Hc). unfold near in *.
      match goal with |- Rabs (?f + ?d * ?u - (?f + ?d * ?v)) <= _ => replace (f + d * u - (f + d * v)) with (d * (u - v)) by ring end.
      rewrite Rabs_mult, (Rabs_right (delta mp)) by lra. apply Rmult_le_compat_l; assumption. }
    unfold near in *. apply Rabs_le_inv in N1. apply Rabs_le_inv in N2. apply Rabs_le.
    assert (E : eta * geometric (delta mp) n = eta + delta mp * gap n) by (destruct n; cbn [geometric gap]; ring).
    rewrite E. lra.
  Qed.

  Lemma integration_values n : forall t e l ty a m x, in_space sp t e l ty a m ->
    (t + Z.of_nat n = num_periods sp - 1)%Z -> In x (exp_grid sp) ->
    near (eta * geometric (delta mp) n) (V zs ws n t e l ty a m x) (V zs' ws' n t e l ty a m x) /\
    forall c, (0 <= c < 3)%Z -> near (gap n) (C zs ws n t e ty a m c x) (C zs' ws' n t e ty a m c x).
  Proof.
    pose proof Hok as ((_ & _ & _ & Hca & _ & Hgi & _) & _).
    induction n as [|n IH]; intros t e l ty a m x Hin Hn Hx.
    - assert (K : forall c, (0 <= c < 3)%Z -> near (gap 0) (C zs ws 0 t e ty a m c x) (C zs' ws' 0 t e ty a m c x)).
      { intros c Hc. cbn [continuation gap]. unfold near. rewrite Rminus_diag_eq, Rabs_R0 by reflexivity. lra. }
      split; [apply value_gap; assumption|exact K].
    - assert (K : forall c, (0 <= c < 3)%Z -> near (gap (S n)) (C zs ws (S n) t e ty a m c x) (C zs' ws' (S n) t e ty a m c x)).
      { intros c Hc. cbn [continuation gap]. pose proof Hin as (Ht & He & Hl & Hty & Ha & Hm).
        apply expected_near; try assumption; try lia.
        - intros t' e' Ht' He'. apply (Hp t' e' Ht' He').
        - intros t' e' m' Ht' He' Hm'. apply (Hp t' e' Ht' He'). assumption.
        - intros age m' y Hag Hm' Hy. apply IH; [|lia|assumption].
          pose proof (L_Value.aged_range sp Hca a Ha). unfold in_space. repeat split; lia. }
      split; [apply value_gap; assumption|exact K].
  Qed.

  Lemma integration_error t e l ty a m g v v' : in_space sp t e l ty a m -> (g < List.length (exp_grid sp))%nat ->
    (solver_cell sp mp biased zs ws pc pp t e l ty a m g 3 = Ok v -> solver_cell sp mp biased zs' ws' pc pp t e l ty a m g 3 = Ok v' ->
     near (eta * geometric (delta mp) (remaining sp t)) v v') /\
    (forall c, (0 <= c < 3)%Z -> solver_cell sp mp biased zs ws pc pp t e l ty a m g c = Ok v -> solver_cell sp mp biased zs' ws' pc pp t e l ty a m g c = Ok v' ->
     near (gap (remaining sp t)) v v').
  Proof.
    intros Hin Hg. assert (Hx : nth_error (exp_grid sp) g = Some (nth g (exp_grid sp) 0)) by (apply nth_error_nth'; lia).
    pose proof (integration_values (remaining sp t) t e l ty a m _ Hin (remaining_eq _ _ _ _ _ _ _ Hin) (nth_error_In _ _ Hx)) as [N K].
    split.
    - intros Hv Hv'. rewrite (solver_emax _ _ _ _ _ _ _ Hok _ _ _ _ _ _ _ _ Hin Hx _ Hv). rewrite (solver_emax _ _ _ _ _ _ _ Hok _ _ _ _ _ _ _ _ Hin Hx _ Hv'). exact N.
    - intros c Hc Hv Hv'. rewrite (solver_cont _ _ _ _ _ _ _ Hok _ _ _ _ _ _ _ _ Hin Hx _ _ Hc Hv). rewrite (solver_cont _ _ _ _ _ _ _ Hok _ _ _ _ _ _ _ _ Hin Hx _ _ Hc Hv'). apply K. exact Hc.
  Qed.

  Lemma geometric_grows q n n' : 0 <= q -> (n <= n')%nat -> geometric q n <= geometric q n'.
  Proof.
    intros Hq. assert (P : forall j, 0 < geometric q j).
    { induction j as [|j IHj]; cbn [geometric]; [lra|]. pose proof (Rmult_le_pos q _ Hq (Rlt_le _ _ IHj)). lra. }
    revert n'. induction n as [|n IHn]; intros [|n'] Hle; try lia; cbn [geometric].
    - lra.
    - pose proof (Rmult_le_pos q _ Hq (Rlt_le _ _ (P n'))). lra.
    - pose proof (Rmult_le_compat_l q _ _ Hq (IHn n' ltac:(lia))). lra.
  Qed.
  Lemma integration_tables : 0 <= eta -> (2 <= num_periods sp)%Z -> tables_near (eta * geometric (delta mp) (Z.to_nat (num_periods sp) - 2)) sp mp biased zs ws zs' ws' pc pp.
  Proof.
    intros H0 Hn t e l ty a m g c v v' Hin Hg Hc Hv Hv'. pose proof (proj2 (integration_error t e l ty a m g v v' Hin Hg) c Hc Hv Hv') as N.
    unfold near in *. eapply Rle_trans; [exact N|].
    assert (G0 : 0 < geometric (delta mp) 0) by (cbn; lra).
    destruct (remaining sp t) as [|n] eqn:E; cbn [gap].
    - apply Rmult_le_pos; [assumption|]. pose proof (geometric_grows (delta mp) 0 (Z.to_nat (num_periods sp) - 2) Hd ltac:(lia)). lra.
    - apply Rmult_le_compat_l; [assumption|]. apply geometric_grows; [assumption|]. unfold in_space in Hin. unfold remaining in E. lia.
  Qed.
End Errors.

(** without wage shocks all methods agree *)
Lemma no_shocks_alike sp mp biased zs ws zs' ws' pc pp : shock_sd mp = 0 ->
  average (fun _ => 1) (combine zs ws) = 1 -> average (fun _ => 1) (combine zs' ws') = 1 ->
  integrates_alike 0 sp mp biased zs ws zs' ws' pc pp.
Proof.
  intros Hsd H1 H2 t e l ty a m g k Hin Hg Hk. cbv zeta.
  assert (E : forall d, average (fun _ => 1) d = 1 -> average (fun z => best3 (fun c => flow sp mp (is_elterngeld sp) biased t e l ty a m (nth g (exp_grid sp) 0) c z + delta mp * k c)) d
    = best3 (fun c => flow sp mp (is_elterngeld sp) biased t e l ty a m (nth g (exp_grid sp) 0) c 0 + delta mp * k c)).
  { intros d Hd. rewrite (average_ext' _ (fun _ => best3 (fun c => flow sp mp (is_elterngeld sp) biased t e l ty a m (nth g (exp_grid sp) 0) c 0 + delta mp * k c))).
    - rewrite average_const, Hd. ring.
    - intros z. unfold flow. rewrite Hsd, !Rmult_0_r. reflexivity. }
  rewrite !E by assumption. unfold near. rewrite Rminus_diag_eq, Rabs_R0 by reflexivity. lra.
Qed.

(** *** a table of the test suite: prob_partner[:, 0, 1] = 0, then prob_partner[:, 0, 0] = 1 *)
Lemma test_partners rg (mp : model_params R) sp sol ip pc pp data : sim_setting rg sp sol ->
  simulation rg mp sp sol ip pc (test_partner_table pp) data ->
  forall r r', follows data r r' -> a_educ (o_state r) = 0%Z -> a_partner (o_state r') = 1%Z.
Proof.
  intros (S1 & S2 & S3) (g & g' & Hd) r r' Hf He.
  destruct (demography rg mp sp sol ip pc (test_partner_table pp) false S1 S2 S3 g g' data Hd r r' Hf) as (_ & _ & D3 & D4 & D5 & _).
  assert (T : forall m pr, partner_prob (test_partner_table pp) (row_period r) 0 m = Ok pr -> (m = 0%Z -> pr = (1, 1)) /\ (m = 1%Z -> pr = (0, 0))).
  { intros m pr E. unfold partner_prob in E. destruct (np_get (test_partner_table pp) (row_period r)) as [row|] eqn:E1; cbn [bind] in E; [|discriminate].
    apply np_get_Ok_in in E1. apply in_map_iff in E1. destruct E1 as ([|x rest] & <- & _); [discriminate E|].
    split; intros ->; cbn in E; injection E as <-; reflexivity. }
  rewrite He in D3, D4. unfold row_period in T. destruct D5 as [Em|Em].
  - destruct (D3 Em) as (pr & Ep & Hdr). pose proof (proj1 (T _ _ Ep) eq_refl) as E. subst pr. exact (drawn_one rg S1 _ Hdr).
  - destruct (D4 Em) as (pr & s & Ep & Hdr & Es). pose proof (proj2 (T _ _ Ep) eq_refl) as E. subst pr. pose proof (drawn_zero rg S1 _ Hdr) as ->. rewrite Es. reflexivity.
Qed.

(** *** runs of the example with any draws *)
Lemma run_with_draws sp (mp : model_params R) zs ws pc pp ip : inputs_ok sp mp pc pp -> child_probs_ok sp pc -> partner_probs_ok sp pp -> init_ok sp ip ->
  proper (num_types sp) (type_shares mp) -> sim_spec_ok sp -> exists sol data,
  solved sp mp false zs ws pc pp sol /\ sim_setting ex_rng sp sol /\ simulation ex_rng mp sp sol ip pc pp data.
Proof.
  intros Hok Hpc Hpp Hip Hty Hsp. destruct (solved_exists sp mp false zs ws pc pp Hok) as [sol Hs].
  pose proof (solved_solution mp sp _ _ _ _ _ sol Hs) as S3. pose proof (solved_tables_ok mp sp _ _ _ _ _ sol Hok Hs) as I4.
  assert (Hreg : regime_known sp) by (destruct Hok as ((_ & _ & _ & _ & _ & _ & _ & _ & _ & H) & _); exact H).
  destruct (simulate_total ex_rng ex_rng_ok ex_rng_total mp sp sol ip pc pp Hsp Hreg S3 I4 Hip Hty Hpc Hpp false false (rng_seed ex_rng 0%Z)) as (data & g' & Hd).
  exists sol, data. split; [exact Hs|]. split; [exact (conj ex_rng_ok (conj Hsp S3))|]. do 2 eexists. exact Hd.
Qed.

(** everybody has the lowest education *)
Definition low_ip : init_probs R := {|
  ip_educ := [1; 0; 0];
  ip_child_age := repeat [1/2; 1/4; 1/4; 0; 0; 0] 3;
  ip_partner_present := [1/2; 0; 1];
  ip_exp_pt := repeat [1; 0; 0; 0; 0] 3;
  ip_exp_ft := repeat [1; 0; 0; 0; 0] 3
|}.
Lemma low_init : init_ok ex_spec low_ip.
Proof.
  destruct fresh_init as [_ H1 H2 H3 H4 H5 H6 H7 H8]. constructor; try assumption.
  cbn [low_ip ip_educ ex_spec num_educ_levels]. split; [reflexivity|]. split; [|cbn; lra]. intros x H. cbn in H. destruct H as [<- | [<- | [<- | []]]]; lra.
Qed.
Lemma test_table_run : exists sol data,
  sim_setting ex_rng ex_spec sol /\ simulation ex_rng ex_params ex_spec sol low_ip ex_prob_child (test_partner_table ex_prob_partner) data /\
  exists r r', follows data r r' /\ a_educ (o_state r) = 0%Z /\ row_period r = 0%Z.
Proof.
  assert (Ht : partner_probs_ok ex_spec (test_partner_table ex_prob_partner)).
  { destruct ex_partner_probs as [T1 T2]. split.
    - destruct T1 as [L1 L2]. split; [unfold zlen, test_partner_table in *; rewrite map_length; exact L1|].
      intros rw Hr. apply in_map_iff in Hr. destruct Hr as ([|x rest] & <- & Hin); destruct (L2 _ Hin) as [M1 M2]; (split; [exact M1|]).
      + intros q [].
      + intros q [<- | Hq]; [reflexivity|]. apply M2. right. exact Hq.
    - intros rw Hr q Hq pr Hpr. apply in_map_iff in Hr. destruct Hr as ([|x rest] & <- & Hin); [destruct Hq|]. destruct Hq as [<- | Hq].
      + destruct Hpr as [<- | [<- | []]]; cbn [fst snd]; lra.
      + apply (T2 _ Hin q (or_intror Hq) pr Hpr). }
  assert (Hok : inputs_ok ex_spec ex_params ex_prob_child (test_partner_table ex_prob_partner)).
  { destruct ex_inputs as (A1 & A2 & A3 & _). exact (conj A1 (conj A2 (conj A3 (proj1 Ht)))). }
  destruct (run_with_draws ex_spec ex_params [] [] ex_prob_child _ low_ip Hok ex_child_probs Ht low_init ex_types ex_sim_spec) as (sol & data & _ & B2 & B3).
  exists sol, data. split; [exact B2|]. split; [exact B3|]. pose proof B2 as (S1 & S2 & S3). pose proof B3 as (g & g' & Hd).
  destruct (panel ex_rng ex_params ex_spec sol low_ip _ _ false S1 S2 S3 g g' data Hd) as (educs & Le & Pe & Hp & _).
  cbn [ex_spec num_agents_sim] in Le. destruct educs as [|e educs]; [discriminate Le|].
  destruct (Hp 0%nat e eq_refl) as (y & He & Hy & Hrows).
  assert (Hy2 : (0 <= y <= 2)%Z) by (apply nth_error_In in Hy; cbn [ex_spec educ_years In] in Hy; lia).
  destruct (proj2 (Hrows y)) as (r0 & Hr0 & K0); [cbn [ex_spec num_periods]; lia|]. unfold row_key in K0. injection K0 as K1 K2.
  assert (Hen : entry_row data r0).
  { split; [exact Hr0|]. intros q Hq Hid.
    assert (y <= row_period q < num_periods ex_spec)%Z; [|lia]. apply Hrows. exists q. split; [exact Hq|]. unfold row_key. rewrite Hid, K1. reflexivity. }
  destruct (positive_entry ex_rng ex_params ex_spec sol low_ip _ _ data r0 B2 low_init ex_types B3 Hen) as (Hpos & _).
  pose proof (proj2 (Pe r0 Hr0)) as Ee. rewrite K1 in Ee. cbn in Ee. injection Ee as Ee.
  assert (He0 : e = 0%Z).
  { rewrite <- Ee in Hpos. pose proof (nth_error_Some (educ_years ex_spec) (Z.to_nat e)) as [Hlt _]. specialize (Hlt ltac:(congruence)). cbn in Hlt.
    assert (e = 0 \/ e = 1 \/ e = 2)%Z as [-> | [-> | ->]] by lia; [reflexivity| |]; exfalso; cbv [at_ low_ip ip_educ nth Z.to_nat Pos.to_nat Pos.iter_op Init.Nat.add] in Hpos; lra. }
  rewrite He0 in Hy, Ee. cbv in Hy. assert (Y0 : y = 0%Z) by congruence. clear Hy.
  destruct (proj2 (Hrows 1%Z)) as (r1 & Hr1 & K4); [cbn [ex_spec num_periods]; lia|]. unfold row_key in K4. injection K4 as K4 K5.
  exists r0, r1. repeat split; try assumption; try lia.
Qed.
