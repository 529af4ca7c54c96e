(** Lemmas about the regression tests (C102). *)
From Coq Require Import Reals Lra Lia ZArith List String Permutation Sorting.Sorted.
From Verif Require Import Base Num M_Params M_Exog M_StateSpace M_Solve M_Sim M_Spec M_Main M_RandomInit M_Regression S_Spec S_Main S_Sim S_SimInputs S_Solver S_Rng S_Entries S_Regression
  L_Num L_Spec L_Params L_Entries L_Main L_Tests T_Sim T_Main T_Entries.
Import ListNotations.
Local Open Scope string_scope.
Local Open Scope list_scope.
Open Scope R_scope.

(** *** the comparison *)
Lemma nabs_R (x : R) : nabs x = Rabs x.
Proof. unfold nabs. rn. destruct (Rltb_spec x 0); [rewrite Rabs_left by lra; ring|rewrite Rabs_right by lra; reflexivity]. Qed.
Lemma nmax_R (x y : R) : nmax x y = Rmax x y.
Proof. unfold nmax. rn. destruct (Rleb_spec x y); [rewrite Rmax_right by lra|rewrite Rmax_left by lra]; reflexivity. Qed.
Lemma is_close_R (x y : R) : is_close x y = true <-> close x y.
Proof.
  unfold is_close, close. rewrite !nabs_R, !nmax_R. unfold nlit. rn. rewrite Rleb_true.
  split.
  - intros H. unfold Rmax at 1 in H. destruct (Rle_dec _ _); [right|left]; exact H.
  - intros [H|H]; (eapply Rle_trans; [exact H|]); [apply Rmax_l|apply Rmax_r].
Qed.
Lemma close_refl x : close x x.
Proof. right. replace (x - x) with 0 by ring. rewrite Rabs_R0. lra. Qed.
Lemma close_sym x y : close x y -> close y x.
Proof. unfold close. rewrite (Rabs_minus_sym x y), (Rmax_comm (Rabs x)). auto. Qed.

Lemma series_loc_ok (s : series (T := R)) labels : (forall l, In l labels -> exists v, assoc_get l s = Some v) -> exists q, series_loc s labels = Ok q.
Proof.
  induction labels as [|l labels IH]; intros H; [exists []; reflexivity|]. unfold series_loc in *. cbn [mapM].
  destruct (H l (or_introl eq_refl)) as [v ->]. cbn [bind]. destruct (IH (fun x Hx => H x (or_intror Hx))) as [q ->]. cbn [bind]. eexists. reflexivity.
Qed.

(** the comparison passes exactly if all values are there and close *)
Lemma compare_spec (labels : list string) (s1 s2 : series (T := R)) :
  compare_sums labels s1 s2 = Ok tt <->
  forall l, In l labels -> exists v w, assoc_get l s1 = Some v /\ assoc_get l s2 = Some w /\ close v w.
Proof.
  unfold compare_sums, series_loc, assert_series_equal. induction labels as [|l labels IH]; [split; [intros _ l []|reflexivity]|].
  cbn [mapM]. destruct (assoc_get l s1) as [v|] eqn:E1; cbn [bind].
  2: { split; [discriminate|]. intros H. destruct (H l (or_introl eq_refl)) as (v & w & E & _). congruence. }
  destruct (mapM (fun l => match assoc_get l s1 with Some x => Ok (l, x) | None => Err (KeyError l) end) labels) as [q1|e1] eqn:M1; cbn [bind] in *.
  2: { split; [discriminate|]. intros H. exfalso. discriminate (proj2 IH (fun x Hx => H x (or_intror Hx))). }
  destruct (assoc_get l s2) as [w|] eqn:E2; cbn [bind].
  2: { split; [discriminate|]. intros H. destruct (H l (or_introl eq_refl)) as (v' & w & _ & E & _). congruence. }
  destruct (mapM (fun l => match assoc_get l s2 with Some x => Ok (l, x) | None => Err (KeyError l) end) labels) as [q2|e2] eqn:M2; cbn [bind] in *.
  2: { split; [discriminate|]. intros H. exfalso. discriminate (proj2 IH (fun x Hx => H x (or_intror Hx))). }
  cbn [series_equal]. rewrite String.eqb_refl. cbn [andb].
  split.
  - intros H. destruct (is_close v w) eqn:Ec; [|discriminate]. cbn [andb] in H. intros x [<-|Hx]; [exists v, w; split; [exact E1|split; [exact E2|apply is_close_R; exact Ec]]|].
    apply (proj1 IH H x Hx).
  - intros H. destruct (H l (or_introl eq_refl)) as (v' & w' & Ev & Ew & Hc). assert (v' = v) by congruence. assert (w' = w) by congruence. subst.
    apply is_close_R in Hc. rewrite Hc. cbn [andb]. apply IH. intros x Hx. apply H. right. exact Hx.
Qed.

(** sums by label *)
Lemma assoc_map_fn {A} (f : string -> A) l labels : In l labels -> assoc_get l (map (fun x => (x, f x)) labels) = Some (f l).
Proof.
  unfold assoc_get. induction labels as [|x labels IH]; [intros []|]. intros H. cbn [map find fst]. destruct (String.eqb_spec x l) as [->|Hn]; [reflexivity|].
  destruct H as [H|H]; [contradiction|apply IH; exact H].
Qed.
Lemma column_total (label : string) (f : out_row R -> option R) : (forall r, assoc_get label (cells r) = Some (f r)) ->
  forall data, column_sum label data = total_of f data.
Proof.
  intros H data. unfold column_sum. induction data as [|r data IH]; [reflexivity|]. cbn [flat_map total_of]. rewrite H. rewrite <- IH.
  destruct (f r) as [x|]; cbn [app]; rewrite ?nsum_R; cbn [Rsum fold_right]; [reflexivity|ring].
Qed.
Lemma checked_cells k label f : In (label, f) (checked k) -> forall r, assoc_get label (cells r) = Some (f r).
Proof.
  intros H r. assert (H' : In (label, f) (checked_full ++ [("Experience_Stock", fun r : out_row R => Some (a_stock (o_state r)))])).
  { destruct k; cbn [checked] in H; try (apply in_or_app; left; exact H). unfold checked_sparse, checked_full in *. apply in_app_or in H.
    destruct H as [H|H]; apply in_or_app; [left; apply in_or_app; left; exact H|right; exact H]. }
  clear H. unfold checked_full, checked_states in H'. cbn [app In] in H'.
  repeat (destruct H' as [H'|H']; [injection H' as <- <-; reflexivity|]). destruct H'.
Qed.
Definition labels_of (k : regression_test) : list string := match k with test_simulation_func_data_sparse => LABELS_DATA_SPARSE | _ => DATA_LABLES_CHECK end.
Lemma checked_labels k l : In l (labels_of k) <-> exists f, In (l, f) (checked k).
Proof.
  split.
  - intros H. assert (E : forall L, (forall x, In x L -> existsb (fun p => String.eqb (fst p) x) (checked k) = true) -> In l L -> exists f, In (l, f) (checked k)).
    { intros L HL Hl. apply HL in Hl. apply existsb_exists in Hl. destruct Hl as ([x f] & Hx & E). apply String.eqb_eq in E. cbn in E. subst x. exists f. exact Hx. }
    apply (E (labels_of k)); [|exact H]. clear. intros x Hx.
    destruct k; cbn [labels_of] in Hx; unfold LABELS_DATA_SPARSE, DATA_LABLES_CHECK in Hx; cbn [app In] in Hx; repeat (destruct Hx as [<-|Hx]; [reflexivity|]); destruct Hx.
  - intros [f H]. destruct k; cbn [labels_of checked] in *; unfold checked_sparse, checked_full, checked_states in H; cbn [app In] in H;
      repeat (destruct H as [H|H]; [injection H as <- _; unfold LABELS_DATA_SPARSE, DATA_LABLES_CHECK; cbn [app In]; tauto|]); destruct H.
Qed.
Lemma checked_columns k l : In l (labels_of k) -> In l (frame_columns (is_sparse k)).
Proof.
  intros H. destruct k; cbn [labels_of is_sparse] in *; unfold LABELS_DATA_SPARSE, DATA_LABLES_CHECK in H; cbn [app In] in H;
    repeat (destruct H as [<-|H]; [cbn; tauto|]); destruct H.
Qed.

Lemma frame_sum_total label f data : In (label, f) all_columns -> assoc_get label (frame_sum false data) = Some (total_of f data).
Proof.
  intros H. unfold frame_sum. rewrite assoc_map_fn.
  - f_equal. apply column_total. intros r. unfold all_columns, checked_full, checked_states in H. cbn [app In] in H.
    repeat (destruct H as [H|H]; [injection H as <- <-; reflexivity|]). destruct H.
  - unfold all_columns, checked_full, checked_states in H. cbn [app In] in H. repeat (destruct H as [H|H]; [injection H as <- _; cbn; tauto|]). destruct H.
Qed.
Lemma frame_sum_labels data label : In label (map fst (frame_sum false data)) -> exists f, In (label, f) all_columns.
Proof.
  unfold frame_sum. rewrite map_map. cbn [fst]. rewrite map_id. intros H.
  assert (E : existsb (fun p => String.eqb (fst p) label) all_columns = true).
  { cbn in H. repeat (destruct H as [<-|H]; [reflexivity|]). destruct H. }
  apply existsb_exists in E. destruct E as ([x f] & Hx & E). apply String.eqb_eq in E. cbn in E. subst x. exists f. exact Hx.
Qed.

(** *** the runs *)
Section Runs.
  Variables (rg : rng R) (roots : Z -> list R * list R) (s2 spi : R).
  Notation simulate_of := (simulate_of rg roots s2 spi).
  (** result of the program, whatever the generator and earlier runs *)
  Lemma program_any pa sa files b sp_ g g2 (h : heap R) extra : arg_ok sa h ->
    snd (simulate_of pa sa files b sp_ g (h ++ extra)) = snd (simulate_of pa sa files b sp_ g2 h).
  Proof.
    intros Ha. rewrite program_again by exact Ha. rewrite (program_value _ _ _ _ _ _ _ _ _ g2 h Ha).
    destruct (snd (read_model pa sa h)) as [(mp & sp)|e]; [|reflexivity]. apply simulate_seed.
  Qed.

  Lemma pyth_data_value e g (h : heap R) extra : arg_ok (ve_spec e) h ->
    snd (pyth_data rg roots s2 spi e g (h ++ extra)) = snd (simulate_of (params_of e) (ve_spec e) (ve_files e) true false g h).
  Proof.
    intros Ha. rewrite program_value by exact Ha. unfold pyth_data, hbind.
    pose proof (read_model_again (params_of e) (ve_spec e) h extra Ha) as E.
    destruct (read_model (params_of e) (ve_spec e) (h ++ extra)) as [h1 r]. cbn [snd] in E. subst r.
    destruct (snd (read_model (params_of e) (ve_spec e) h)) as [(mp & sp)|err]; [|reflexivity]. unfold hlift. cbn [snd].
    unfold simulate, get_simulate_func, pyth_solve.
    destruct (gen_prob_child_init_age_vector _ _); cbn [bind]; [|reflexivity].
    destruct (gen_prob_init_exp_component_vector _ (xf_exp_pt _)); cbn [bind]; [|reflexivity].
    destruct (gen_prob_init_exp_component_vector _ (xf_exp_ft _)); cbn [bind]; [|reflexivity].
    destruct (gen_prob_child_vector _ _); cbn [bind]; [|reflexivity].
    destruct (gen_prob_partner _ _ _); cbn [bind]; [|reflexivity].
    destruct (create_state_space_objects _); cbn [bind]; [|reflexivity].
    destruct (get_integration_draws_and_weights _ _ _ _ _ _) as [[dw g1]|]; cbn [bind]; [|reflexivity].
    destruct (solve _ _ _ _ _ _ _ _ _ _) as [[ncu em]|]; cbn [bind fst snd]; reflexivity.
  Qed.
  Lemma pyth_data_frame e g (h : heap R) : exists extra, fst (pyth_data rg roots s2 spi e g h) = h ++ extra.
  Proof.
    unfold pyth_data, hbind. destruct (read_model_frame (params_of e) (ve_spec e) h) as (extra & E). exists extra.
    destruct (read_model (params_of e) (ve_spec e) h) as [h1 [(mp & sp)|err]]; exact E.
  Qed.

  (** data of the run of a test *)
  Definition data_of (k : regression_test) (e : vault_entry R) (g : rng_state rg) (h : heap R) : result (list (out_row R) * rng_state rg) :=
    snd (simulate_of (params_of e) (ve_spec e) (ve_files e) (is_biased k) (is_sparse k) g h).

  Lemma run_test_spec k e g (h : heap R) extra g' : arg_ok (ve_spec e) h ->
    (snd (run_test rg roots s2 spi k e g (h ++ extra)) = Ok g' <->
     exists data, data_of k e g h = Ok (data, g') /\
       forall label f, In (label, f) (checked k) -> exists v, stored k e label v /\ close (total_of f data) v).
  Proof.
    intros Ha.
    assert (Hcmp : forall data (s : series), (forall label f, In (label, f) (checked k) -> exists v, assoc_get label s = Some v /\ close (total_of f data) v) <->
      (forall l, In l (labels_of k) -> exists v w, assoc_get l (frame_sum (is_sparse k) data) = Some v /\ assoc_get l s = Some w /\ close v w)).
    { intros data s. split.
      - intros H l Hl. pose proof Hl as Hl'. apply checked_labels in Hl. destruct Hl as [f Hf]. destruct (H l f Hf) as (v & E & C).
        exists (total_of f data), v. split; [|split; assumption]. unfold frame_sum. rewrite assoc_map_fn by (apply checked_columns; exact Hl').
        rewrite (column_total l f (checked_cells k l f Hf)). reflexivity.
      - intros H l f Hf. destruct (H l (proj2 (checked_labels k l) (ex_intro _ f Hf))) as (v & w & E1 & E2 & C). exists w. split; [exact E2|].
        unfold frame_sum in E1. rewrite assoc_map_fn in E1 by (apply checked_columns, checked_labels; exists f; exact Hf).
        rewrite (column_total l f (checked_cells k l f Hf)) in E1. congruence. }
    assert (Hflip : forall labels (s1 s : series (T := R)), compare_sums labels s1 s = Ok tt <-> compare_sums labels s s1 = Ok tt).
    { intros labels s1 s. rewrite !compare_spec. split; intros H l Hl; destruct (H l Hl) as (v & w & E1 & E2 & C); exists w, v; (split; [exact E2|split; [exact E1|apply close_sym; exact C]]). }
    assert (Hend : forall (r : result unit) (g1 : rng_state rg) (h1 : heap R), snd (hbind (hlift r) (fun _ => hlift (Ok g1)) h1) = Ok g' <-> r = Ok tt /\ g1 = g').
    { intros [[]|er] g1 h1; unfold hbind, hlift; cbn [snd]; split; [intros H; split; [reflexivity|congruence]|intros [_ ->]; reflexivity|discriminate|intros [H _]; discriminate]. }
    assert (Hgo : forall (m : hm (list (out_row R) * rng_state rg)) (r : list (out_row R) -> result unit), snd (m (h ++ extra)) = data_of k e g h ->
      (forall data, r data = Ok tt <-> forall label f, In (label, f) (checked k) -> exists v, stored k e label v /\ close (total_of f data) v) ->
      (snd (hbind m (fun '(data, g) => hbind (hlift (r data)) (fun _ => hlift (Ok g))) (h ++ extra)) = Ok g' <->
       exists data, data_of k e g h = Ok (data, g') /\ forall label f, In (label, f) (checked k) -> exists v, stored k e label v /\ close (total_of f data) v)).
    { intros m r Hm Hr. unfold hbind at 1. destruct (m (h ++ extra)) as [h1 [[data g1]|er]]; cbn [snd] in Hm; rewrite <- Hm.
      - rewrite Hend, Hr. split; [intros [H ->]; exists data; split; [reflexivity|exact H]|].
        intros (data' & E & H). assert (data' = data) by congruence. subst data'. split; [exact H|congruence].
      - cbn [snd]. split; [discriminate|]. intros (data & E & _). discriminate. }
    destruct k; cbn [run_test]; apply Hgo.
    - unfold data_of. cbn [is_biased is_sparse]. apply pyth_data_value. exact Ha.
    - intros data. rewrite compare_spec. symmetry. apply (Hcmp data).
    - unfold data_of. cbn [is_biased is_sparse]. apply program_any. exact Ha.
    - intros data. rewrite Hflip, compare_spec. symmetry. apply (Hcmp data).
    - unfold data_of. cbn [is_biased is_sparse]. apply program_any. exact Ha.
    - intros data. rewrite Hflip, compare_spec. symmetry. apply (Hcmp data).
    - unfold data_of. cbn [is_biased is_sparse]. apply program_any. exact Ha.
    - intros data. rewrite Hflip, compare_spec. symmetry. apply (Hcmp data).
  Qed.

  Lemma run_test_frame k e g (h : heap R) : exists extra, fst (run_test rg roots s2 spi k e g h) = h ++ extra.
  Proof.
    assert (Hgo : forall (m : hm (list (out_row R) * rng_state rg)) (r : list (out_row R) -> result unit), (exists extra, fst (m h) = h ++ extra) ->
      exists extra, fst (hbind m (fun '(data, g) => hbind (hlift (r data)) (fun _ => hlift (Ok g))) h) = h ++ extra).
    { intros m r (extra & E). exists extra. unfold hbind, hlift. destruct (m h) as [h1 [[data g1]|er]]; cbn [fst] in *; [destruct (r data)|]; exact E. }
    destruct k; cbn [run_test]; apply Hgo; solve [apply pyth_data_frame|apply program_frame].
  Qed.
End Runs.

(** *** the sparse run *)
Section Sparse.
  Variables (rg : rng R) (roots : Z -> list R * list R) (s2 spi : R).
  Hypothesis Hrg : rng_ok rg. Hypothesis Htot : rng_total rg.

  Lemma seed_only mp sp sol ip pc pp b sparse g1 g2 : pyth_simulate rg mp sp sol ip pc pp b sparse g1 = pyth_simulate rg mp sp sol ip pc pp b sparse g2.
  Proof. reflexivity. Qed.

  Lemma sparse_same mp sp files b g data g' : runnable mp sp -> files_ok sp files -> fits_bytes sp ->
    simulate rg roots s2 spi mp sp files b false g = Ok (data, g') ->
    exists data' g2, simulate rg roots s2 spi mp sp files b true g = Ok (data', g2) /\
      Forall2 (fun r r' => o_state r' = o_state r /\ o_choice r' = o_choice r /\ o_wage r' = o_wage r) data data'.
  Proof.
    intros Hr F (B1 & B2 & B3 & B4) H.
    destruct (program_runs rg roots s2 spi mp sp files b false g Hrg Htot Hr F) as (ip & pc & pp & zs & ws & g1 & sol & data1 & g1' & T & Ed & Hs & Hin & Hp & H1).
    assert (data1 = data) by congruence. assert (g1' = g') by congruence. subst data1 g1'.
    destruct (proj1 (proj2 (C43_sparse_restricts_full rg mp sp sol ip pc pp false g1)) data g' Hp) as (data' & Hp' & _).
    exists data', g'. split.
    - destruct Hs as (ss & Es & E1 & E2 & E3 & E4 & E5). rewrite (simulate_unfold rg roots s2 spi mp sp files b true g ip pc pp ss T Es). rewrite Ed. cbn [bind fst snd].
      destruct sol as [q1 q2 q3 q4 q5 q6]. cbn in E1, E2, E3, E4, E5. rewrite E5. cbn [bind]. subst. exact Hp'.
    - destruct (C43_no_loss rg mp sp sol ip pc pp g1 data' g' (si_setting _ _ _ _ _ _ _ Hin) B1 B2 B3 B4 Hp') as (data2 & (ga & gb & Hd2) & HF).
      rewrite (seed_only _ _ _ _ _ _ _ _ ga g1) in Hd2. assert (data2 = data) by congruence. subst data2. exact HF.
  Qed.
End Sparse.

Lemma total_perm f (data data' : list (out_row R)) : Permutation data data' -> total_of f data = total_of f data'.
Proof. induction 1; cbn [total_of]; lra. Qed.
Lemma total_same f data data' : (forall r r', o_state r' = o_state r -> o_choice r' = o_choice r -> o_wage r' = o_wage r -> f r' = f r) ->
  Forall2 (fun r r' : out_row R => o_state r' = o_state r /\ o_choice r' = o_choice r /\ o_wage r' = o_wage r) data data' -> total_of f data' = total_of f data.
Proof. intros Hf H. induction H as [|r r' l l' (E1 & E2 & E3) H IH]; [reflexivity|]. cbn [total_of]. rewrite IH, (Hf r r' E1 E2 E3). reflexivity. Qed.
Lemma sparse_columns label f : In (label, f) checked_sparse -> forall r r', o_state r' = o_state r -> o_choice r' = o_choice r -> o_wage r' = o_wage r -> f r' = f r.
Proof.
  intros H r r' E1 E2 E3. unfold checked_sparse, checked_states in H. cbn [app In] in H.
  repeat (destruct H as [H|H]; [injection H as <- <-; unfold of_state; rewrite ?E1, ?E2, ?E3; reflexivity|]). destruct H.
Qed.

(** *** the update *)
Section Update.
  Variables (rg : rng R) (roots : Z -> list R * list R) (s2 spi : R).
  Notation simulate_of := (simulate_of rg roots s2 spi).
  Notation run_test := (run_test rg roots s2 spi).

  (** stored sums are those of the runs *)
  Definition fresh (h : heap R) (e : vault_entry R) : Prop :=
    arg_ok (ve_spec e) h /\
    (exists data, (forall g, exists g', snd (simulate_of (params_of e) (ve_spec e) (ve_files e) true false g h) = Ok (data, g')) /\ ve_expected e = frame_sum false data) /\
    (exists data, (forall g, exists g', snd (simulate_of (params_of e) (ve_spec e) (ve_files e) false false g h) = Ok (data, g')) /\ ve_unbiased e = frame_sum false data).

  Lemma any_state pa sa files b sparse g0 (h : heap R) data g' : arg_ok sa h -> snd (simulate_of pa sa files b sparse g0 h) = Ok (data, g') ->
    forall g, exists g', snd (simulate_of pa sa files b sparse g h) = Ok (data, g').
  Proof. intros Ha H g. exists g'. rewrite <- H. rewrite <- (app_nil_r h) at 1. apply program_any. exact Ha. Qed.

  Lemma update_entry_spec e g (h : heap R) extra h' r : arg_ok (ve_spec e) h -> update_entry rg roots s2 spi e g (h ++ extra) = (h', r) ->
    (exists extra', h' = h ++ extra') /\
    forall e' g', r = Ok (e', g') -> fresh h e' /\ ve_spec e' = ve_spec e /\ ve_files e' = ve_files e /\ ve_params e' = sort_index (ve_params e).
  Proof.
    intros Ha H. unfold update_entry, hbind, hlift in H. set (pa := ParamsFrame (frame_to_dict (sort_index (ve_params e)))) in *.
    destruct (program_frame rg roots s2 spi pa (ve_spec e) (ve_files e) true false g (h ++ extra)) as (x1 & E1).
    pose proof (program_any rg roots s2 spi pa (ve_spec e) (ve_files e) true false g g h extra Ha) as P1.
    destruct (simulate_of pa (ve_spec e) (ve_files e) true false g (h ++ extra)) as [h1 [[d1 g1]|er]]; cbn [fst snd] in E1, P1; subst h1.
    2: { injection H as <- <-. split; [exists (extra ++ x1); apply app_assoc_reverse|discriminate]. }
    destruct (program_frame rg roots s2 spi pa (ve_spec e) (ve_files e) false false g1 ((h ++ extra) ++ x1)) as (x2 & E2).
    pose proof (program_any rg roots s2 spi pa (ve_spec e) (ve_files e) false false g1 g h (extra ++ x1) Ha) as P2. rewrite app_assoc in P2.
    destruct (simulate_of pa (ve_spec e) (ve_files e) false false g1 ((h ++ extra) ++ x1)) as [h2 [[d2 g2]|er]]; cbn [fst snd] in E2, P2; subst h2.
    2: { injection H as <- <-. split; [exists (extra ++ x1 ++ x2); rewrite <- !app_assoc; reflexivity|discriminate]. }
    injection H as <- <-. split; [exists (extra ++ x1 ++ x2); rewrite <- !app_assoc; reflexivity|].
    intros e' g' H. injection H as <- _. split; [|repeat split]. split; [exact Ha|]. split.
    - exists d1. split; [|reflexivity]. exact (any_state _ _ _ _ _ _ _ _ _ Ha (eq_sym P1)).
    - exists d2. split; [|reflexivity]. exact (any_state _ _ _ _ _ _ _ _ _ Ha (eq_sym P2)).
  Qed.

  Lemma vault_get_in (vault : list (Z * vault_entry R)) i e : vault_get vault i = Ok e -> In (i, e) vault.
  Proof.
    unfold vault_get. destruct (find _ vault) as [[j q]|] eqn:E; [|discriminate]. intros H. injection H as <-. cbn [snd] in *.
    apply find_some in E. destruct E as [E Ej]. apply Z.eqb_eq in Ej. cbn in Ej. subst j. exact E.
  Qed.

  Lemma update_list_spec (vault : list (Z * vault_entry R)) (h : heap R) : (forall i e, vault_get vault i = Ok e -> arg_ok (ve_spec e) h) ->
    forall ids extra g h' r, update_list rg roots s2 spi ids vault g (h ++ extra) = (h', r) ->
    (exists extra', h' = h ++ extra') /\
    forall vault' g', r = Ok (vault', g') -> forall i, In i ids -> exists e e', vault_get vault i = Ok e /\ vault_get vault' i = Ok e' /\ fresh h e' /\
      ve_spec e' = ve_spec e /\ ve_files e' = ve_files e /\ ve_params e' = sort_index (ve_params e).
  Proof.
    intros Hv. induction ids as [|i ids IH]; intros extra g h' r H.
    - cbn in H. injection H as <- <-. split; [exists extra; reflexivity|]. intros v g' _ i [].
    - cbn [update_list] in H. unfold hbind at 1, hlift at 1 in H. destruct (vault_get vault i) as [e|er] eqn:Eg.
      2: { injection H as <- <-. split; [exists extra; reflexivity|discriminate]. }
      unfold hbind at 1 in H. destruct (update_entry rg roots s2 spi e g (h ++ extra)) as [h1 r1] eqn:Eu.
      destruct (update_entry_spec e g h extra h1 r1 (Hv i e Eg) Eu) as [(x1 & ->) Hr1]. destruct r1 as [[e1 g1]|er].
      2: { injection H as <- <-. split; [exists x1; reflexivity|discriminate]. }
      unfold hbind at 1 in H. destruct (update_list rg roots s2 spi ids vault g1 (h ++ x1)) as [h2 r2] eqn:El.
      destruct (IH x1 g1 h2 r2 El) as [(x2 & ->) Hr2]. destruct r2 as [[v2 g2]|er].
      2: { injection H as <- <-. split; [exists x2; reflexivity|discriminate]. }
      unfold hlift in H. injection H as <- <-. split; [exists x2; reflexivity|]. intros v' g' H. injection H as <- <-. intros j Hj.
      unfold vault_get at 2. cbn [find fst]. destruct (Z.eqb_spec i j) as [<-|Hn].
      + exists e, e1. split; [exact Eg|]. split; [reflexivity|]. exact (Hr1 e1 g1 eq_refl).
      + destruct Hj as [Hj|Hj]; [contradiction|]. exact (Hr2 v2 g2 eq_refl j Hj).
  Qed.

  Hypothesis Hrg : rng_ok rg. Hypothesis Htot : rng_total rg.

  Lemma fresh_passes k e (h : heap R) extra g : fresh h e -> (is_sparse k = true -> narrow h e) -> exists g', snd (run_test k e g (h ++ extra)) = Ok g'.
  Proof.
    intros (Ha & (d1 & P1 & E1) & (d2 & P2 & E2)) Hk.
    assert (Hsame : forall data s label f, s = frame_sum false data -> In (label, f) (checked k) -> exists v, assoc_get label s = Some v /\ total_of f data = v).
    { intros data s label f -> Hf. exists (total_of f data). split; [|reflexivity]. unfold frame_sum. rewrite assoc_map_fn.
      - rewrite (column_total label f (checked_cells k label f Hf)). reflexivity.
      - assert (Hl : In label (labels_of k)) by (apply checked_labels; exists f; exact Hf). apply checked_columns in Hl. unfold frame_columns in *. apply in_app_or in Hl.
        apply in_or_app. destruct Hl as [Hl|Hl]; [left; exact Hl|right; destruct (is_sparse k); [destruct Hl|exact Hl]]. }
    destruct (P1 g) as [g1 Q1]. destruct (P2 g) as [g2 Q2]. destruct k.
    - exists g1. apply (run_test_spec rg roots s2 spi test_pyth_simulate e g h extra g1 Ha). exists d1. split; [exact Q1|]. intros label f Hf.
      destruct (Hsame d1 (ve_expected e) label f E1 Hf) as (v & Ev & <-). exists (total_of f d1). split; [exact Ev|apply close_refl].
    - exists g1. apply (run_test_spec rg roots s2 spi test_simulation_func e g h extra g1 Ha). exists d1. split; [exact Q1|]. intros label f Hf.
      destruct (Hsame d1 (ve_expected e) label f E1 Hf) as (v & Ev & <-). exists (total_of f d1). split; [exact Ev|apply close_refl].
    - exists g2. apply (run_test_spec rg roots s2 spi test_simulation_func_unbiased e g h extra g2 Ha). exists d2. split; [exact Q2|]. intros label f Hf.
      destruct (Hsame d2 (ve_unbiased e) label f E2 Hf) as (v & Ev & <-). exists (total_of f d2). split; [exact Ev|apply close_refl].
    - destruct (Hk eq_refl) as (mp & sp & Er & Hr & HF & HB).
      rewrite program_value in Q1 by exact Ha. rewrite Er in Q1.
      destruct (sparse_same rg roots s2 spi Hrg Htot mp sp (ve_files e) true g d1 g1 Hr HF HB Q1) as (d3 & g3 & Q3 & HF2).
      exists g3. apply (run_test_spec rg roots s2 spi test_simulation_func_data_sparse e g h extra g3 Ha). exists d3. split.
      + unfold data_of. cbn [is_biased is_sparse]. rewrite program_value by exact Ha. rewrite Er. exact Q3.
      + intros label f Hf. destruct (Hsame d1 (ve_expected e) label f E1 Hf) as (v & Ev & <-). exists (total_of f d1). split; [exact Ev|].
        rewrite (total_same f d1 d3 (sparse_columns label f Hf) HF2). apply close_refl.
  Qed.

  Lemma tests_pass vault (h : heap R) : forall tests extra g,
    (forall k i, In (k, i) tests -> exists e, vault_get vault i = Ok e /\ fresh h e /\ (is_sparse k = true -> narrow h e)) ->
    exists g', snd (run_tests rg roots s2 spi tests vault g (h ++ extra)) = Ok g'.
  Proof.
    induction tests as [|[k i] tests IH]; intros extra g H; [exists g; reflexivity|]. cbn [run_tests]. unfold hbind at 1, hlift at 1.
    destruct (H k i (or_introl eq_refl)) as (e & -> & Hf & Hn). unfold hbind at 1.
    destruct (fresh_passes k e h extra g Hf Hn) as [g1 E]. destruct (run_test_frame rg roots s2 spi k e g (h ++ extra)) as (x & Ex).
    destruct (run_test k e g (h ++ extra)) as [h1 r]. cbn [fst snd] in *. subst r h1. rewrite <- app_assoc. apply IH.
    intros k' i' Hi. apply H. right. exact Hi.
  Qed.

  (** the update returns *)
  Lemma admissible_runs rows sa files (h : heap R) extra b sparse g : arg_ok sa h -> admissible rows sa files h ->
    exists data g', snd (simulate_of (ParamsFrame (frame_to_dict rows)) sa files b sparse g (h ++ extra)) = Ok (data, g').
  Proof.
    intros Ha (mp & sp & E & Hr & Hf). destruct (program_runs rg roots s2 spi mp sp files b sparse g Hrg Htot Hr Hf) as (ip & pc & pp & zs & ws & g1 & sol & data & g' & _ & _ & _ & _ & _ & H).
    exists data, g'. rewrite (program_any rg roots s2 spi _ sa files b sparse g g h extra Ha). rewrite program_value by exact Ha. rewrite E. exact H.
  Qed.
  Lemma update_entry_runs e g (h : heap R) extra : arg_ok (ve_spec e) h -> admissible (sort_index (ve_params e)) (ve_spec e) (ve_files e) h ->
    exists e' g', snd (update_entry rg roots s2 spi e g (h ++ extra)) = Ok (e', g').
  Proof.
    intros Ha Hok. unfold update_entry, hbind, hlift. set (rows := sort_index (ve_params e)) in *.
    destruct (admissible_runs rows _ _ h extra true false g Ha Hok) as (d1 & g1 & E1).
    destruct (program_frame rg roots s2 spi (ParamsFrame (frame_to_dict rows)) (ve_spec e) (ve_files e) true false g (h ++ extra)) as (x1 & X1).
    destruct (simulate_of (ParamsFrame (frame_to_dict rows)) (ve_spec e) (ve_files e) true false g (h ++ extra)) as [h1 r1]. cbn [fst snd] in E1, X1. subst h1 r1. rewrite <- app_assoc.
    destruct (admissible_runs rows _ _ h (extra ++ x1) false false g1 Ha Hok) as (d2 & g2 & E2).
    destruct (simulate_of (ParamsFrame (frame_to_dict rows)) (ve_spec e) (ve_files e) false false g1 (h ++ extra ++ x1)) as [h2 r2]. cbn [snd] in E2. subst r2. cbn [snd].
    eexists _, _. reflexivity.
  Qed.
  Lemma update_list_runs (vault : list (Z * vault_entry R)) (h : heap R) : forall ids extra g,
    (forall i, In i ids -> exists e, vault_get vault i = Ok e /\ arg_ok (ve_spec e) h /\ admissible (sort_index (ve_params e)) (ve_spec e) (ve_files e) h) ->
    exists vault' g', snd (update_list rg roots s2 spi ids vault g (h ++ extra)) = Ok (vault', g').
  Proof.
    induction ids as [|i ids IH]; intros extra g H; [eexists _, _; reflexivity|]. cbn [update_list]. unfold hbind at 1, hlift at 1.
    destruct (H i (or_introl eq_refl)) as (e & -> & Ha & Hok). destruct (update_entry_runs e g h extra Ha Hok) as (e1 & g1 & E1).
    unfold hbind at 1. destruct (update_entry rg roots s2 spi e g (h ++ extra)) as [h1 r1] eqn:Eu. cbn [snd] in E1. subst r1.
    destruct (update_entry_spec e g h extra h1 _ Ha Eu) as [(x1 & ->) _]. destruct (IH x1 g1 ltac:(intros j Hj; apply H; right; exact Hj)) as (v2 & g2 & E2).
    unfold hbind. destruct (update_list rg roots s2 spi ids vault g1 (h ++ x1)) as [h2 r2]. cbn [snd] in E2. subst r2. eexists _, _. reflexivity.
  Qed.

  (** a fresh entry is determined by its inputs *)
  Lemma fresh_same (h : heap R) e e' : fresh h e -> fresh h e' -> ve_spec e' = ve_spec e -> ve_files e' = ve_files e -> ve_params e' = ve_params e -> rng_state rg -> e' = e.
  Proof.
    intros (_ & (d1 & P1 & E1) & (d2 & P2 & E2)) (_ & (d1' & P1' & E1') & (d2' & P2' & E2')) Es Ef Ep g. destruct e as [s p f x u], e' as [s' p' f' x' u']. unfold params_of in *.
    cbn [ve_spec ve_files ve_params ve_expected ve_unbiased] in *. subst s' f' p'.
    destruct (P1 g) as [a A]. destruct (P1' g) as [a' A']. destruct (P2 g) as [c C]. destruct (P2' g) as [c' C']. assert (d1' = d1) by congruence. assert (d2' = d2) by congruence. congruence.
  Qed.
  Lemma update_keys : forall ids vault g (h : heap R) vault' g', snd (update_list rg roots s2 spi ids vault g h) = Ok (vault', g') -> map fst vault' = ids.
  Proof.
    induction ids as [|i ids IH]; intros vault g h vault' g' H; [cbn in H; injection H as <- <-; reflexivity|].
    cbn [update_list] in H. unfold hbind at 1, hlift at 1 in H. destruct (vault_get vault i) as [e|er]; [|discriminate H].
    unfold hbind at 1 in H. destruct (update_entry rg roots s2 spi e g h) as [h1 [[e1 g1]|er]]; [|discriminate H].
    unfold hbind, hlift in H. pose proof (IH vault g1 h1) as IH'. destruct (update_list rg roots s2 spi ids vault g1 h1) as [h2 [[v2 g2]|er]]; [|discriminate H].
    cbn [snd] in *. injection H as <- <-. cbn [map fst]. f_equal. exact (IH' v2 g2 eq_refl).
  Qed.
  Lemma vault_ext : forall (v v' : list (Z * vault_entry R)), map fst v' = map fst v -> NoDup (map fst v) ->
    (forall i, In i (map fst v) -> vault_get v' i = vault_get v i) -> v' = v.
  Proof.
    induction v as [|[i e] v IH]; intros [|[i' e'] v'] Hk Hn He; try discriminate; [reflexivity|]. cbn [map fst] in *. injection Hk as -> Hk. inversion Hn as [|? ? Hi Hn']; subst.
    f_equal.
    - pose proof (He i (or_introl eq_refl)) as H. unfold vault_get in H. cbn [find fst] in H. rewrite Z.eqb_refl in H. cbn [snd] in H. congruence.
    - apply IH; [exact Hk|exact Hn'|]. intros j Hj. pose proof (He j (or_intror Hj)) as H. unfold vault_get in H |- *. cbn [find fst] in H.
      destruct (Z.eqb_spec i j) as [->|_]; [contradiction|exact H].
  Qed.

  (** tests do not influence each other *)
  Lemma run_test_any k e g g2 (h : heap R) extra g' : arg_ok (ve_spec e) h ->
    snd (run_test k e g (h ++ extra)) = Ok g' -> snd (run_test k e g2 h) = Ok g'.
  Proof.
    intros Ha H. apply (run_test_spec rg roots s2 spi k e g h extra g' Ha) in H. rewrite <- (app_nil_r h). apply (run_test_spec rg roots s2 spi k e g2 h [] g' Ha).
    destruct H as (data & E & H). exists data. split; [|exact H]. rewrite <- E. unfold data_of. rewrite <- (app_nil_r h) at 1. apply program_any. exact Ha.
  Qed.
  Lemma run_test_any2 k e g g2 (h : heap R) extra g' : arg_ok (ve_spec e) h ->
    snd (run_test k e g2 h) = Ok g' -> snd (run_test k e g (h ++ extra)) = Ok g'.
  Proof.
    intros Ha H. rewrite <- (app_nil_r h) in H. apply (run_test_spec rg roots s2 spi k e g2 h [] g' Ha) in H. apply (run_test_spec rg roots s2 spi k e g h extra g' Ha).
    destruct H as (data & E & H). exists data. split; [|exact H]. rewrite <- E. unfold data_of. rewrite <- (app_nil_r h) at 1. apply program_any. exact Ha.
  Qed.
  Lemma tests_each (vault : list (Z * vault_entry R)) (h : heap R) (Hv : forall i e, vault_get vault i = Ok e -> arg_ok (ve_spec e) h) g0 : forall tests extra g,
    ((exists g', snd (run_tests rg roots s2 spi tests vault g (h ++ extra)) = Ok g') <->
     forall k i, In (k, i) tests -> exists e g', vault_get vault i = Ok e /\ snd (run_test k e g0 h) = Ok g').
  Proof.
    induction tests as [|[k i] tests IH]; intros extra g; [split; [intros _ k i []|intros _; exists g; reflexivity]|].
    cbn [run_tests]. unfold hbind at 1, hlift at 1. destruct (vault_get vault i) as [e|er] eqn:Eg.
    2: { split; [intros (g' & H); discriminate H|]. intros H. destruct (H k i (or_introl eq_refl)) as (e & g' & E & _). congruence. }
    unfold hbind at 1. destruct (run_test_frame rg roots s2 spi k e g (h ++ extra)) as (x & Ex). pose proof (Hv i e Eg) as Ha.
    pose proof (fun g' => run_test_any k e g g0 h extra g' Ha) as A1. pose proof (fun g' => run_test_any2 k e g g0 h extra g' Ha) as A2.
    destruct (run_test k e g (h ++ extra)) as [h1 r1]. cbn [fst snd] in *. subst h1. destruct r1 as [g1|er].
    - rewrite <- app_assoc, (IH (extra ++ x) g1). split.
      + intros H k' i' [E|Hi]; [injection E as <- <-; exists e, g1; split; [exact Eg|apply A1; reflexivity]|apply H; exact Hi].
      + intros H k' i' Hi. apply H. right. exact Hi.
    - split; [intros (g' & H); discriminate H|]. intros H. destruct (H k i (or_introl eq_refl)) as (e' & g' & E & H'). assert (e' = e) by congruence. subst e'.
      specialize (A2 g' H'). discriminate A2.
  Qed.
  Lemma tests_last (vault : list (Z * vault_entry R)) (h : heap R) (Hv : forall i e, vault_get vault i = Ok e -> arg_ok (ve_spec e) h) g0 k i e g' : vault_get vault i = Ok e ->
    forall tests extra g, snd (run_tests rg roots s2 spi (tests ++ [(k, i)]) vault g (h ++ extra)) = Ok g' -> snd (run_test k e g0 h) = Ok g'.
  Proof.
    intros Eg. induction tests as [|[k' i'] tests IH]; intros extra g H.
    - cbn [app run_tests] in H. unfold hbind at 1, hlift at 1 in H. rewrite Eg in H. unfold hbind in H.
      pose proof (fun g' => run_test_any k e g g0 h extra g' (Hv i e Eg)) as A1. destruct (run_test k e g (h ++ extra)) as [h1 [g1|er]]; [|discriminate H]. cbn in H, A1. apply A1. exact H.
    - cbn [app run_tests] in H. unfold hbind at 1, hlift at 1 in H. destruct (vault_get vault i') as [e'|er]; [|discriminate H]. unfold hbind at 1 in H.
      destruct (run_test_frame rg roots s2 spi k' e' g (h ++ extra)) as (x & Ex). destruct (run_test k' e' g (h ++ extra)) as [h1 [g1|er]]; [|discriminate H].
      cbn [fst] in Ex. subst h1. rewrite <- app_assoc in H. exact (IH (extra ++ x) g1 H).
  Qed.
End Update.

(** *** sort_index *)
Lemma ascii_compare_lt a b c : Ascii.compare a b = Lt -> Ascii.compare b c = Lt -> Ascii.compare a c = Lt.
Proof. unfold Ascii.compare. rewrite !N.compare_lt_iff. lia. Qed.
Lemma ascii_compare_eq a b : Ascii.compare a b = Eq -> a = b.
Proof. apply Ascii.compare_eq_iff. Qed.
Lemma compare_lt_trans : forall a b c, String.compare a b = Lt -> String.compare b c = Lt -> String.compare a c = Lt.
Proof.
  induction a as [|x a IH]; intros [|y b] [|z c] H1 H2; cbn in *; try discriminate; try reflexivity.
  destruct (Ascii.compare x y) eqn:E1; [|clear H1|discriminate].
  - apply ascii_compare_eq in E1. subst y. destruct (Ascii.compare x z); [|reflexivity|discriminate]. exact (IH b c H1 H2).
  - destruct (Ascii.compare y z) eqn:E2; [|clear H2|discriminate].
    + apply ascii_compare_eq in E2. subst z. rewrite E1. reflexivity.
    + rewrite (ascii_compare_lt x y z E1 E2). reflexivity.
Qed.
Lemma compare_refl a : String.compare a a = Eq.
Proof. pose proof (String.compare_antisym a a) as H. destruct (String.compare a a); [reflexivity|discriminate|discriminate]. Qed.

Notation prow := (string * string * R)%type.
Lemma row_le_trans (a b c : prow) : row_le a b = true -> row_le b c = true -> row_le a c = true.
Proof.
  unfold row_le. destruct a as [[ca na] va], b as [[cb nb] vb], c as [[cc nc] vc]. cbn [fst snd]. intros H1 H2.
  destruct (String.compare ca cb) eqn:E1; [|clear H1|discriminate].
  - apply String.compare_eq_iff in E1. subst cb. destruct (String.compare ca cc); [|reflexivity|discriminate].
    destruct (String.compare na nb) eqn:F1; [apply String.compare_eq_iff in F1; subst nb; exact H2| |discriminate].
    destruct (String.compare nb nc) eqn:F2; [apply String.compare_eq_iff in F2; subst nc; rewrite F1; reflexivity| |discriminate].
    rewrite (compare_lt_trans na nb nc F1 F2). reflexivity.
  - destruct (String.compare cb cc) eqn:E2; [|clear H2|discriminate].
    + apply String.compare_eq_iff in E2. subst cc. rewrite E1. reflexivity.
    + rewrite (compare_lt_trans ca cb cc E1 E2). reflexivity.
Qed.
Lemma row_le_total (a b : prow) : row_le a b = false -> row_le b a = true.
Proof.
  unfold row_le. destruct a as [[ca na] va], b as [[cb nb] vb]. cbn [fst snd]. rewrite (String.compare_antisym cb ca), (String.compare_antisym nb na).
  destruct (String.compare ca cb); cbn [CompOpp]; [|discriminate|reflexivity]. destruct (String.compare na nb); cbn [CompOpp]; [discriminate|discriminate|reflexivity].
Qed.
Notation rle := (fun a b : prow => row_le a b = true).

Lemma insert_perm (r : prow) l : Permutation (r :: l) (insert_row r l).
Proof. induction l as [|s l IH]; [reflexivity|]. cbn [insert_row]. destruct (row_le r s); [reflexivity|]. rewrite perm_swap. constructor. exact IH. Qed.
Lemma insert_sorted (r : prow) l : StronglySorted rle l -> StronglySorted rle (insert_row r l).
Proof.
  induction 1 as [|s l Hs IH Hf]; [constructor; constructor|]. cbn [insert_row]. destruct (row_le r s) eqn:E.
  - constructor; [constructor; assumption|]. constructor; [exact E|]. eapply Forall_impl; [|exact Hf]. intros x Hx. exact (row_le_trans r s x E Hx).
  - constructor; [exact IH|]. apply (Permutation_Forall (insert_perm r l)). constructor; [apply row_le_total; exact E|exact Hf].
Qed.
Lemma sort_perm (rows : list prow) : Permutation rows (sort_index rows).
Proof. induction rows as [|r rows IH]; [reflexivity|]. cbn [sort_index fold_right]. rewrite IH at 1. apply insert_perm. Qed.
Lemma sort_sorted (rows : list prow) : StronglySorted rle (sort_index rows).
Proof. induction rows as [|r rows IH]; [constructor|]. apply insert_sorted. exact IH. Qed.
Lemma insert_head (r : prow) l : Forall (rle r) l -> insert_row r l = r :: l.
Proof. destruct 1 as [|s l Hs Hl]; [reflexivity|]. cbn [insert_row]. rewrite Hs. reflexivity. Qed.
Lemma sort_id (rows : list prow) : StronglySorted rle rows -> sort_index rows = rows.
Proof. induction 1 as [|r rows Hs IH Hf]; [reflexivity|]. cbn [sort_index fold_right]. fold (sort_index rows). rewrite IH. apply insert_head. exact Hf. Qed.
Lemma Forall_filter {A} (Q : A -> Prop) f (l : list A) : Forall Q l -> Forall Q (filter f l).
Proof. induction 1 as [|x l Hx Hl IH]; [constructor|]. cbn [filter]. destruct (f x); [constructor; assumption|exact IH]. Qed.
Lemma filter_insert (P : prow -> bool) r l : StronglySorted rle l -> filter P (insert_row r l) = if P r then insert_row r (filter P l) else filter P l.
Proof.
  induction 1 as [|s l Hs IH Hf]; [cbn; destruct (P r); reflexivity|]. cbn [insert_row]. destruct (row_le r s) eqn:E.
  - cbn [filter]. destruct (P r) eqn:Er; [|reflexivity]. rewrite insert_head; [reflexivity|].
    change (Forall (rle r) (filter P (s :: l))). apply Forall_filter. constructor; [exact E|]. eapply Forall_impl; [|exact Hf]. intros x Hx. exact (row_le_trans r s x E Hx).
  - cbn [filter]. rewrite IH. destruct (P s), (P r); try reflexivity. cbn [insert_row]. rewrite E. reflexivity.
Qed.
Lemma filter_sort (P : prow -> bool) rows : filter P (sort_index rows) = sort_index (filter P rows).
Proof.
  induction rows as [|r rows IH]; [reflexivity|]. cbn [sort_index fold_right filter]. fold (sort_index rows). rewrite filter_insert by apply sort_sorted. rewrite IH.
  destruct (P r); reflexivity.
Qed.

(** rows of a category in the dictionary *)
Lemma cats_in (rows : list prow) : forall cs c, In c (fold_left (fun cs (r : prow) => if existsb (String.eqb (fst (fst r))) cs then cs else cs ++ [fst (fst r)]) rows cs) <->
  In c cs \/ exists r, In r rows /\ fst (fst r) = c.
Proof.
  induction rows as [|r rows IH]; intros cs c; cbn [fold_left].
  - split; [left; assumption|intros [H|(r & [] & _)]; exact H].
  - rewrite IH. destruct (existsb (String.eqb (fst (fst r))) cs) eqn:E.
    + apply existsb_exists in E. destruct E as (x & Hx & Ex). apply String.eqb_eq in Ex. split.
      * intros [H|(q & Hq & Eq)]; [left; exact H|right; exists q; split; [right; exact Hq|exact Eq]].
      * intros [H|(q & [<-|Hq] & Eq)]; [left; exact H|left; congruence|right; exists q; split; assumption].
    + rewrite in_app_iff. cbn [In]. split.
      * intros [[H|[H|[]]]|(q & Hq & Eq)]; [left; exact H|right; exists r; split; [left; reflexivity|exact H]|right; exists q; split; [right; exact Hq|exact Eq]].
      * intros [H|(q & [<-|Hq] & Eq)]; [left; left; exact H|left; right; left; exact Eq|right; exists q; split; assumption].
Qed.
Lemma set_new (d : list (string * R)) k v : ~ In k (map fst d) -> assoc_set k v d = d ++ [(k, v)].
Proof.
  induction d as [|[k' v'] d IH]; intros H; [reflexivity|]. cbn [assoc_set map fst In app] in *. destruct (String.eqb_spec k' k) as [->|Hn]; [exfalso; apply H; left; reflexivity|].
  rewrite IH by tauto. reflexivity.
Qed.
Lemma fold_rows (l : list prow) : forall d, NoDup (map fst d ++ map (fun r => snd (fst r)) l) ->
  fold_left (fun d (r : prow) => assoc_set (snd (fst r)) (snd r) d) l d = d ++ map (fun r => (snd (fst r), snd r)) l.
Proof.
  induction l as [|r l IH]; intros d H; [symmetry; apply app_nil_r|]. cbn [fold_left map]. cbn [map] in H.
  assert (Hn : ~ In (snd (fst r)) (map fst d)).
  { intros Hi. apply NoDup_remove_2 in H. apply H. apply in_or_app. left. exact Hi. }
  rewrite set_new by exact Hn. rewrite IH; [rewrite <- app_assoc; reflexivity|]. rewrite map_app. cbn [map fst]. rewrite <- app_assoc. exact H.
Qed.
Lemma names_distinct (rows : list prow) c : one_row_each rows -> NoDup (names_of c rows).
Proof.
  unfold one_row_each, names_of. induction rows as [|[[c' n] v] rows IH]; intros H; [constructor|]. cbn [map filter fst] in *. inversion H as [|x l Hx Hl]; subst.
  destruct (String.eqb_spec c' c) as [->|Hn]; [|apply IH; exact Hl]. cbn [map fst snd]. constructor; [|apply IH; exact Hl].
  intros Hi. apply Hx. apply in_map_iff in Hi. destruct Hi as ([[c2 n2] v2] & E & Hi). apply filter_In in Hi. destruct Hi as [Hi Ec]. cbn in E, Ec. apply String.eqb_eq in Ec. subst.
  apply in_map_iff. exists (c, n, v2). split; [reflexivity|exact Hi].
Qed.
Lemma dict_rows (rows : list prow) c : one_row_each rows -> assoc_get c (frame_to_dict rows)
  = let l := map (fun r => (snd (fst r), snd r)) (filter (fun r => String.eqb (fst (fst r)) c) rows) in match l with [] => None | _ => Some l end.
Proof.
  intros H. unfold frame_to_dict. rewrite assoc_map_get. rewrite fold_rows by (apply names_distinct; exact H). cbn [app].
  destruct (existsb (String.eqb c) _) eqn:E.
  - apply existsb_exists in E. destruct E as (x & Hx & Ex). apply String.eqb_eq in Ex. subst x. apply cats_in in Hx. destruct Hx as [[]|(r & Hr & Er)].
    assert (Hi : In r (filter (fun r => String.eqb (fst (fst r)) c) rows)) by (apply filter_In; split; [exact Hr|rewrite Er; apply String.eqb_refl]).
    destruct (filter (fun r : prow => String.eqb (fst (fst r)) c) rows); [destruct Hi|reflexivity].
  - destruct (filter (fun r : prow => String.eqb (fst (fst r)) c) rows) as [|r l] eqn:F; [reflexivity|exfalso].
    assert (Hi : In r (filter (fun r => String.eqb (fst (fst r)) c) rows)) by (rewrite F; left; reflexivity). apply filter_In in Hi. destruct Hi as [Hr Er]. apply String.eqb_eq in Er.
    enough (existsb (String.eqb c) (fold_left (fun cs (r : prow) => if existsb (String.eqb (fst (fst r))) cs then cs else cs ++ [fst (fst r)]) rows []) = true) by congruence.
    apply existsb_exists. exists c. split; [apply cats_in; right; exists r; split; assumption|apply String.eqb_refl].
Qed.
Lemma filter_perm {A} (f : A -> bool) l l' : Permutation l l' -> Permutation (filter f l) (filter f l').
Proof.
  induction 1 as [|x l l' H IH|x y l|l l' l'' H1 IH1 H2 IH2]; cbn [filter]; [constructor|destruct (f x); [constructor|]; exact IH|destruct (f x), (f y); try reflexivity; apply perm_swap|].
  exact (Permutation_trans IH1 IH2).
Qed.
Lemma perm_rows (rows rows' : list prow) : one_row_each rows -> Permutation rows rows' -> same_rows (frame_to_dict rows) (frame_to_dict rows').
Proof.
  intros H P c. assert (H' : one_row_each rows') by (unfold one_row_each in *; eapply Permutation_NoDup; [apply Permutation_map; exact P|exact H]).
  rewrite (dict_rows rows c H), (dict_rows rows' c H'). cbv zeta.
  assert (P2 : Permutation (map (fun r : prow => (snd (fst r), snd r)) (filter (fun r => String.eqb (fst (fst r)) c) rows)) (map (fun r => (snd (fst r), snd r)) (filter (fun r => String.eqb (fst (fst r)) c) rows')))
    by (apply Permutation_map, filter_perm; exact P).
  pose proof (names_distinct rows c H) as Hd. unfold names_of in Hd.
  assert (Hn : NoDup (map fst (map (fun r : prow => (snd (fst r), snd r)) (filter (fun r => String.eqb (fst (fst r)) c) rows)))) by (rewrite map_map; exact Hd).
  destruct (map _ (filter _ rows)) as [|x l].
  - apply Permutation_nil in P2. rewrite P2. exact I.
  - destruct (map _ (filter _ rows')) as [|y l']; [apply Permutation_sym, Permutation_nil in P2; discriminate|]. split; assumption.
Qed.
Lemma shares_kept (rows : list prow) : one_row_each rows -> StronglySorted before (names_of "shares" rows) ->
  assoc_get "shares" (frame_to_dict (sort_index rows)) = assoc_get "shares" (frame_to_dict rows).
Proof.
  intros H Hs. assert (H' : one_row_each (sort_index rows)) by (unfold one_row_each in *; eapply Permutation_NoDup; [apply Permutation_map, sort_perm|exact H]).
  rewrite (dict_rows _ _ H), (dict_rows _ _ H'), filter_sort. rewrite sort_id; [reflexivity|].
  unfold names_of in Hs. assert (Hc : Forall (fun r : prow => fst (fst r) = "shares") (filter (fun r => String.eqb (fst (fst r)) "shares") rows)).
  { apply Forall_forall. intros r Hr. apply filter_In in Hr. apply String.eqb_eq. apply Hr. }
  induction Hc as [|r l Er Hl IH]; [constructor|]. cbn [map] in Hs. inversion Hs as [|x m Hm Hf]; subst. constructor; [apply IH; exact Hm|].
  apply Forall_forall. intros q Hq. unfold row_le. rewrite Er. rewrite Forall_forall in Hl. rewrite (Hl q Hq). rewrite compare_refl.
  rewrite Forall_forall in Hf. pose proof (Hf (snd (fst q)) (in_map (fun r : prow => snd (fst r)) l q Hq)) as Hb. unfold before in Hb.
  destruct (String.compare (snd (fst r)) (snd (fst q))); [reflexivity|reflexivity|contradiction].
Qed.

(** the specification depends on the frame through the number of rows of category shares *)
Lemma spec_shares sa df df' (h : heap R) : assoc_get "shares" df' = assoc_get "shares" df -> read_model_spec_init sa df' h = read_model_spec_init sa df h.
Proof. intros E. unfold read_model_spec_init, read_model_spec_flat, expand_model_spec_dict. rewrite E. reflexivity. Qed.

Lemma sorted_run rg roots s2 spi (rows : list prow) sa files b sparse g (h : heap R) : arg_ok sa h ->
  one_row_each rows -> StronglySorted before (names_of "shares" rows) ->
  forall data g', snd (simulate_of rg roots s2 spi (ParamsFrame (frame_to_dict (sort_index rows))) sa files b sparse g h) = Ok (data, g') <->
  snd (simulate_of rg roots s2 spi (ParamsFrame (frame_to_dict rows)) sa files b sparse g h) = Ok (data, g').
Proof.
  intros Ha H1 H2 data g'. rewrite !program_value by exact Ha. rewrite !read_model_value.
  assert (H1' : one_row_each (sort_index rows)) by (unfold one_row_each in *; eapply Permutation_NoDup; [apply Permutation_map, sort_perm|exact H1]).
  pose proof (shares_kept rows H1 H2) as Es.
  pose proof (spec_shares sa (frame_to_dict rows) (frame_to_dict (sort_index rows)) h Es) as Ep.
  assert (Hdf : forall df0 df mp, read_model_params_init (ParamsFrame df0) = Ok (df, mp) -> df = df0).
  { intros df0 df mp H. unfold read_model_params_init in H. cbn [bind] in H. apply bind_ok in H. destruct H as ((d & der) & _ & H). apply bind_ok in H. destruct H as (m & _ & H). congruence. }
  split.
  - destruct (read_model_params_init (ParamsFrame (frame_to_dict (sort_index rows)))) as [(df & mp)|e] eqn:E; [|discriminate].
    pose proof (Hdf _ _ _ E). subst df. rewrite (C85_order _ (frame_to_dict rows) mp (perm_rows _ _ H1' (Permutation_sym (sort_perm rows))) (eq_sym Es) E). rewrite Ep. auto.
  - destruct (read_model_params_init (ParamsFrame (frame_to_dict rows))) as [(df & mp)|e] eqn:E; [|discriminate].
    pose proof (Hdf _ _ _ E). subst df. rewrite (C85_order _ (frame_to_dict (sort_index rows)) mp (perm_rows _ _ H1 (sort_perm rows)) Es E). rewrite Ep. auto.
Qed.

Lemma sorted_read (rows : list prow) sa (h : heap R) mp sp : one_row_each rows -> StronglySorted before (names_of "shares" rows) ->
  snd (read_model (ParamsFrame (frame_to_dict rows)) sa h) = Ok (mp, sp) -> snd (read_model (ParamsFrame (frame_to_dict (sort_index rows))) sa h) = Ok (mp, sp).
Proof.
  intros H1 H2 H. rewrite read_model_value in H |- *. pose proof (shares_kept rows H1 H2) as Es.
  destruct (read_model_params_init (ParamsFrame (frame_to_dict rows))) as [(df & mp0)|e] eqn:E; [|discriminate].
  assert (df = frame_to_dict rows).
  { unfold read_model_params_init in E. cbn [bind] in E. apply bind_ok in E. destruct E as ((d & der) & _ & E). apply bind_ok in E. destruct E as (m & _ & E). congruence. }
  subst df. rewrite (C85_order _ (frame_to_dict (sort_index rows)) mp0 (perm_rows _ _ H1 (sort_perm rows)) Es E).
  rewrite (spec_shares sa (frame_to_dict rows) (frame_to_dict (sort_index rows)) h Es). exact H.
Qed.
Lemma sorted_admissible (rows : list prow) sa files (h : heap R) : one_row_each rows -> StronglySorted before (names_of "shares" rows) ->
  admissible rows sa files h -> admissible (sort_index rows) sa files h.
Proof. intros H1 H2 (mp & sp & E & H). exists mp, sp. split; [exact (sorted_read rows sa h mp sp H1 H2 E)|exact H]. Qed.

(** order of categories and names *)
Lemma sorted_categories (rows : list prow) : StronglySorted rle rows -> StronglySorted before (map (fun r => fst (fst r)) rows).
Proof.
  induction 1 as [|r rows Hs IH Hf]; [constructor|]. cbn [map]. constructor; [exact IH|]. apply Forall_forall. intros c Hc. apply in_map_iff in Hc. destruct Hc as (q & <- & Hq).
  rewrite Forall_forall in Hf. pose proof (Hf q Hq) as H. unfold row_le in H. unfold before. destruct (String.compare (fst (fst r)) (fst (fst q))); congruence.
Qed.
Lemma sorted_names (rows : list prow) c : StronglySorted rle rows -> StronglySorted before (names_of c rows).
Proof.
  unfold names_of. induction 1 as [|r rows Hs IH Hf]; [constructor|]. cbn [filter]. destruct (String.eqb_spec (fst (fst r)) c) as [Er|]; [|exact IH]. cbn [map]. constructor; [exact IH|].
  apply Forall_forall. intros n Hn. apply in_map_iff in Hn. destruct Hn as (q & <- & Hq). apply filter_In in Hq. destruct Hq as [Hq Eq]. apply String.eqb_eq in Eq.
  rewrite Forall_forall in Hf. pose proof (Hf q Hq) as H. unfold row_le in H. rewrite Er, Eq, compare_refl in H. unfold before. destruct (String.compare (snd (fst r)) (snd (fst q))); congruence.
Qed.
