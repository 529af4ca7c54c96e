(** Property theorems C102: the regression tests (test_regression.py) after an update of their
    vault (update_vault.py). *)
From Coq Require Import Reals Lra Lia ZArith List String Permutation Sorting.Sorted.
From Verif Require Import Base Num M_Params M_Exog M_StateSpace M_Solve M_Sim M_Spec M_Main M_RandomInit M_Regression S_Exog S_Spec S_Main S_Sim S_SimInputs S_Solver S_Rng S_Entries S_Regression
  L_Num L_Spec L_SpecField L_Params L_Entries L_Main L_Rng L_SimExample L_Regression X_Consistency T_Sim T_Main T_Exog T_Entries.
Import ListNotations.
Local Open Scope string_scope.
Local Open Scope list_scope.
Open Scope R_scope.

(** C102, the verdict of a test: the program returns, and the total of every checked column is
    close to the stored number *)
Theorem C102_verdict :
  forall rg roots s2 spi k e g (h : heap R) extra g', arg_ok (ve_spec e) h ->
  (snd (run_test rg roots s2 spi k e g (h ++ extra)) = Ok g' <->
   exists data, snd (simulate_of rg roots s2 spi (ParamsFrame (frame_to_dict (ve_params e))) (ve_spec e) (ve_files e) (is_biased k) (is_sparse k) g h) = Ok (data, g') /\
     forall label f, In (label, f) (checked k) -> exists v, stored k e label v /\ close (total_of f data) v).
Proof. exact run_test_spec. Qed.
Print Assumptions C102_verdict.

(** C102: after an update, any tests pass, in any order and however often, whatever the state of
    the generator and whatever objects were created in between; the test with sparse data under
    the condition that its columns fit into bytes *)
Theorem C102_tests_pass :
  forall rg roots s2 spi vault (h : heap R) g h' vault' g', rng_ok rg -> rng_total rg ->
  (forall i e, vault_get vault i = Ok e -> arg_ok (ve_spec e) h) ->
  update_sim_objectes rg roots s2 spi vault g h = (h', Ok (vault', g')) ->
  forall tests extra g0,
  (forall k i, In (k, i) tests -> (0 <= i < 100)%Z) ->
  (forall i e', In (test_simulation_func_data_sparse, i) tests -> vault_get vault' i = Ok e' -> narrow h e') ->
  exists g1, snd (run_tests rg roots s2 spi tests vault' g0 (h' ++ extra)) = Ok g1.
Proof.
  intros rg roots s2 spi vault h g h' vault' g' Hrg Htot Hv Hu tests extra g0 Hi Hn.
  unfold update_sim_objectes in Hu. rewrite <- (app_nil_r h) in Hu.
  destruct (update_list_spec rg roots s2 spi vault h Hv (range 100) [] g h' _ Hu) as [(x & ->) H].
  rewrite <- app_assoc. apply (tests_pass rg roots s2 spi Hrg Htot).
  intros k i Hk. assert (Hr : In i (range 100)) by (apply in_range; apply (Hi k i Hk)).
  destruct (H vault' g' eq_refl i Hr) as (e & e' & _ & Ee' & Hf & _). exists e'. split; [exact Ee'|]. split; [exact Hf|].
  intros Hs. apply (Hn i e'); [|exact Ee']. destruct k; try discriminate Hs. exact Hk.
Qed.
Print Assumptions C102_tests_pass.

(** tests do not influence each other: several tests pass one after the other if and only if
    each passes alone, and they leave the generator as the last one leaves it *)
Theorem C102_independent :
  forall rg roots s2 spi vault (h : heap R) tests extra g g0,
  (forall i e, vault_get vault i = Ok e -> arg_ok (ve_spec e) h) ->
  ((exists g', snd (run_tests rg roots s2 spi tests vault g (h ++ extra)) = Ok g') <->
   forall k i, In (k, i) tests -> exists e g', vault_get vault i = Ok e /\ snd (run_test rg roots s2 spi k e g0 h) = Ok g') /\
  forall k i e g', vault_get vault i = Ok e -> snd (run_tests rg roots s2 spi (tests ++ [(k, i)]) vault g (h ++ extra)) = Ok g' ->
    snd (run_test rg roots s2 spi k e g0 h) = Ok g'.
Proof.
  intros rg roots s2 spi vault h tests extra g g0 Hv. split; [exact (tests_each rg roots s2 spi vault h Hv g0 tests extra g)|].
  intros k i e g' He. exact (tests_last rg roots s2 spi vault h Hv g0 k i e g' He tests extra g).
Qed.
Print Assumptions C102_independent.

(** the update changes the order of the parameters and the stored numbers only *)
Theorem C102_update_keeps :
  forall rg roots s2 spi vault (h : heap R) g h' vault' g',
  (forall i e, vault_get vault i = Ok e -> arg_ok (ve_spec e) h) ->
  update_sim_objectes rg roots s2 spi vault g h = (h', Ok (vault', g')) ->
  (exists extra, h' = h ++ extra) /\ map fst vault' = range 100 /\
  forall i, (0 <= i < 100)%Z -> exists e e', vault_get vault i = Ok e /\ vault_get vault' i = Ok e' /\
    ve_spec e' = ve_spec e /\ ve_files e' = ve_files e /\ Permutation (ve_params e) (ve_params e') /\
    StronglySorted before (map (fun r => fst (fst r)) (ve_params e')) /\ forall c, StronglySorted before (names_of c (ve_params e')).
Proof.
  intros rg roots s2 spi vault h g h' vault' g' Hv Hu. unfold update_sim_objectes in Hu. rewrite <- (app_nil_r h) in Hu.
  destruct (update_list_spec rg roots s2 spi vault h Hv (range 100) [] g h' _ Hu) as [Hx H]. split; [exact Hx|]. split.
  { apply (update_keys rg roots s2 spi (range 100) vault g (h ++ []) vault' g'). rewrite Hu. reflexivity. }
  intros i Hi. destruct (H vault' g' eq_refl i ltac:(apply in_range; exact Hi)) as (e & e' & E & E' & _ & Es & Ef & Ep). exists e, e'. rewrite Ep.
  refine (conj E (conj E' (conj Es (conj Ef (conj (sort_perm _) (conj _ _)))))).
  - apply sorted_categories. apply sort_sorted.
  - intros c. apply sorted_names. apply sort_sorted.
Qed.
Print Assumptions C102_update_keeps.

(** the numbers stored are the totals of all columns of the data of the two runs *)
Theorem C102_stored_totals :
  forall rg roots s2 spi vault (h : heap R) g h' vault' g',
  (forall i e, vault_get vault i = Ok e -> arg_ok (ve_spec e) h) ->
  update_sim_objectes rg roots s2 spi vault g h = (h', Ok (vault', g')) ->
  forall i, (0 <= i < 100)%Z -> exists e' biased unbiased, vault_get vault' i = Ok e' /\
    (forall g0, exists g1, snd (simulate_of rg roots s2 spi (ParamsFrame (frame_to_dict (ve_params e'))) (ve_spec e') (ve_files e') true false g0 h) = Ok (biased, g1)) /\
    (forall g0, exists g1, snd (simulate_of rg roots s2 spi (ParamsFrame (frame_to_dict (ve_params e'))) (ve_spec e') (ve_files e') false false g0 h) = Ok (unbiased, g1)) /\
    (forall label f, In (label, f) all_columns ->
       assoc_get label (ve_expected e') = Some (total_of f biased) /\ assoc_get label (ve_unbiased e') = Some (total_of f unbiased)) /\
    (forall label, In label (map fst (ve_expected e')) \/ In label (map fst (ve_unbiased e')) -> exists f, In (label, f) all_columns).
Proof.
  intros rg roots s2 spi vault h g h' vault' g' Hv Hu i Hi. unfold update_sim_objectes in Hu. rewrite <- (app_nil_r h) in Hu.
  destruct (update_list_spec rg roots s2 spi vault h Hv (range 100) [] g h' _ Hu) as [_ H].
  destruct (H vault' g' eq_refl i ltac:(apply in_range; exact Hi)) as (e & e' & _ & E' & (Ha & (d1 & P1 & E1) & (d2 & P2 & E2)) & _).
  exists e', d1, d2. split; [exact E'|]. split; [exact P1|]. split; [exact P2|]. rewrite E1, E2. split.
  - intros label f Hf. split; apply frame_sum_total; exact Hf.
  - intros label [Hl|Hl]; exact (frame_sum_labels _ _ Hl).
Qed.
Print Assumptions C102_stored_totals.

(** a second update changes nothing *)
Theorem C102_update_again :
  forall rg roots s2 spi vault (h : heap R) g h' vault' g' g0 h2 vault2 g2,
  (forall i e, vault_get vault i = Ok e -> arg_ok (ve_spec e) h) ->
  update_sim_objectes rg roots s2 spi vault g h = (h', Ok (vault', g')) ->
  update_sim_objectes rg roots s2 spi vault' g0 h' = (h2, Ok (vault2, g2)) -> vault2 = vault'.
Proof.
  intros rg roots s2 spi vault h g h' vault' g' g0 h2 vault2 g2 Hv Hu Hu2. unfold update_sim_objectes in *. rewrite <- (app_nil_r h) in Hu.
  destruct (update_list_spec rg roots s2 spi vault h Hv (range 100) [] g h' _ Hu) as [(x & ->) H].
  assert (K1 : map fst vault' = range 100) by (apply (update_keys rg roots s2 spi (range 100) vault g (h ++ []) vault' g'); rewrite Hu; reflexivity).
  assert (K2 : map fst vault2 = range 100) by (apply (update_keys rg roots s2 spi (range 100) vault' g0 (h ++ x) vault2 g2); rewrite Hu2; reflexivity).
  assert (Hv' : forall i e, vault_get vault' i = Ok e -> arg_ok (ve_spec e) h).
  { intros i e He. pose proof (vault_get_in vault' i e He) as Hin. apply (in_map fst) in Hin. cbn [fst] in Hin. rewrite K1 in Hin.
    destruct (H vault' g' eq_refl i Hin) as (e0 & e' & E0 & E' & (Ha & _) & _). assert (e' = e) by congruence. subst e'. exact Ha. }
  destruct (update_list_spec rg roots s2 spi vault' h Hv' (range 100) x g0 h2 _ Hu2) as [_ H2].
  apply vault_ext; [congruence|rewrite K1; apply NoDup_range2|]. rewrite K1. intros i Hi.
  destruct (H vault' g' eq_refl i Hi) as (e & e' & _ & E' & F & _ & _ & Ep).
  destruct (H2 vault2 g2 eq_refl i Hi) as (e1 & e2 & E1 & E2 & F2 & Es2 & Ef2 & Ep2).
  assert (e1 = e') by congruence. subst e1. rewrite E2, E'. f_equal. apply (fresh_same rg roots s2 spi h e' e2 F F2 Es2 Ef2); [|exact g].
  rewrite Ep2, Ep. apply sort_id. apply sort_sorted.
Qed.
Print Assumptions C102_update_again.

(** the update succeeds if the program can be run with every entry *)
Theorem C102_update_runs :
  forall rg roots s2 spi vault (h : heap R) g, rng_ok rg -> rng_total rg ->
  (forall i, (0 <= i < 100)%Z -> exists e, vault_get vault i = Ok e /\ arg_ok (ve_spec e) h /\ one_row_each (ve_params e) /\
     StronglySorted before (names_of "shares" (ve_params e)) /\ admissible (ve_params e) (ve_spec e) (ve_files e) h) ->
  exists vault' g', snd (update_sim_objectes rg roots s2 spi vault g h) = Ok (vault', g').
Proof.
  intros rg roots s2 spi vault h g Hrg Htot H. unfold update_sim_objectes. rewrite <- (app_nil_r h). apply (update_list_runs rg roots s2 spi Hrg Htot).
  intros i Hi. apply in_range in Hi. destruct (H i Hi) as (e & E & Ha & H1 & H2 & Hok). exists e. split; [exact E|]. split; [exact Ha|]. apply sorted_admissible; assumption.
Qed.
Print Assumptions C102_update_runs.

(** sorting the parameters by category and name does not change the data if no row is given
    twice and the rows of category shares are in the order of their names *)
Theorem C102_sorting :
  forall rg roots s2 spi rows sa files biased sparse g (h : heap R), arg_ok sa h ->
  one_row_each rows -> StronglySorted before (names_of "shares" rows) ->
  forall data g', snd (simulate_of rg roots s2 spi (ParamsFrame (frame_to_dict (sort_index rows))) sa files biased sparse g h) = Ok (data, g') <->
  snd (simulate_of rg roots s2 spi (ParamsFrame (frame_to_dict rows)) sa files biased sparse g h) = Ok (data, g').
Proof. exact sorted_run. Qed.
Print Assumptions C102_sorting.

(** otherwise another type may get a share: sorting exchanges the shares of types 2 and 10 *)
Definition share_rows : list (string * string * R) := [("shares", "share_2", 1/4); ("shares", "share_10", 1/2)].
Theorem C102_sorting_shares_refuted : exists rows : list (string * string * R), one_row_each rows /\
  assoc_get "shares" (frame_to_dict rows) = Some [("share_2", 1/4); ("share_10", 1/2)] /\
  assoc_get "shares" (frame_to_dict (sort_index rows)) = Some [("share_10", 1/2); ("share_2", 1/4)].
Proof.
  exists share_rows. split; [repeat constructor; cbn; intuition discriminate|]. split; reflexivity.
Qed.
Print Assumptions C102_sorting_shares_refuted.

(** the tests compare totals: rows in another order give the same verdict *)
Theorem C102_order_unseen :
  forall f (data data' : list (out_row R)), Permutation data data' -> total_of f data = total_of f data'.
Proof. exact total_perm. Qed.
Print Assumptions C102_order_unseen.

(** *** a vault of 100 entries *)
Section Copies.
  Variables (rows : list (string * string * R)) (sa : spec_arg R) (files : exog_files R) (h : heap R) (mp : model_params R) (sp : model_spec R).
  Hypothesis Ha : arg_ok sa h.
  Hypothesis H1 : one_row_each rows.
  Hypothesis H2 : StronglySorted before (names_of "shares" rows).
  Hypothesis Hread : snd (read_model (ParamsFrame (frame_to_dict rows)) sa h) = Ok (mp, sp).
  Hypothesis Hr : runnable mp sp.
  Hypothesis Hf : files_ok sp files.
  Hypothesis Hb : fits_bytes sp.
  Definition copies_of : list (Z * vault_entry R) := map (fun i => (i, mkEntry sa rows files [] [])) (range 100).

  Lemma copies_get i e : vault_get copies_of i = Ok e -> e = mkEntry sa rows files [] [].
  Proof. intros H. apply vault_get_in in H. unfold copies_of in H. apply in_map_iff in H. destruct H as (j & E & _). congruence. Qed.
  Lemma copies_have i : (0 <= i < 100)%Z -> vault_get copies_of i = Ok (mkEntry sa rows files [] []).
  Proof.
    intros Hi. destruct (vault_get copies_of i) as [e|er] eqn:E; [f_equal; exact (copies_get i e E)|exfalso].
    unfold vault_get in E. destruct (find _ copies_of) as [q|] eqn:F; [discriminate|].
    pose proof (find_none _ _ F (i, mkEntry sa rows files [] [])) as H. cbn [fst] in H. rewrite Z.eqb_refl in H. discriminate H.
    unfold copies_of. apply in_map_iff. exists i. split; [reflexivity|apply in_range; exact Hi].
  Qed.

  Lemma copies_pass rg roots s2 spi g : rng_ok rg -> rng_total rg -> exists h' vault' g',
    update_sim_objectes rg roots s2 spi copies_of g h = (h', Ok (vault', g')) /\
    forall tests g0, (forall k i, In (k, i) tests -> (0 <= i < 100)%Z) ->
    exists g1, snd (run_tests rg roots s2 spi tests vault' g0 h') = Ok g1.
  Proof.
    intros Hrg Htot.
    assert (Hv : forall i e, vault_get copies_of i = Ok e -> arg_ok (ve_spec e) h) by (intros i e He; rewrite (copies_get i e He); exact Ha).
    destruct (C102_update_runs rg roots s2 spi copies_of h g Hrg Htot) as (vault' & g' & Hu).
    { intros i Hi. exists (mkEntry sa rows files [] []). split; [exact (copies_have i Hi)|]. refine (conj Ha (conj H1 (conj H2 _))). exists mp, sp. exact (conj Hread (conj Hr Hf)). }
    destruct (update_sim_objectes rg roots s2 spi copies_of g h) as [h' r] eqn:Eu. cbn [snd] in Hu. subst r.
    exists h', vault', g'. split; [reflexivity|]. intros tests g0 Hi. rewrite <- (app_nil_r h').
    apply (C102_tests_pass rg roots s2 spi copies_of h g h' vault' g' Hrg Htot Hv Eu tests [] g0 Hi).
    intros i e' Hk He'. pose proof (Hi _ _ Hk) as Hi'.
    unfold update_sim_objectes in Eu. rewrite <- (app_nil_r h) in Eu.
    destruct (update_list_spec rg roots s2 spi copies_of h Hv (range 100) [] g h' _ Eu) as [_ H].
    destruct (H vault' g' eq_refl i ltac:(apply in_range; exact Hi')) as (e & e2 & E1 & E2 & _ & Es & Ef & Ep). assert (e2 = e') by congruence. subst e2.
    pose proof (copies_get i e E1) as ->. unfold narrow, params_of. rewrite Es, Ef, Ep. cbn [ve_spec ve_params ve_files].
    exists mp, sp. split; [exact (sorted_read rows sa h mp sp H1 H2 Hread)|]. exact (conj Hr (conj Hf Hb)).
  Qed.
End Copies.

Lemma ct_one : one_row_each ct_rows.
Proof.
  unfold one_row_each. let x := eval lazy in (map fst ct_rows) in change (NoDup x). repeat constructor; cbn [In]; intuition discriminate.
Qed.
Lemma ct_admissible : exists mp sp, ct_spec sp /\ snd (read_model ct_params (SpecDict 0) ct_heap) = Ok (mp, sp) /\ runnable mp sp /\ files_ok sp ct_files.
Proof.
  destruct ct_read as (mp & Hread & P). destruct (complete_read (SpecDict 0) ct_heap ct_heap 0%nat ct_root ct_D ct_dict eq_refl ct_complete) as (sp & E & Ag).
  pose proof (ct_fields _ _ Ag ct_no_types) as F. exists mp, sp. split; [exact F|]. split; [rewrite read_model_value, Hread, E; reflexivity|]. split; [|exact (ct_files_ok sp F)].
  exact (consistent_one (SpecDict 0) ct_heap ct_heap 0%nat ct_root ct_D ct_dict ct_params mp sp ct_files eq_refl ct_complete Ag Hread ct_no_types (ct_usable sp F) (ct_files_ok sp F)).
Qed.

(** 100 copies of the inputs of the consistency test: the vault is updated, and then every test
    passes for every entry *)
Example C102_example : exists h' vault' g',
  update_sim_objectes ex_rng ex_roots (sqrt 2) (sqrt PI) (copies_of ct_rows (SpecDict 0) ct_files) 0%Z ct_heap = (h', Ok (vault', g')) /\
  forall tests g0, (forall k i, In (k, i) tests -> (0 <= i < 100)%Z) ->
  exists g1, snd (run_tests ex_rng ex_roots (sqrt 2) (sqrt PI) tests vault' g0 h') = Ok g1.
Proof.
  destruct ct_admissible as (mp & sp & F & E & Hr & Hf).
  apply (copies_pass ct_rows (SpecDict 0) ct_files ct_heap mp sp ct_arg ct_one); [|exact E|exact Hr|exact Hf| |exact ex_rng_ok|exact ex_rng_total].
  - change (names_of "shares" ct_rows) with (@nil string). constructor.
  - unfold fits_bytes. rewrite (cs_periods _ F), (cs_levels _ F), (cs_age_max _ F), (cs_exp_init _ F). lia.
Qed.

(** both lists of labels name columns of the data; a test of 21 columns and one of 10 *)
Example C102_checked : List.length checked_full = 21%nat /\ List.length checked_sparse = 10%nat /\
  NoDup (map fst checked_full) /\ NoDup (map fst checked_sparse).
Proof. repeat split; repeat constructor; cbn; intuition discriminate. Qed.
