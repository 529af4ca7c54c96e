(** Property theorems C01 - C05: the discrete state space, its index, the transition
    table, child ageing and covariates. *)
From Coq Require Import Reals Lra.
From Verif Require Import Base Num M_Params M_StateSpace S_StateSpace L_StateSpace X_Example.
Open Scope Z_scope.

(** C01: the construction never raises ... *)
Theorem C01_total : forall {T} {NT : Num T} (sp : model_spec T),
  sizes_ok sp -> exists ss, create_state_space_objects sp = Ok ss.
Proof. intros T NT sp. exact (ss_total sp). Qed.
Print Assumptions C01_total.

(** ... every combination of state values is found at the row where it is listed,
    never at the missing marker ... *)
Theorem C01_lookup : forall {T} {NT : Num T} (sp : model_spec T) ss,
  sizes_ok sp -> create_state_space_objects sp = Ok ss ->
  forall p e l t a m, in_space sp p e l t a m ->
  exists i, ix_get (ss_indexer ss) (p, e, l, t, a, m) = Ok i /\
    0 <= i < zlen (ss_states ss) /\
    np_get (ss_states ss) i = Ok [p; e; l; t; a; m] /\ i <> -99.
Proof. intros T NT sp ss H1 H2. exact (ss_lookup sp H1 ss H2). Qed.
Print Assumptions C01_lookup.

(** ... every row is an admissible combination found under its own index ... *)
Theorem C01_rows : forall {T} {NT : Num T} (sp : model_spec T) ss,
  sizes_ok sp -> create_state_space_objects sp = Ok ss ->
  forall i r, 0 <= i -> np_get (ss_states ss) i = Ok r ->
  exists p e l t a m, in_space sp p e l t a m /\ r = [p; e; l; t; a; m] /\
    ix_get (ss_indexer ss) (p, e, l, t, a, m) = Ok i.
Proof. intros T NT sp ss H1 H2. exact (ss_rows sp H1 ss H2). Qed.
Print Assumptions C01_rows.

(** ... and no state is listed twice. *)
Theorem C01_no_duplicates : forall {T} {NT : Num T} (sp : model_spec T) ss,
  sizes_ok sp -> create_state_space_objects sp = Ok ss -> NoDup (ss_states ss).
Proof. intros T NT sp ss H1 H2. exact (ss_nodup sp H1 ss H2). Qed.
Print Assumptions C01_no_duplicates.

(** Only sizes that are not negative are accepted. *)
Theorem C01_sizes_needed : forall {T} {NT : Num T} (sp : model_spec T) ss, create_state_space_objects sp = Ok ss ->
  0 <= num_periods sp /\ 0 <= num_educ_levels sp /\ 0 <= num_types sp.
Proof.
  intros T NT sp ss H. unfold create_state_space_objects, create_discrete_state_space, np_full_shape in H. cbv zeta in H. cbn [existsb] in H.
  destruct (num_periods sp <? 0) eqn:E1; [discriminate|]. destruct (num_educ_levels sp <? 0) eqn:E2; [discriminate|].
  destruct (num_types sp <? 0) eqn:E3; [cbn in H; discriminate|]. lia.
Qed.
Print Assumptions C01_sizes_needed.

(** C02: number of rows *)
Theorem C02_number_of_states : forall {T} {NT : Num T} (sp : model_spec T) ss,
  sizes_ok sp -> create_state_space_objects sp = Ok ss ->
  zlen (ss_states ss)
  = num_periods sp * (num_educ_levels sp * num_types sp * 2 * (child_age_max sp + 2) * 3).
Proof. intros T NT sp ss H1 H2. exact (ss_len sp H1 ss H2). Qed.
Print Assumptions C02_number_of_states.

(** C02: row i belongs to period i / N *)
Theorem C02_period_of_row : forall {T} {NT : Num T} (sp : model_spec T) ss,
  sizes_ok sp -> create_state_space_objects sp = Ok ss ->
  forall i r, 0 <= i -> np_get (ss_states ss) i = Ok r ->
  nth 0 r 0 * states_per_period sp <= i < (nth 0 r 0 + 1) * states_per_period sp.
Proof. intros T NT sp ss H1 H2. exact (ss_period sp H1 ss H2). Qed.
Print Assumptions C02_period_of_row.

(** C02: reshape(n_periods, N) puts exactly the states of period p into slice p *)
Theorem C02_reshape : forall {T} {NT : Num T} (sp : model_spec T) ss,
  sizes_ok sp -> create_state_space_objects sp = Ok ss ->
  forall p, 0 <= p < num_periods sp ->
  let slice := nth (Z.to_nat p) (chunks (Z.to_nat (num_periods sp))
                                   (Z.to_nat (states_per_period sp)) (ss_states ss)) [] in
  zlen slice = states_per_period sp /\
  (forall r, In r slice <-> In r (ss_states ss) /\ nth 0 r 0 = p).
Proof. intros T NT sp ss H1 H2. exact (ss_chunks sp H1 ss H2). Qed.
Print Assumptions C02_reshape.

(** C03: the transition table.  The birth branch needs a modelled age 0. *)
Theorem C03_transition_table : forall {T} {NT : Num T} (sp : model_spec T) ss,
  sizes_ok sp -> create_state_space_objects sp = Ok ss ->
  forall i p e l t a m, in_space sp p e l t a m ->
  ix_get (ss_indexer ss) (p, e, l, t, a, m) = Ok i ->
  exists table, np_get (ss_child_state_indexes ss) i = Ok table /\
  (p = num_periods sp - 1 -> forall choice b m', 0 <= choice < 3 -> 0 <= b < 2 -> 0 <= m' < 2 ->
     entry table choice b m' = Ok (-99)) /\
  (p < num_periods sp - 1 -> forall choice b m', 0 <= choice < 3 -> 0 <= b < 2 -> 0 <= m' < 2 ->
     (b = 1 -> 0 <= child_age_max sp) ->
     exists j, entry table choice b m' = Ok j /\
       np_get (ss_states ss) j = Ok [p + 1; e; choice; t; if b =? 1 then 0 else aged sp a; m'] /\
       ix_get (ss_indexer ss) (p + 1, e, choice, t, if b =? 1 then 0 else aged sp a, m') = Ok j /\
       0 <= j - (p + 1) * states_per_period sp < states_per_period sp).
Proof. intros T NT sp ss H1 H2. exact (ss_children sp H1 ss H2). Qed.
Print Assumptions C03_transition_table.

(** C04: the ageing rule of every listed state *)
Theorem C04_ageing : forall {T} {NT : Num T} (sp : model_spec T) ss,
  sizes_ok sp -> create_state_space_objects sp = Ok ss ->
  forall i p e l t a m, in_space sp p e l t a m ->
  ix_get (ss_indexer ss) (p, e, l, t, a, m) = Ok i ->
  np_get (ss_child_age_update_rule ss) i = Ok (aged sp a) /\ -1 <= aged sp a <= child_age_max sp.
Proof. intros T NT sp ss H1 H2. exact (ss_rule sp H1 ss H2). Qed.
Print Assumptions C04_ageing.

(** C05: covariates of every listed state *)
Theorem C05_covariates : forall (sp : model_spec R) ss i p e l t a m,
  sizes_ok sp -> create_state_space_objects sp = Ok ss ->
  in_space sp p e l t a m -> ix_get (ss_indexer ss) (p, e, l, t, a, m) = Ok i ->
  exists c, np_get (ss_covariates ss) i = Ok c /\
    bin_of a (cov_bin c) /\ cov_male_wage c = partner_wage sp p e m /\
    cov_equiv c = equivalence a m /\
    cov_child_ben c = (if a =? -1 then 0%R else child_benefits sp).
Proof. exact ss_cov. Qed.
Print Assumptions C05_covariates.

(** C05: the partner wage is positive iff there is a partner *)
Theorem C05_partner_wage_positive : forall (sp : model_spec R) p e m, (m = 0 \/ m = 1)%Z ->
  (m = 1 <-> (0 < partner_wage sp p e m)%R) /\ (m = 0 <-> partner_wage sp p e m = 0%R).
Proof. exact partner_wage_sign. Qed.
Print Assumptions C05_partner_wage_positive.

(** *** Non-vacuity *)
Example C01_example_sizes : sizes_ok ex_spec.
Proof. unfold sizes_ok; cbn; lia. Qed.
Example C01_example_state : in_space ex_spec 2 1 2 1 (-1) 1 /\ in_space ex_spec 2 0 2 1 10 1.
Proof. unfold in_space; cbn; lia. Qed.
Example C02_example_size : states_per_period ex_spec = 432.
Proof. reflexivity. Qed.
Example C03_example_successor :
  exists ss i table j, create_state_space_objects ex_spec = Ok ss /\
    ix_get (ss_indexer ss) (1, 2, 0, 1, 10, 1) = Ok i /\
    np_get (ss_child_state_indexes ss) i = Ok table /\ entry table 2 0 1 = Ok j /\
    np_get (ss_states ss) j = Ok [2; 2; 2; 1; -1; 1].
Proof.
  pose proof C01_example_sizes as Hs. destruct (C01_total ex_spec Hs) as [ss Hss].
  assert (Hin : in_space ex_spec 1 2 0 1 10 1) by (unfold in_space; cbn; lia).
  destruct (C01_lookup ex_spec ss Hs Hss _ _ _ _ _ _ Hin) as (i & Hi & _).
  destruct (C03_transition_table ex_spec ss Hs Hss i _ _ _ _ _ _ Hin Hi) as (table & Ht & _ & H).
  destruct (H ltac:(cbn; lia) 2 0 1 ltac:(lia) ltac:(lia) ltac:(lia) ltac:(lia)) as (j & Hj & Hr & _).
  exists ss, i, table, j. exact (conj Hss (conj Hi (conj Ht (conj Hj Hr)))).
Qed.
Example C04_example_aged : aged ex_spec 3 = 4 /\ aged ex_spec 10 = -1 /\ aged ex_spec (-1) = -1.
Proof. repeat split. Qed.

(** C03, boundary: with child_age_max = -1 there is no age 0 in the state space; the
    birth branch then points at the childless successor. *)
Example C03_boundary_no_child_ages :
  let sp := mkSpec unit 2 1 1 [] (-1) 0 0 0 [] 0 0 tt 0 0 "" tt tt tt tt tt (mkTax unit [] [] [] [])
              (tt, tt) [] true "" tt tt tt tt tt tt tt tt tt tt tt tt tt in
  let NU := Build_Num unit (fun _ => tt) (fun _ _ => tt) (fun _ _ => tt) (fun _ _ => tt)
              (fun _ _ => tt) (fun _ _ => true) (fun _ _ => true) (fun _ => tt) (fun _ => tt)
              (fun _ _ => tt) (fun _ => 0) in
  (do ss <- @create_state_space_objects unit NU sp;
   do table <- np_get (ss_child_state_indexes ss) 0;
   do j <- entry table 1 1 0; np_get (ss_states ss) j) = Ok [1; 0; 1; 0; -1; 0].
Proof. vm_compute. reflexivity. Qed.
