(** What a user of the solver sees: the entry of the returned table for a state, a grid
    point and a column (0, 1, 2: continuation values of the three choices; 3: emax), after
    building the state space and solving. *)
From Coq Require Import Reals ZArith List.
From Verif Require Import Base Num M_Params M_StateSpace M_Solve S_Bellman.
Import ListNotations.
Open Scope R_scope.

Definition solver_cell (sp : model_spec R) (mp : model_params R) (biased : bool) (zs ws : list R)
    (prob_child : list (list R)) (prob_partner : list (list (list (R * R))))
    (t e l ty a m : Z) (g : nat) (column : Z) : result R :=
  do ss <- create_state_space_objects sp;
  do (ncu, emaxs) <- solve sp (ss_states ss) (ss_covariates ss) (ss_child_state_indexes ss)
                       prob_child prob_partner zs ws biased mp;
  do i <- ix_get (ss_indexer ss) (t, e, l, ty, a, m);
  do by_grid <- np_get emaxs i;
  do cell <- np_get by_grid (Z.of_nat g);
  np_get cell column.

Definition inputs_ok (sp : model_spec R) (mp : model_params R)
    (prob_child : list (list R)) (prob_partner : list (list (list (R * R)))) : Prop :=
  spec_ok sp /\ params_ok sp mp /\ child_table_ok sp prob_child /\ partner_table_ok sp prob_partner.

(** the tables hold probabilities (entries of the last period are never used) *)
Definition probabilities (sp : model_spec R)
    (prob_child : list (list R)) (prob_partner : list (list (list (R * R)))) : Prop :=
  forall t e, (0 <= t < num_periods sp - 1)%Z -> (0 <= e < num_educ_levels sp)%Z ->
  0 <= child_fun prob_child t e <= 1 /\
  forall m, (0 <= m < 2)%Z ->
    0 <= partner_fun prob_partner t e m 0 /\ 0 <= partner_fun prob_partner t e m 1 /\
    partner_fun prob_partner t e m 0 + partner_fun prob_partner t e m 1 = 1.

(** periods after period t *)
Definition remaining (sp : model_spec R) (t : Z) : nat := Z.to_nat (num_periods sp - 1 - t).

Definition nonneg_weights (zs ws : list R) : Prop := forall z w, In (z, w) (combine zs ws) -> 0 <= w.

(** grid from 0 to 1 *)
Definition spans_unit (g : list R) : Prop :=
  (2 <= List.length g)%nat /\ nth 0 g 0 = 0 /\ nth (List.length g - 1) g 0 = 1.

(** 1 + q + ... + q^n *)
Fixpoint geometric (q : R) (n : nat) : R :=
  match n with O => 1 | S n' => 1 + q * geometric q n' end.
