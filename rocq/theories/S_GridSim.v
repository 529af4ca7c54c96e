(** Simulated data and the model with a continuous stock (C81), and careers in a world
    without risk (C82). *)
From Coq Require Import Reals ZArith List.
From Verif Require Import Base Num M_Params M_Sim S_Bellman S_Solver S_Sim S_SimInputs S_Grid.
Import ListNotations.
Open Scope R_scope.

(** error of a reported continuation value, per unit of slope and mesh: the table's error
    and that of reading it between grid points *)
Definition report_error (d : R) (n : nat) : R :=
  match n with O => 0 | S n' => grid_error d n' + 2 * geometric d n' end.

(** error accumulated over the rest of a life *)
Fixpoint career_error (d : R) (n : nat) : R :=
  match n with
  | O => 0
  | S n' => d * (report_error d (S n') + d * report_error d n' + career_error d n')
  end.

(** flow utility and value of the alternative that was chosen *)
Definition chosen_flow (r : out_row R) (u : R) : Prop :=
  exists f, o_full r = Some f /\ u = at_ (f_flow f) (o_choice r).
Definition chosen_value (r : out_row R) (v : R) : Prop :=
  exists f, o_full r = Some f /\ v = at_ (f_value f) (o_choice r).

(** u0 + d u1 + d^2 u2 + ... *)
Fixpoint discounted (d : R) (us : list R) : R :=
  match us with [] => 0 | u :: us' => u + d * discounted d us' end.

(** rows of one agent, one period after the other, up to the last period *)
Inductive career (last : Z) (data : list (out_row R)) : list (out_row R) -> Prop :=
| career_end r : In r data -> row_period r = last -> career last data [r]
| career_step r r' rs : follows data r r' -> career last data (r' :: rs) -> career last data (r :: r' :: rs).

(** births and partners are certain; the solver's birth probability for a period is the one
    the simulation uses (C38) *)
Definition certain_births (sp : model_spec R) (pc : list (list R)) : Prop :=
  forall t e, (0 <= t < num_periods sp - 1)%Z -> (0 <= e < num_educ_levels sp)%Z ->
  (child_fun pc t e = 0 \/ child_fun pc t e = 1) /\
  ((t <= last_child_bearing_period sp)%Z -> child_fun pc (t + 1) e = child_fun pc t e) /\
  ((last_child_bearing_period sp < t)%Z -> child_fun pc t e = 0).
Definition certain_partners (sp : model_spec R) (pp : list (list (list (R * R)))) : Prop :=
  forall t e m, (0 <= t < num_periods sp - 1)%Z -> (0 <= e < num_educ_levels sp)%Z -> (0 <= m < 2)%Z ->
  (partner_fun pp t e m 0 = 0 \/ partner_fun pp t e m 0 = 1) /\ partner_fun pp t e m 0 + partner_fun pp t e m 1 = 1.

(** the alternatives of a row are worth the same in solution and simulation *)
Definition row_above_floor (sp : model_spec R) (mp : model_params R) (r : out_row R) : Prop :=
  let a := o_state r in forall c, (0 <= c < 3)%Z ->
  above_floor sp mp (a_period a) (a_educ a) (a_lagged a) (a_age a) (a_partner a) (a_stock a) 0 c.
