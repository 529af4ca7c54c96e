(** Specification of the discrete state space. *)
From Coq Require Import Reals.
From Verif Require Import Base Num M_Params.
Open Scope Z_scope.

(** admissible values of the six state variables *)
Definition in_space {T} (sp : model_spec T) (period educ lagged type age partner : Z) : Prop :=
  0 <= period < num_periods sp /\ 0 <= educ < num_educ_levels sp /\ 0 <= lagged < 3 /\
  0 <= type < num_types sp /\ -1 <= age <= child_age_max sp /\ 0 <= partner < 2.

(** sizes for which the arrays exist *)
Definition sizes_ok {T} (sp : model_spec T) : Prop :=
  0 <= num_periods sp /\ 0 <= num_educ_levels sp /\ 0 <= num_types sp /\ -1 <= child_age_max sp.

(** number of states per period *)
Definition states_per_period {T} (sp : model_spec T) : Z :=
  num_educ_levels sp * num_types sp * 2 * (child_age_max sp + 2) * 3.

(** the age of the youngest child one period later *)
Definition aged {T} (sp : model_spec T) (age : Z) : Z :=
  if age =? -1 then -1 else if age <? child_age_max sp then age + 1 else -1.

(** child bins by age *)
Inductive bin_of : Z -> Z -> Prop :=
| bin_none : bin_of (-1) 0
| bin_0_2 a : 0 <= a <= 2 -> bin_of a 1
| bin_3_5 a : 3 <= a <= 5 -> bin_of a 2
| bin_6_10 a : 6 <= a <= 10 -> bin_of a 3
| bin_old a : 11 <= a -> bin_of a 4.

(** weekly partner wage: 38 hours at an hourly wage depending on period and education *)
Definition partner_wage (sp : model_spec R) (period educ partner : Z) : R :=
  if partner =? 1 then
    38 * exp (partner_cf_const sp + partner_cf_age sp * IZR period
              + partner_cf_age_sq sp * (IZR period * IZR period)
              + partner_cf_educ sp * IZR educ)
  else 0.

(** household equivalence scale *)
Definition equivalence (age partner : Z) : R :=
  if age =? -1 then (if partner =? 1 then 15/10 else 1)
  else (if partner =? 1 then 18/10 else 13/10).

(** entry [choice, child arrives, next partner] of one state's transition table *)
Definition entry (table : list (list (list Z))) (choice b m : Z) : result Z :=
  do x <- np_get table choice; do y <- np_get x b; np_get y m.
