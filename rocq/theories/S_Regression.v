(** Vocabulary for the regression tests (C102). *)
From Coq Require Import Reals ZArith List String Sorting.Sorted.
From Verif Require Import Base Num M_Params M_Sim M_Spec M_RandomInit M_Main M_Regression S_Main.
Import ListNotations.
Local Open Scope string_scope.
Local Open Scope list_scope.
Open Scope R_scope.

(** the total of a column, undefined entries left out *)
Fixpoint total_of (f : out_row R -> option R) (data : list (out_row R)) : R :=
  match data with
  | [] => 0
  | r :: rest => match f r with Some x => x | None => 0 end + total_of f rest
  end.

(** close by the tolerance of the tests *)
Definition close (x y : R) : Prop :=
  Rabs (x - y) <= 1/100000 * Rmax (Rabs x) (Rabs y) \/ Rabs (x - y) <= 1/100000000.

(** columns: integers of the state, wages, numbers of the three alternatives *)
Definition of_state (f : agent R -> Z) (r : out_row R) : option R := Some (IZR (f (o_state r))).
Definition of_choice (f : full_cols R -> list R) (i : nat) (r : out_row R) : option R :=
  match o_full r with Some c => nth_error (f c) i | None => None end.

Definition checked_states : list (string * (out_row R -> option R)) :=
  [("Identifier", of_state a_id); ("Period", of_state a_period); ("Education_Level", of_state a_educ); ("Lagged_Choice", of_state a_lagged);
   ("Experience_Part_Time", of_state a_exp_pt); ("Experience_Full_Time", of_state a_exp_ft); ("Age_Youngest_Child", of_state a_age);
   ("Choice", fun r => Some (IZR (o_choice r))); ("Wage_Observed", o_wage)].
Definition checked_full : list (string * (out_row R -> option R)) :=
  checked_states ++
  [("Type", of_state a_type); ("Partner_Indicator", of_state a_partner); ("Male_Wages", fun r => option_map f_male_wage (o_full r));
   ("Non_Consumption_Utility_N", of_choice f_non_cons 0); ("Non_Consumption_Utility_P", of_choice f_non_cons 1); ("Non_Consumption_Utility_F", of_choice f_non_cons 2);
   ("Flow_Utility_N", of_choice f_flow 0); ("Flow_Utility_P", of_choice f_flow 1); ("Flow_Utility_F", of_choice f_flow 2);
   ("Continuation_Value_N", of_choice f_cont 0); ("Continuation_Value_P", of_choice f_cont 1); ("Continuation_Value_F", of_choice f_cont 2)].
Definition checked_sparse : list (string * (out_row R -> option R)) :=
  checked_states ++ [("Experience_Stock", fun r => Some (a_stock (o_state r)))].

(** all columns of the full data *)
Definition all_columns : list (string * (out_row R -> option R)) :=
  checked_full ++ [("Experience_Stock", fun r => Some (a_stock (o_state r)));
    ("Value_Function_N", of_choice f_value 0); ("Value_Function_P", of_choice f_value 1); ("Value_Function_F", of_choice f_value 2)].

(** what a test runs, what it compares with, and which columns *)
Definition checked (k : regression_test) : list (string * (out_row R -> option R)) :=
  match k with test_simulation_func_data_sparse => checked_sparse | _ => checked_full end.
Definition is_biased (k : regression_test) : bool := match k with test_simulation_func_unbiased => false | _ => true end.
Definition is_sparse (k : regression_test) : bool := match k with test_simulation_func_data_sparse => true | _ => false end.
Definition stored (k : regression_test) (e : vault_entry R) (label : string) (v : R) : Prop :=
  assoc_get label (match k with test_simulation_func_unbiased => ve_unbiased e | _ => ve_expected e end) = Some v.

(** small integer columns fit into a byte *)
Definition fits_bytes (sp : model_spec R) : Prop :=
  (num_periods sp <= 128 /\ num_educ_levels sp <= 128 /\ child_age_max sp <= 127 /\ init_exp_max sp + num_periods sp <= 128)%Z.

(** rows of a parameter frame: alphabetic order, no pair of category and name twice *)
Definition before (a b : string) : Prop := String.compare a b <> Gt.
Definition one_row_each (rows : list (string * string * R)) : Prop := NoDup (map fst rows).
Definition names_of (category : string) (rows : list (string * string * R)) : list string :=
  map (fun r => snd (fst r)) (filter (fun r => String.eqb (fst (fst r)) category) rows).

(** inputs the program can be run with *)
Definition admissible (rows : list (string * string * R)) (sa : spec_arg R) (files : exog_files R) (h : heap R) : Prop :=
  exists mp sp, snd (read_model (ParamsFrame (frame_to_dict rows)) sa h) = Ok (mp, sp) /\ runnable mp sp /\ files_ok sp files.
(** and whose sparse data lose nothing *)
Definition narrow (h : heap R) (e : vault_entry R) : Prop :=
  exists mp sp, snd (read_model (params_of e) (ve_spec e) h) = Ok (mp, sp) /\ runnable mp sp /\ files_ok sp (ve_files e) /\ fits_bytes sp.
