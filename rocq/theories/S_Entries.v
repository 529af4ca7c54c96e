(** The entries of a parameter frame and the parameter each of them is for. *)
From Coq Require Import Reals ZArith List String Permutation.
From Verif Require Import Base Num M_Params M_Spec.
Import ListNotations.
Local Open Scope string_scope.
Local Open Scope list_scope.
Open Scope R_scope.

(** the frame has a row (category, name) with this value *)
Definition entry (df : params_dict R) (category name : string) (x : R) : Prop :=
  exists rows, assoc_get category df = Some rows /\ assoc_get name rows = Some x.

(** parameters that are one number: category, name, parameter *)
Definition single_entries : list (string * string * (model_params R -> R)) :=
  [("exp_increase_p_mom", "gamma_p_mom", @gamma_p_mom R);
   ("disutil_work", "child_0_2_f", @child_0_2_f R); ("disutil_work", "child_0_2_p", @child_0_2_p R);
   ("disutil_work", "child_3_5_f", @child_3_5_f R); ("disutil_work", "child_3_5_p", @child_3_5_p R);
   ("disutil_work", "child_6_10_f", @child_6_10_f R); ("disutil_work", "child_6_10_p", @child_6_10_p R);
   ("sd_wage_shock", "sigma", @shock_sd R); ("discount", "delta", @delta R); ("risk", "mu", @mu R)].

(** parameters with one number per education level: category, beginning of the name, parameter *)
Definition education_entries : list (string * string * (model_params R -> list R)) :=
  [("const_wage_eq", "gamma_0_", @gamma_0 R); ("exp_return", "gamma_1_", @gamma_1 R); ("exp_increase_p", "gamma_p_", @gamma_p R);
   ("disutil_work", "no_kids_f_educ_", @no_kids_f R); ("disutil_work", "no_kids_p_educ_", @no_kids_p R);
   ("disutil_work", "yes_kids_f_educ_", @yes_kids_f R); ("disutil_work", "yes_kids_p_educ_", @yes_kids_p R)].
Definition education_names : list string := ["low"; "middle"; "high"].

(** every row a parameter is read from is there *)
Definition complete_frame (df : params_dict R) : Prop :=
  (forall category name f, In (category, name, f) single_entries -> exists x, entry df category name x) /\
  (forall category name f level, In (category, name, f) education_entries -> In level education_names ->
     exists x, entry df category (name ++ level) x) /\
  (assoc_get "shares" df <> None -> assoc_get "hetrg_unobs" df <> None).

(** the same rows in another order, within and across categories (rows have different names) *)
Definition same_rows (df df' : params_dict R) : Prop :=
  forall category, match assoc_get category df, assoc_get category df' with
                   | Some rows, Some rows' => Permutation rows rows' /\ NoDup (map fst rows)
                   | None, None => True
                   | _, _ => False
                   end.
