(** Benefit rules in the words of the documentation, written as plain case
    distinctions over real numbers. *)
From Coq Require Import Reals ZArith List.
From Verif Require Import Base Num M_Params.
Open Scope R_scope.

(** weekly hours of last period's job *)
Definition last_hours (lagged : Z) : R :=
  if (lagged =? 1)%Z then 18 else if (lagged =? 2)%Z then 38 else 0.
Definition worked (lagged : Z) : bool := (lagged =? 1)%Z || (lagged =? 2)%Z.

(** basic support (ALG II): singles only, with a supplement for single parents *)
Definition basic_support (sp : model_spec R) (age partner : Z) : R :=
  if (partner =? 1)%Z then 0
  else if (age =? -1)%Z then regelsatz_single sp + housing_single sp
  else regelsatz_single sp + housing_single sp
       + (regelsatz_child sp + addition_child_single sp + housing_addtion sp).

(** unemployment benefit (ALG I): replacement of the last net wage, only after work *)
Definition unemployment_benefit (sp : model_spec R) (age lagged : Z) (wage child_ben : R) : R :=
  if worked lagged then
    if (age =? -1)%Z then alg1_replacement_no_child sp * (65/100 * wage) * last_hours lagged
    else alg1_replacement_child sp * (65/100 * wage) * last_hours lagged + child_ben
  else 0.

(** parental benefit: replacement of the last net wage within limits, only after work *)
Definition parental_benefit (sp : model_spec R) (lagged : Z) (wage child_ben : R) : R :=
  if worked lagged then
    Rmin (Rmax (elterngeld_replacement sp * (65/100 * wage) * last_hours lagged)
               (elterngeld_min sp)) (elterngeld_max sp) + child_ben
  else 0.

(** the older child-raising allowance: youngest child aged 0 or 1, means-tested *)
Definition raising_allowance (sp : model_spec R) (age partner : Z) (income : R) : R :=
  if ((age =? 0) || (age =? 1))%Z then
    if Rle_dec income (if (partner =? 1)%Z then erziehungsgeld_income_threshold_married sp
                       else erziehungsgeld_income_threshold_single sp)
    then erziehungsgeld sp else 0
  else 0.

Definition benefits_spec (sp : model_spec R) (age lagged partner : Z)
    (wage child_ben male_wage : R) (elterngeld_regime : bool) : R :=
  if elterngeld_regime then
    Rmax (if (age =? 0)%Z then parental_benefit sp lagged wage child_ben
          else unemployment_benefit sp age lagged wage child_ben)
         (basic_support sp age partner)
  else
    let b := Rmax (unemployment_benefit sp age lagged wage child_ben)
                  (basic_support sp age partner) in
    b + raising_allowance sp age partner (male_wage + b).

(** non-pecuniary terms per child bin: 0 none, 1: 0-2, 2: 3-5, 3: 6-10, 4: older *)
Definition full_time_term (mp : model_params R) (educ bin : Z) : R :=
  let k := nth (Z.to_nat educ) (yes_kids_f mp) 0 in
  match bin with
  | 0%Z => nth (Z.to_nat educ) (no_kids_f mp) 0
  | 1%Z => k + child_0_2_f mp
  | 2%Z => k + child_3_5_f mp
  | 3%Z => k + child_6_10_f mp
  | _ => k
  end.
(** part-time adds the part-time specific term to the full-time one *)
Definition part_time_term (mp : model_params R) (educ bin : Z) : R :=
  let k := nth (Z.to_nat educ) (yes_kids_p mp) 0 in
  full_time_term mp educ bin +
  match bin with
  | 0%Z => nth (Z.to_nat educ) (no_kids_p mp) 0
  | 1%Z => k + child_0_2_p mp
  | 2%Z => k + child_3_5_p mp
  | 3%Z => k + child_6_10_p mp
  | _ => k
  end.
