(** Vocabulary for the random test inputs (C88). *)
From Coq Require Import Reals ZArith List String.
From Verif Require Import Base Num M_Params M_Exog M_Sim M_Spec M_RandomInit S_Rng S_Spec.
Import ListNotations.
Local Open Scope string_scope.
Local Open Scope list_scope.
Open Scope R_scope.

(** what is assumed about numpy.random (documented behaviour) *)
Record draws_ok (dr : draws R) : Prop := {
  randint_range : forall lo hi s, (lo < hi)%Z -> (lo <= fst (dr_randint dr lo hi s) < hi)%Z;
  uniform_size : forall lo hi n s, List.length (fst (dr_uniform dr lo hi n s)) = n;
  uniform_range : forall lo hi n s x, In x (fst (dr_uniform dr lo hi n s)) -> Rmin lo hi <= x <= Rmax lo hi;
  choice_offered : forall vals s, vals <> [] -> In (fst (dr_choice dr vals s)) vals
}.

(** constraints with which the program is meant to run *)
Record admissible (c : constraints) : Prop := {
  ad_educ : forall l, cs_educ_years c = Some l -> zlen l = 3%Z /\ forall y, In y l -> (0 <= y)%Z;
  ad_agents : forall n, cs_agents c = Some n -> (0 <= n)%Z;
  ad_periods : forall n, cs_periods c = Some n -> (1 <= n)%Z;
  ad_seed_sim : forall n, cs_seed_sim c = Some n -> valid_seed n;
  ad_seed_emax : forall n, cs_seed_emax c = Some n -> valid_seed n;
  ad_draws : forall n, cs_draws_emax c = Some n -> (0 <= n)%Z;
  ad_age : forall n, cs_child_age_init_max c = Some n -> (-1 <= n <= 18)%Z;
  ad_exp : forall n, cs_init_exp_max c = Some n -> (0 <= n)%Z
}.

(** the section [g] of the dictionary that is the first of the objects *)
Definition section_of (h : heap R) (g : string) : pydict R :=
  match assoc_get g (nth 0 h []) with Some (VRef l) => nth l h [] | _ => [] end.

(** the file whose name is the entry [k] *)
Definition file_of (h : heap R) (fs : list (string * list (Z * R))) (k : string) (rows : list (Z * R)) : Prop :=
  exists name, given (section_of h) k (VStr name) /\ assoc_get name fs = Some rows.

(** the contents of the files named in the specification *)
Definition names_files (h : heap R) (fs : list (string * list (Z * R))) (x : exog_files R) : Prop :=
  (exists rows, file_of h fs "educ_shares_file_name" rows /\ xf_educ x = map snd rows) /\
  file_of h fs "child_age_shares_file_name" (xf_child_age x) /\
  (exists rows, file_of h fs "partner_shares_file_name" rows /\ xf_partner_present x = map (fun r => [snd r]) rows) /\
  file_of h fs "pt_exp_shares_file_name" (xf_exp_pt x) /\
  file_of h fs "ft_exp_shares_file_name" (xf_exp_ft x) /\
  (exists rows, file_of h fs "child_info_file_name" rows /\ xf_child x = map (fun r => (fst r, [snd r])) rows) /\
  file_of h fs "partner_arrival_info_file_name" (xf_arrival x) /\
  file_of h fs "partner_separation_info_file_name" (xf_separation x).

(** a setting is the constraint, or lies in the range of its draw *)
Definition set_to (c : option Z) (lo hi x : Z) : Prop :=
  match c with Some n => x = n | None => (lo <= x < hi)%Z end.

(** the parameters of all types: category, name, bounds *)
Definition common_params : list (string * string * (R * R)) :=
  [("const_wage_eq", "gamma_0_low", (1/2, 4)); ("const_wage_eq", "gamma_0_middle", (1/2, 4)); ("const_wage_eq", "gamma_0_high", (1/2, 4));
   ("exp_return", "gamma_1_low", (1/1000, 1/5)); ("exp_return", "gamma_1_middle", (1/1000, 1/5)); ("exp_return", "gamma_1_high", (1/1000, 1/5));
   ("exp_increase_p", "gamma_p_low", (1/1000, 1/5)); ("exp_increase_p", "gamma_p_middle", (1/1000, 1/5)); ("exp_increase_p", "gamma_p_high", (1/1000, 1/5));
   ("exp_increase_p_mom", "gamma_p_mom", (6/10, 14/10));
   ("disutil_work", "no_kids_f_educ_low", (1/1000, 1/5)); ("disutil_work", "no_kids_f_educ_middle", (1/1000, 1/5));
   ("disutil_work", "no_kids_f_educ_high", (1/1000, 1/5)); ("disutil_work", "yes_kids_f_educ_low", (1/1000, 1/5));
   ("disutil_work", "yes_kids_f_educ_middle", (1/1000, 1/5)); ("disutil_work", "yes_kids_f_educ_high", (1/1000, 1/5));
   ("disutil_work", "child_0_2_f", (1/1000, 1/5)); ("disutil_work", "child_3_5_f", (1/1000, 1/5)); ("disutil_work", "child_6_10_f", (1/1000, 1/5));
   ("disutil_work", "no_kids_p_educ_low", (-3/2, -1/1000)); ("disutil_work", "no_kids_p_educ_middle", (-3/2, -1/1000));
   ("disutil_work", "no_kids_p_educ_high", (-3/2, -1/1000)); ("disutil_work", "yes_kids_p_educ_low", (-3/2, -1/1000));
   ("disutil_work", "yes_kids_p_educ_middle", (-3/2, -1/1000)); ("disutil_work", "yes_kids_p_educ_high", (-3/2, -1/1000));
   ("disutil_work", "child_0_2_p", (-3/2, -1/1000)); ("disutil_work", "child_3_5_p", (-3/2, -1/1000)); ("disutil_work", "child_6_10_p", (-3/2, -1/1000));
   ("discount", "delta", (8/10, 99/100)); ("risk", "mu", (-7/10, -4/10))].

(** the point that divides the interval from a to b in the ratio u *)
Definition blend (a b u : R) : R := a + (b - a) * u.

(** numpy's generator as a stream of numbers from the unit interval; k types, the lower end
    of every range of integers *)
Definition stream_draws (k : Z) : draws R := {|
  dr_state := nat -> R;
  dr_randint := fun lo hi u => (lo, u);
  dr_uniform := fun lo hi n u => (map (fun i => blend lo hi (u i)) (seq 0 n), fun i => u (n + i)%nat);
  dr_choice := fun vals u => (k, u)
|}.

(** the rows of the parameter file with k types, as functions of the stream: the common
    parameters, k weights blend 1 and 10, per further type two tastes and its part of all
    weights, the standard deviation *)
Definition type_rows (k : nat) (u : nat -> R) (i : nat) : list (string * string * R) :=
  let weight j := blend 1 10 (u (30 + j)%nat) in
  [("hetrg_unobs", numbered "theta_p" i, blend (-1/10) (-1) (u (30 + k + 2 * (i - 1))%nat));
   ("hetrg_unobs", numbered "theta_f" i, blend (-1/10) (-1) (u (30 + k + 2 * (i - 1) + 1)%nat));
   ("shares", numbered "share_" i, weight i / fold_right Rplus 0 (map weight (seq 0 k)))].
Definition expected_params (k : nat) (u : nat -> R) : list (string * string * R) :=
  map (fun p => match p with ((c, n, (a, b)), i) => (c, n, blend a b (u i)) end) (combine common_params (seq 0 30))
  ++ flat_map (type_rows k u) (seq 1 (k - 1))
  ++ [("sd_wage_shock", "sigma", blend (1/1000) 1 (u (30 + k + 2 * (k - 1))%nat))].

(** the returned dictionary with the missing entry added *)
Definition with_grid (h : heap R) (n : nat) : heap R :=
  match h with root :: rest => (root ++ [("exp_grid", VNums (map (fun i => INR i / INR (n - 1)) (seq 0 n)))]) :: rest | [] => [] end.
