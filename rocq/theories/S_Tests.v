(** Vocabulary for the assertions of the test suite (C92). *)
From Coq Require Import Reals ZArith List String.
From Verif Require Import Base Num M_Params M_Exog M_Sim M_Spec M_Main M_RandomInit S_Rng S_Sim S_Spec S_RandomInit.
Import ListNotations.
Local Open Scope string_scope.
Local Open Scope list_scope.
Open Scope R_scope.

(** simulate() on what random_init left behind returns this data set *)
Definition run_returns (rg : rng R) (ri : random_inputs (T := R)) (x : exog_files R) (pa : params_arg R) (biased : bool) (data : list (out_row R)) : Prop :=
  names_files (ri_yaml ri) (ri_files ri) x /\
  exists roots s2 spi g h g', rng_ok rg /\ rng_total rg /\
    snd (simulate_of rg roots s2 spi pa (SpecPath (ri_yaml ri) 0) x biased false g h) = Ok (data, g').

(** the parameter file as written *)
Definition own_params (ri : random_inputs (T := R)) : params_arg R := ParamsPath (frame_to_dict (ri_params ri)).

(** df[df.Education_Level == e].Period.min() *)
Definition first_period (data : list (out_row R)) (e y : Z) : Prop :=
  (exists r, In r data /\ a_educ (o_state r) = e /\ row_period r = y) /\
  forall r, In r data -> a_educ (o_state r) = e -> (y <= row_period r)%Z.

(** the identifiers of an education level, each once *)
Definition ids_of_level (data : list (out_row R)) (e : Z) (ids : list Z) : Prop :=
  NoDup ids /\ forall id, In id ids <-> exists r, In r data /\ a_educ (o_state r) = e /\ row_id r = id.

(** df.loc[(category, name), "value"] = x for a row that exists *)
Definition set_value (category name : string) (x : R) (rows : list (string * string * R)) : list (string * string * R) :=
  map (fun r => if (String.eqb (fst (fst r)) category && String.eqb (snd (fst r)) name)%bool then (fst r, x) else r) rows.

(** test_expectation: part-time experience counts in full, for mothers too *)
Definition full_increments (rows : list (string * string * R)) : list (string * string * R) :=
  set_value "exp_increase_p_mom" "gamma_p_mom" 0
    (set_value "exp_increase_p" "gamma_p_high" 1 (set_value "exp_increase_p" "gamma_p_middle" 1 (set_value "exp_increase_p" "gamma_p_low" 1 rows))).

(** del d[k] and d[k] = v in the dictionary stored at l *)
Definition edit_at (l : nat) (f : pydict R -> pydict R) (h : heap R) : heap R :=
  map (fun p => if Nat.eqb (fst p) l then f (snd p) else snd p) (combine (seq 0 (List.length h)) h).
Definition without (k : string) (d : pydict R) : pydict R := filter (fun kv => negb (String.eqb (fst kv) k)) d.
Definition with_entry (k : string) (v : pyval R) (d : pydict R) : pydict R :=
  map (fun kv => if String.eqb (fst kv) k then (k, v) else kv) d.
(** where an entry of a dictionary is stored *)
Definition ref_at (d : pydict R) (k : string) : nat := match assoc_get k d with Some (VRef l) => l | _ => O end.
Definition edit_taxes (f : pydict R -> pydict R) (h : heap R) : heap R := edit_at (ref_at (nth 0 h []) "TAXES_TRANSFERS") f h.
Definition edit_costs (f : pydict R -> pydict R) (h : heap R) : heap R :=
  edit_at (ref_at (nth (ref_at (nth 0 h []) "TAXES_TRANSFERS") h []) "child_care_costs") f h.
