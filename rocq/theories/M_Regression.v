(** soepy/test/resources/update_vault.py and soepy/test/test_regression.py: the column sums that
    are stored, and the four tests that compare them.  Files are given by their contents, the
    dictionaries of the vault live in the heap (pickling would copy them).  Sums are exact: the
    order in which pandas adds up the rows is not modelled. *)
From Verif Require Import Base Num M_Params M_Exog M_StateSpace M_Sim M_Spec M_Main M_RandomInit.
Local Open Scope string_scope.
Local Open Scope list_scope.
Open Scope Z_scope.

Section Frames.
  Context {T : Type} {NT : Num T}.
  Local Open Scope num_scope.

  (** columns of the data frame: initial_states.py:91-104 and simulate_auxiliary.py:239-257;
      [simulate] moves two of them into the index, reset_index() moves them back *)
  Definition frame_columns (sparse : bool) : list string :=
    ["Identifier"; "Period"; "Education_Level"; "Lagged_Choice"; "Experience_Part_Time"; "Experience_Full_Time"; "Experience_Stock";
     "Type"; "Age_Youngest_Child"; "Partner_Indicator"; "Choice"; "Wage_Observed"]
    ++ if sparse then []
       else "Male_Wages" :: flat_map (fun s => ["Non_Consumption_Utility_" ++ s; "Flow_Utility_" ++ s; "Continuation_Value_" ++ s; "Value_Function_" ++ s]%string)
              ["N"; "P"; "F"].

  (** element [i] of an array of the full output *)
  Definition full_cell (f : full_cols T -> list T) (i : nat) (r : out_row T) : option T :=
    match o_full r with Some c => nth_error (f c) i | None => None end.

  (** the cells of a row; [None] is NaN *)
  Definition cells (r : out_row T) : list (string * option T) :=
    let a := o_state r in
    [("Identifier", Some #(a_id a)); ("Period", Some #(a_period a)); ("Education_Level", Some #(a_educ a)); ("Lagged_Choice", Some #(a_lagged a));
     ("Experience_Part_Time", Some #(a_exp_pt a)); ("Experience_Full_Time", Some #(a_exp_ft a)); ("Experience_Stock", Some (a_stock a));
     ("Type", Some #(a_type a)); ("Age_Youngest_Child", Some #(a_age a)); ("Partner_Indicator", Some #(a_partner a)); ("Choice", Some #(o_choice r));
     ("Wage_Observed", o_wage r); ("Male_Wages", option_map f_male_wage (o_full r));
     ("Non_Consumption_Utility_N", full_cell f_non_cons 0 r); ("Non_Consumption_Utility_P", full_cell f_non_cons 1 r); ("Non_Consumption_Utility_F", full_cell f_non_cons 2 r);
     ("Flow_Utility_N", full_cell f_flow 0 r); ("Flow_Utility_P", full_cell f_flow 1 r); ("Flow_Utility_F", full_cell f_flow 2 r);
     ("Continuation_Value_N", full_cell f_cont 0 r); ("Continuation_Value_P", full_cell f_cont 1 r); ("Continuation_Value_F", full_cell f_cont 2 r);
     ("Value_Function_N", full_cell f_value 0 r); ("Value_Function_P", full_cell f_value 1 r); ("Value_Function_F", full_cell f_value 2 r)].

  (** one entry of df.sum(axis=0): NaN is skipped *)
  Definition column_sum (label : string) (data : list (out_row T)) : T :=
    nsum (flat_map (fun r => match assoc_get label (cells r) with Some (Some x) => [x] | _ => [] end) data).

  (** df.reset_index().sum(axis=0): labels and sums *)
  Definition series := list (string * T).
  Definition frame_sum (sparse : bool) (data : list (out_row T)) : series :=
    map (fun l => (l, column_sum l data)) (frame_columns sparse).

  (** s.loc[labels] *)
  Definition series_loc (s : series) (labels : list string) : result series :=
    mapM (fun l => match assoc_get l s with Some x => Ok (l, x) | None => Err (KeyError l) end) labels.

  (** pd.testing.assert_series_equal with its default tolerances rtol = 1e-5, atol = 1e-8:
      equal labels, and values that are close in the sense of math.isclose *)
  Definition is_close (a b : T) : bool :=
    nabs (a - b) <=? nmax (nlit 1 100000 * nmax (nabs a) (nabs b)) (nlit 1 100000000).
  Fixpoint series_equal (s1 s2 : series) : bool :=
    match s1, s2 with
    | [], [] => true
    | (l, x) :: s1', (r, y) :: s2' => String.eqb l r && is_close x y && series_equal s1' s2'
    | _, _ => false
    end.
  Definition assert_series_equal (s1 s2 : series) : result unit :=
    if series_equal s1 s2 then Ok tt else Err AssertionError.

  (** DataFrame.sort_index() of the parameter frame: rows by category, then by name *)
  Definition row_le (a b : string * string * T) : bool :=
    match String.compare (fst (fst a)) (fst (fst b)) with
    | Lt => true
    | Eq => match String.compare (snd (fst a)) (snd (fst b)) with Gt => false | _ => true end
    | Gt => false
    end.
  Fixpoint insert_row (r : string * string * T) (l : list (string * string * T)) : list (string * string * T) :=
    match l with
    | [] => [r]
    | s :: l' => if row_le r s then r :: l else s :: insert_row r l'
    end.
  Definition sort_index (rows : list (string * string * T)) : list (string * string * T) := fold_right insert_row [] rows.
End Frames.

(** test_regression.py:26-48 *)
Definition DATA_LABLES_CHECK : list string :=
  ["Identifier"; "Period"; "Education_Level"; "Lagged_Choice"; "Experience_Part_Time"; "Experience_Full_Time"; "Type"; "Age_Youngest_Child"; "Partner_Indicator";
   "Choice"; "Wage_Observed"; "Non_Consumption_Utility_N"; "Non_Consumption_Utility_P"; "Non_Consumption_Utility_F"; "Flow_Utility_N"; "Flow_Utility_P"; "Flow_Utility_F";
   "Male_Wages"; "Continuation_Value_N"; "Continuation_Value_P"; "Continuation_Value_F"].
(** constants_sim.py:50-66; the stock is listed twice *)
Definition LABELS_DATA_SPARSE : list string :=
  ["Period"; "Education_Level"; "Lagged_Choice"; "Experience_Part_Time"; "Experience_Full_Time"; "Experience_Stock"; "Age_Youngest_Child"; "Choice"]
  ++ ["Identifier"; "Wage_Observed"; "Experience_Stock"].

(** one entry of the vault: specification, parameter frame, files, stored sums *)
Record vault_entry (T : Type) := mkEntry {
  ve_spec : spec_arg T; ve_params : list (string * string * T); ve_files : exog_files T;
  ve_expected : list (string * T); ve_unbiased : list (string * T)
}.
Arguments mkEntry {T}. Arguments ve_spec {T}. Arguments ve_params {T}. Arguments ve_files {T}. Arguments ve_expected {T}. Arguments ve_unbiased {T}.

(** the four functions of test_regression.py *)
Inductive regression_test := test_pyth_simulate | test_simulation_func | test_simulation_func_unbiased | test_simulation_func_data_sparse.

Section Tests.
  Context {T : Type} {NT : Num T}.
  Context (rg : rng T) (roots_hermite : Z -> list T * list T) (sqrt2 sqrtpi : T).
  Local Notation "'let!' x := e 'in' f" := (hbind e (fun x => f))
    (at level 200, x pattern, e at level 100, f at level 200, right associativity).
  Local Notation simulate_of := (simulate_of rg roots_hermite sqrt2 sqrtpi).

  (** the data frame handed to the program *)
  Definition params_of (e : vault_entry T) : params_arg T := ParamsFrame (frame_to_dict (ve_params e)).

  (** update_vault.py:21-64, the loop body: the frame is sorted, both simulations are run, the
      sums stored *)
  Definition update_entry (e : vault_entry T) (g : rng_state rg) : hm (T := T) (vault_entry T * rng_state rg) :=
    let rows := sort_index (ve_params e) in
    let pa := ParamsFrame (frame_to_dict rows) in
    let! (data, g) := simulate_of pa (ve_spec e) (ve_files e) true false g in
    let! (unbiased, g) := simulate_of pa (ve_spec e) (ve_files e) false false g in
    hlift (Ok (mkEntry (ve_spec e) rows (ve_files e) (frame_sum false data) (frame_sum false unbiased), g)).

  (** tests_sim_func[i] *)
  Definition vault_get (vault : list (Z * vault_entry T)) (i : Z) : result (vault_entry T) :=
    match find (fun q => fst q =? i)%Z vault with Some q => Ok (snd q) | None => Err (KeyError "vault") end.

  (** update_vault.py:13-67 for the identifiers [ids] *)
  Fixpoint update_list (ids : list Z) (vault : list (Z * vault_entry T)) (g : rng_state rg) : hm (T := T) (list (Z * vault_entry T) * rng_state rg) :=
    match ids with
    | [] => hlift (Ok ([], g))
    | i :: ids =>
        let! e := hlift (vault_get vault i) in
        let! (e', g) := update_entry e g in
        let! (rest, g) := update_list ids vault g in
        hlift (Ok ((i, e') :: rest, g))
    end.
  Definition update_sim_objectes (vault : list (Z * vault_entry T)) (g : rng_state rg) : hm (T := T) (list (Z * vault_entry T) * rng_state rg) :=
    update_list (range 100) vault g.

  (** test_regression.py:89-143: solution with biased expectations, then the simulation *)
  Definition pyth_data (e : vault_entry T) (g : rng_state rg) : hm (T := T) (list (out_row T) * rng_state rg) :=
    let! (mp, sp) := read_model (params_of e) (ve_spec e) in
    let files := ve_files e in
    hlift (let prob_educ_level := gen_prob_educ_level_vector (xf_educ files) in
           do prob_child_age <- gen_prob_child_init_age_vector sp (xf_child_age files);
           let prob_partner_present := gen_prob_partner_present_vector (xf_partner_present files) in
           do prob_exp_pt <- gen_prob_init_exp_component_vector sp (xf_exp_pt files);
           do prob_exp_ft <- gen_prob_init_exp_component_vector sp (xf_exp_ft files);
           do prob_child <- gen_prob_child_vector sp (xf_child files);
           do prob_partner <- gen_prob_partner sp (xf_arrival files) (xf_separation files);
           do ss <- create_state_space_objects sp;
           do (sol, g) <- pyth_solve rg roots_hermite sqrt2 sqrtpi (ss_states ss) (ss_covariates ss) (ss_child_state_indexes ss) mp sp prob_child prob_partner true g;
           pyth_simulate rg mp sp
             (mkSolution (ss_states ss) (ss_indexer ss) (ss_covariates ss) (ss_child_age_update_rule ss) (fst sol) (snd sol))
             (mkInitProbs prob_educ_level prob_child_age prob_partner_present prob_exp_pt prob_exp_ft)
             prob_child prob_partner false false g).

  (** the comparison at the end of a test; the two sides in the order of the test *)
  Definition compare_sums (labels : list string) (s1 s2 : series (T := T)) : result unit :=
    do l <- series_loc s1 labels;
    do r <- series_loc s2 labels;
    assert_series_equal l r.

  (** test_regression.py:61-276 *)
  Definition run_test (k : regression_test) (e : vault_entry T) (g : rng_state rg) : hm (T := T) (rng_state rg) :=
    match k with
    | test_pyth_simulate =>
        let! (data, g) := pyth_data e g in
        let! _ := hlift (compare_sums DATA_LABLES_CHECK (frame_sum false data) (ve_expected e)) in hlift (Ok g)
    | test_simulation_func =>
        let! (data, g) := simulate_of (params_of e) (ve_spec e) (ve_files e) true false g in
        let! _ := hlift (compare_sums DATA_LABLES_CHECK (ve_expected e) (frame_sum false data)) in hlift (Ok g)
    | test_simulation_func_unbiased =>
        let! (data, g) := simulate_of (params_of e) (ve_spec e) (ve_files e) false false g in
        let! _ := hlift (compare_sums DATA_LABLES_CHECK (ve_unbiased e) (frame_sum false data)) in hlift (Ok g)
    | test_simulation_func_data_sparse =>
        let! (data, g) := simulate_of (params_of e) (ve_spec e) (ve_files e) true true g in
        let! _ := hlift (compare_sums LABELS_DATA_SPARSE (ve_expected e) (frame_sum true data)) in hlift (Ok g)
    end.

  (** several tests, one after the other, with the vault loaded once (the fixture of
      test_regression.py:51-58 has module scope) *)
  Fixpoint run_tests (tests : list (regression_test * Z)) (vault : list (Z * vault_entry T)) (g : rng_state rg) : hm (T := T) (rng_state rg) :=
    match tests with
    | [] => hlift (Ok g)
    | (k, i) :: tests =>
        let! e := hlift (vault_get vault i) in
        let! g := run_test k e g in
        run_tests tests vault g
    end.
End Tests.
