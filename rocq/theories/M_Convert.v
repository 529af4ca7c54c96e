(** Model of the converters at the end of soepy/test/random_init.py:420-503 (no caller). *)
From Coq Require Import ZArith List String.
From Verif Require Import Base Num M_Params M_Tax M_Spec.
Import ListNotations.
Local Open Scope string_scope.
Local Open Scope list_scope.

Section Model.
  Context {T : Type}.
  Local Notation "'let!' x := e 'in' f" := (hbind e (fun x => f))
    (at level 200, x pattern, e at level 100, f at level 200, right associativity).

  (** random_init.py:420-425: the entries of a named tuple as a dictionary.  A specification is
      made from its dictionary (model_processing.py:238-243), so that they are the same here. *)
  Definition namedtuple_to_dict (entries : pydict T) : pydict T := entries.

  (** [init_dict[g][k] = init_dict_flat[k]] for the keys of a section, one by one *)
  Definition take (flat : pydict T) (keys : list string) : result (pydict T) :=
    mapM (fun k => do v <- kget flat k; Ok (k, v)) keys.

  (** random_init.py:428-492.  (The outer dictionary is made at the end here, at the beginning
      in the source, which cannot be observed.) *)
  Definition init_dict_flat_to_init_dict (flat : pydict T) : hm nat :=
    let! d1 := hlift (take flat ["num_periods"]) in
    let! l1 := hnew d1 in
    let! d2 := hlift (take flat ["educ_years"]) in
    let! l2 := hnew d2 in
    let! d3 := hlift (take flat ["seed_sim"; "num_agents_sim"]) in
    let! l3 := hnew d3 in
    let! d4 := hlift (take flat ["seed_emax"; "num_draws_emax"]) in
    let! l4 := hnew d4 in
    let! d5 := hlift (take flat ["alg1_replacement_no_child"; "alg1_replacement_child"; "child_benefits"; "regelsatz_single";
                                 "regelsatz_partner"; "regelsatz_child"; "elterngeld_replacement"; "elterngeld_min"; "elterngeld_max";
                                 "addition_child_single"; "housing_single"; "housing_addtion"; "ssc_rate"; "ssc_cap"; "tax_year"]) in
    let! l5 := hnew d5 in
    let! d6 := hlift (take flat ["child_age_init_max"; "init_exp_max"]) in
    let! l6 := hnew d6 in
    let! d7 := hlift (take flat ["child_age_max"; "last_child_bearing_period"]) in
    let! l7 := hnew d7 in
    hnew [("GENERAL", VRef l1); ("EDUC", VRef l2); ("SIMULATION", VRef l3); ("SOLUTION", VRef l4); ("TAXES_TRANSFERS", VRef l5);
          ("INITIAL_CONDITIONS", VRef l6); ("EXOG_PROC", VRef l7)].

  (** random_init.py:495-503: the contents of a yaml file *)
  Definition read_init_file2 (contents : heap T) (loc : nat) : hm nat := hload contents loc.
End Model.
