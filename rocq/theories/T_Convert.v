(** Property theorems C99: the converters of the test generator do not give specifications. *)
From Coq Require Import Reals Lra Lia ZArith List String Bool.
From Verif Require Import Base Num M_Params M_Tax M_Spec M_Convert S_Spec L_Num L_Exog L_Spec L_SpecField M_RandomInit S_RandomInit L_RandomInit X_Dict T_Spec.
Import ListNotations.
Local Open Scope string_scope.
Local Open Scope list_scope.
Open Scope R_scope.

(** the section to which an entry of a flat dictionary returns *)
Definition home (k : string) : option string :=
  if existsb (String.eqb k) ["num_periods"] then Some "GENERAL"
  else if existsb (String.eqb k) ["educ_years"] then Some "EDUC"
  else if existsb (String.eqb k) ["seed_sim"; "num_agents_sim"] then Some "SIMULATION"
  else if existsb (String.eqb k) ["seed_emax"; "num_draws_emax"] then Some "SOLUTION"
  else if existsb (String.eqb k) ["alg1_replacement_no_child"; "alg1_replacement_child"; "child_benefits"; "regelsatz_single"; "regelsatz_partner";
         "regelsatz_child"; "elterngeld_replacement"; "elterngeld_min"; "elterngeld_max"; "addition_child_single"; "housing_single";
         "housing_addtion"; "ssc_rate"; "ssc_cap"; "tax_year"] then Some "TAXES_TRANSFERS"
  else if existsb (String.eqb k) ["child_age_init_max"; "init_exp_max"] then Some "INITIAL_CONDITIONS"
  else if existsb (String.eqb k) ["child_age_max"; "last_child_bearing_period"] then Some "EXOG_PROC"
  else None.

Lemma take_get (flat : pydict R) keys d : take flat keys = Ok d -> map fst d = keys /\
  forall k, assoc_get k d = if existsb (String.eqb k) keys then assoc_get k flat else None.
Proof.
  revert d. induction keys as [|a keys IH]; intros d H; cbn [take mapM] in H; [injection H as <-; split; reflexivity|].
  unfold take in IH, H. cbn [mapM] in H. destruct (kget flat a) as [v|] eqn:E; [|discriminate]. cbn [bind] in H.
  destruct (mapM _ keys) as [d'|] eqn:E2; [|discriminate]. cbn [bind] in H. injection H as <-. destruct (IH d' eq_refl) as [I1 I2].
  cbn [map fst]. split; [rewrite I1; reflexivity|]. intros k. cbn [existsb]. unfold assoc_get in *. cbn [find fst].
  rewrite String.eqb_sym. destruct (String.eqb_spec k a) as [->|N].
  - cbn [orb snd]. unfold kget, assoc_get in E. destruct (find (fun kv => String.eqb (fst kv) a) flat) as [kv|]; [|discriminate].
    assert (Q : snd kv = v) by congruence. rewrite Q. reflexivity.
  - cbn [orb]. apply I2.
Qed.

Lemma take_total (flat : pydict R) keys : (forall k, In k keys -> assoc_get k flat <> None) -> exists d, take flat keys = Ok d.
Proof.
  intros H. apply mapM_ok_forall. intros k Hk. specialize (H k Hk). unfold kget. destruct (assoc_get k flat) as [v|]; [|contradiction].
  eexists. reflexivity.
Qed.
Lemma take_error (flat : pydict R) keys e : take flat keys = Err e -> exists k, In k keys /\ assoc_get k flat = None /\ e = KeyError k.
Proof.
  induction keys as [|a keys IH]; intros H; [discriminate|]. unfold take in *. cbn [mapM] in H. unfold kget at 1 in H.
  destruct (assoc_get a flat) as [v|] eqn:E.
  - cbn [bind] in H. destruct (mapM _ keys) as [d|e'] eqn:E2; [discriminate|]. cbn [bind] in H. destruct (IH ltac:(congruence)) as (k & K1 & K2 & K3).
    exists k. split; [right; exact K1|]. split; assumption.
  - cbn [bind] in H. exists a. split; [left; reflexivity|]. split; [exact E|congruence].
Qed.

(** the result of the converter: seven new dictionaries behind the others *)
Lemma convert_run (flat : pydict R) h : exists r, snd (init_dict_flat_to_init_dict flat h) = r /\
  match r with
  | Ok l => exists d1 d2 d3 d4 d5 d6 d7,
      take flat ["num_periods"] = Ok d1 /\ take flat ["educ_years"] = Ok d2 /\ take flat ["seed_sim"; "num_agents_sim"] = Ok d3 /\
      take flat ["seed_emax"; "num_draws_emax"] = Ok d4 /\
      take flat ["alg1_replacement_no_child"; "alg1_replacement_child"; "child_benefits"; "regelsatz_single";
                 "regelsatz_partner"; "regelsatz_child"; "elterngeld_replacement"; "elterngeld_min"; "elterngeld_max";
                 "addition_child_single"; "housing_single"; "housing_addtion"; "ssc_rate"; "ssc_cap"; "tax_year"] = Ok d5 /\
      take flat ["child_age_init_max"; "init_exp_max"] = Ok d6 /\ take flat ["child_age_max"; "last_child_bearing_period"] = Ok d7 /\
      let n := List.length h in l = (n + 7)%nat /\
      fst (init_dict_flat_to_init_dict flat h)
      = h ++ [d1; d2; d3; d4; d5; d6; d7;
              [("GENERAL", VRef n); ("EDUC", VRef (n + 1)); ("SIMULATION", VRef (n + 2)); ("SOLUTION", VRef (n + 3)); ("TAXES_TRANSFERS", VRef (n + 4));
               ("INITIAL_CONDITIONS", VRef (n + 5)); ("EXOG_PROC", VRef (n + 6))]]
  | Err e => exists k, home k <> None /\ assoc_get k flat = None /\ e = KeyError k
  end.
Proof.
  eexists. split; [reflexivity|]. unfold init_dict_flat_to_init_dict, hbind, hlift, hnew.
  Ltac one := let E := fresh "E" in match goal with |- context [take ?f ?ks] =>
    destruct (take f ks) eqn:E; [|destruct (take_error _ _ _ E) as (k & K1 & K2 & K3); exists k; split; [|split; assumption];
      repeat (destruct K1 as [<-|K1]; [discriminate|]); destruct K1] end.
  do 7 one.
  cbn [fst snd]. do 7 eexists. do 7 (split; [first [eassumption|reflexivity]|]). cbv zeta. rewrite !app_length. cbn [List.length].
  split; [lia|]. rewrite <- !app_assoc. cbn [app]. rewrite <- ?Nat.add_assoc. cbn [Nat.add]. reflexivity.
Qed.

(** C99, the values: every entry returns to its section with its value, and nothing else is kept. *)
Theorem C99_values :
  forall (flat : pydict R) h h' l, init_dict_flat_to_init_dict flat h = (h', Ok l) ->
  exists root D, described h' l root D /\ assoc_get "exp_grid" root = None /\
    forall g k, In g sections ->
      (home k = Some g -> assoc_get k (D g) = assoc_get k flat /\ assoc_get k flat <> None) /\
      (home k <> Some g -> assoc_get k (D g) = None).
Proof.
  intros flat h h' l H. destruct (convert_run flat h) as (r & E & Hr). rewrite H in E, Hr. cbn [fst snd] in E, Hr. subst r.
  destruct Hr as (d1 & d2 & d3 & d4 & d5 & d6 & d7 & T1 & T2 & T3 & T4 & T5 & T6 & T7 & -> & ->).
  set (n := List.length h).
  set (D := fun g => if String.eqb g "GENERAL" then d1 else if String.eqb g "EDUC" then d2 else if String.eqb g "SIMULATION" then d3
            else if String.eqb g "SOLUTION" then d4 else if String.eqb g "TAXES_TRANSFERS" then d5 else if String.eqb g "INITIAL_CONDITIONS" then d6 else d7).
  set (place := fun g => if String.eqb g "GENERAL" then n else if String.eqb g "EDUC" then (n + 1)%nat else if String.eqb g "SIMULATION" then (n + 2)%nat
            else if String.eqb g "SOLUTION" then (n + 3)%nat else if String.eqb g "TAXES_TRANSFERS" then (n + 4)%nat
            else if String.eqb g "INITIAL_CONDITIONS" then (n + 5)%nat else (n + 6)%nat).
  apply take_get in T1, T2, T3, T4, T5, T6, T7.
  destruct T1 as [F1 G1], T2 as [F2 G2], T3 as [F3 G3], T4 as [F4 G4], T5 as [F5 G5], T6 as [F6 G6], T7 as [F7 G7].
  eexists _, D. split; [|split].
  - split; [|exists place; split].
    + rewrite nth_error_app2 by (fold n; lia). fold n. replace (n + 7 - n)%nat with 7%nat by lia. reflexivity.
    + unfold sections, place. cbn [map String.eqb Ascii.eqb Bool.eqb].
      repeat (constructor; [cbn [In]; lia|]). constructor.
    + assert (N : forall m d, nth_error [d1; d2; d3; d4; d5; d6; d7] m = Some d -> forall rest, nth_error (h ++ d1 :: d2 :: d3 :: d4 :: d5 :: d6 :: d7 :: rest) (n + m) = Some d).
      { intros m d Hm rest. rewrite nth_error_app2 by (fold n; lia). fold n. replace (n + m - n)%nat with m by lia.
        change (d1 :: d2 :: d3 :: d4 :: d5 :: d6 :: d7 :: rest) with ([d1; d2; d3; d4; d5; d6; d7] ++ rest). rewrite nth_error_app1; [exact Hm|].
        apply nth_error_Some. congruence. }
      assert (U : forall g d keys, map fst d = keys -> NoDup keys -> D g = d -> NoDup (map fst (D g))) by (intros g d keys Q1 Q2 ->; rewrite Q1; exact Q2).
      Ltac distinct := repeat (constructor; [cbn [In]; intuition discriminate|]); constructor.
      intros g Hg. cbn [sections In] in Hg.
      destruct Hg as [<-|[<-|[<-|[<-|[<-|[<-|[<-|[]]]]]]]]; unfold place, D; cbn [String.eqb Ascii.eqb Bool.eqb]; (split; [reflexivity|]); (split;
        [first [apply N; reflexivity|pose proof (N 0%nat d1 eq_refl) as N0; rewrite Nat.add_0_r in N0; apply N0]|]).
      all: match goal with F : map fst ?d = _ |- NoDup (map fst ?d) => rewrite F; distinct end.
  - reflexivity.
  - intros g k Hg. cbn [sections In] in Hg.
    assert (K : forall keys d, (forall k, assoc_get k d = if existsb (String.eqb k) keys then assoc_get k flat else None) -> map fst d = keys ->
                  existsb (String.eqb k) keys = true -> assoc_get k flat <> None).
    { intros keys d Gd Fd Hk Q. specialize (Gd k). rewrite Hk, Q in Gd. rewrite <- Fd in Hk. apply existsb_exists in Hk. destruct Hk as (k' & Hin & Ek).
      apply String.eqb_eq in Ek. subst k'. apply in_map_iff in Hin. destruct Hin as (kv & Ekv & Hin). unfold assoc_get in Gd.
      destruct (find _ d) eqn:Ef; [discriminate|]. apply (find_none _ _ Ef) in Hin. rewrite Ekv, String.eqb_refl in Hin. discriminate. }
    split.
    + intros Hh. unfold home in Hh.
      repeat match type of Hh with (if ?b then _ else _) = _ => let Q := fresh "Q" in destruct b eqn:Q; [injection Hh as <-|] end; [..|discriminate Hh];
      unfold D; cbn [String.eqb Ascii.eqb Bool.eqb];
      (split; [first [rewrite G1|rewrite G2|rewrite G3|rewrite G4|rewrite G5|rewrite G6|rewrite G7];
               match goal with Q : existsb _ _ = true |- _ => rewrite Q end; reflexivity|]);
      match goal with Q : existsb _ _ = true |- _ =>
        first [exact (K _ _ G1 F1 Q)|exact (K _ _ G2 F2 Q)|exact (K _ _ G3 F3 Q)|exact (K _ _ G4 F4 Q)|exact (K _ _ G5 F5 Q)|exact (K _ _ G6 F6 Q)|exact (K _ _ G7 F7 Q)] end.
    + intros Hh. unfold home in Hh.
      destruct Hg as [<-|[<-|[<-|[<-|[<-|[<-|[<-|[]]]]]]]]; unfold D; cbn [String.eqb Ascii.eqb Bool.eqb];
      first [rewrite G1|rewrite G2|rewrite G3|rewrite G4|rewrite G5|rewrite G6|rewrite G7];
      match goal with |- (if ?b then _ else _) = _ => destruct b eqn:Q; [exfalso|reflexivity] end;
      apply existsb_exists in Q; destruct Q as (k' & Hin & Ek); apply String.eqb_eq in Ek; subst k';
      cbn [In] in Hin; repeat (destruct Hin as [<-|Hin]; [apply Hh; reflexivity|]); destruct Hin.
Qed.
Print Assumptions C99_values.

(** ... it works for exactly the dictionaries with all these entries and names a missing one otherwise. *)
Theorem C99_needed :
  forall (flat : pydict R) h,
  (exists h' l, init_dict_flat_to_init_dict flat h = (h', Ok l)) \/
  (exists h' k, init_dict_flat_to_init_dict flat h = (h', Err (KeyError k)) /\ home k <> None /\ assoc_get k flat = None).
Proof.
  intros flat h. destruct (convert_run flat h) as (r & E & Hr). destruct (init_dict_flat_to_init_dict flat h) as [h' r']. cbn [snd fst] in *. subst r'.
  destruct r as [l|e].
  - left. exists h', l. reflexivity.
  - right. destruct Hr as (k & K1 & K2 & ->). exists h', k. split; [reflexivity|]. split; assumption.
Qed.
Print Assumptions C99_needed.

(** C99: the result is no specification, whatever it was made from: reading it complains that
    tax_splitting is missing. *)
Theorem C99_not_readable :
  forall (flat : pydict R) h h' l v ne df, init_dict_flat_to_init_dict flat h = (h', Ok l) ->
  assoc_get "educ_years" flat = Some v -> py_len v = Ok ne ->
  snd (read_model_spec_init (SpecDict l) df h') = Err (ValueError "Specify if couples share taxes.").
Proof.
  intros flat h h' l v ne df H Hv Hl. destruct (C99_values flat h h' l H) as (root & D & Hd & _ & Hg).
  assert (He : assoc_get "educ_years" (D "EDUC") = Some v).
  { destruct (Hg "EDUC" "educ_years") as [G _]; [right; left; reflexivity|]. destruct (G eq_refl) as [-> _]. exact Hv. }
  apply (C46_dictionary_errors (SpecDict l) h' h' l root D df v ne eq_refl Hd He Hl).
  destruct (Hg "TAXES_TRANSFERS" "tax_splitting") as [_ G]; [do 4 right; left; reflexivity|]. apply G. discriminate.
Qed.
Print Assumptions C99_not_readable.

(** C99: of a specification that was read, the converter returns amounts per week, where a dictionary
    has them per month. *)
Theorem C99_amounts_per_week :
  forall a h c loc root D df flat h1 h2 h3 l k v x, source a h = (c, loc) -> complete c loc root D ->
  In k ["elterngeld_min"; "elterngeld_max"] -> tax_entry D k v -> number v x ->
  read_model_spec_flat a df h = (h1, Ok flat) ->
  init_dict_flat_to_init_dict (namedtuple_to_dict flat) h2 = (h3, Ok l) ->
  exists root' D' w, described h3 l root' D' /\ assoc_get k (D' "TAXES_TRANSFERS") = Some w /\ number w (x / (43/10)).
Proof.
  intros a h c loc root D df flat h1 h2 h3 l k v x Hs Hc Hk Ht Hx Hf Hl. unfold namedtuple_to_dict in Hl.
  destruct (C99_values flat h2 h3 l Hl) as (root' & D' & Hd & _ & Hg).
  destruct (complete_read a h c loc root D df Hs Hc) as (sp & E & A). unfold read_model_spec_init, hbind in E. rewrite Hf in E. unfold hlift in E. cbn [snd] in E.
  assert (Q : f_num flat k = Ok (x / (43/10))).
  { destruct Hk as [<-|[<-|[]]].
    - rewrite <- (ag_week _ _ _ _ _ _ A "elterngeld_min" (43/10) elterngeld_min v x ltac:(left; reflexivity) Ht Hx).
      unfold spec_of_flat in E. repeat match type of E with bind ?m _ = _ => let e := fresh "e" in destruct m eqn:e; [|discriminate E]; cbn [bind] in E end.
      match type of E with Ok ?s = Ok _ => assert (Es : sp = s) by congruence end. rewrite Es. reflexivity.
    - rewrite <- (ag_week _ _ _ _ _ _ A "elterngeld_max" (43/10) elterngeld_max v x ltac:(right; left; reflexivity) Ht Hx).
      unfold spec_of_flat in E. repeat match type of E with bind ?m _ = _ => let e := fresh "e" in destruct m eqn:e; [|discriminate E]; cbn [bind] in E end.
      match type of E with Ok ?s = Ok _ => assert (Es : sp = s) by congruence end. rewrite Es. reflexivity. }
  destruct (Hg "TAXES_TRANSFERS" k) as [G _]; [do 4 right; left; reflexivity|].
  assert (Hh : home k = Some "TAXES_TRANSFERS") by (destruct Hk as [<-|[<-|[]]]; reflexivity). destruct (G Hh) as [G1 G2].
  unfold f_num, kget in Q. destruct (assoc_get k flat) as [w|] eqn:Ew; [|contradiction]. exists root', D', w. split; [exact Hd|]. split; [rewrite G1; reflexivity|].
  cbn [bind] in Q. destruct w; cbn [as_num] in Q; try discriminate.
  - left. congruence.
  - right. exists z. split; [reflexivity|]. revert Q. rn. intros Q. congruence.
Qed.
Print Assumptions C99_amounts_per_week.

(** *** The hypotheses are met *)
Definition ex_flat : pydict R :=
  map (fun k => (k, VInt 1)) ["num_periods"; "seed_sim"; "num_agents_sim"; "seed_emax"; "num_draws_emax"; "alg1_replacement_no_child"; "alg1_replacement_child";
    "child_benefits"; "regelsatz_single"; "regelsatz_partner"; "regelsatz_child"; "elterngeld_replacement"; "elterngeld_min"; "elterngeld_max";
    "addition_child_single"; "housing_single"; "housing_addtion"; "ssc_rate"; "ssc_cap"; "child_age_init_max"; "init_exp_max"; "child_age_max";
    "last_child_bearing_period"] ++ [("tax_year", VInt 2007); ("educ_years", VInts [0; 1; 2]%Z); ("tax_splitting", VBool true)].
Example C99_case : exists h' l, init_dict_flat_to_init_dict ex_flat [] = (h', Ok l) /\
  assoc_get "educ_years" ex_flat = Some (VInts [0; 1; 2]%Z) /\ py_len (VInts (T := R) [0; 1; 2]%Z) = Ok 3%Z.
Proof. eexists _, _. split; [reflexivity|]. split; reflexivity. Qed.
(** ... the specifications of the test generator can be converted *)
Example C99_random_specifications : forall (st : settings), exists h1 h3 flat l,
  complete (spec_yaml st) 0 (nth 0 (spec_yaml (T := R) st) []) (section_of (spec_yaml st)) /\
  tax_entry (section_of (spec_yaml st)) "elterngeld_min" (VInt 300) /\ number (VInt 300) 300 /\
  read_model_spec_flat (SpecPath (spec_yaml st) 0) [] [] = (h1, Ok flat) /\
  init_dict_flat_to_init_dict (namedtuple_to_dict flat) [] = (h3, Ok l).
Proof.
  intros st. do 4 eexists. split; [apply yaml_complete|]. split; [split; [reflexivity|split; reflexivity]|]. split; [right; eexists; split; reflexivity|].
  split; [reflexivity|]. reflexivity.
Qed.
(** ... those without the unused entry regelsatz_partner cannot *)
Example C99_example_not : exists h1 h3 flat,
  read_model_spec_flat (SpecPath ex_heap 0) [] [] = (h1, Ok flat) /\
  init_dict_flat_to_init_dict flat [] = (h3, Err (KeyError "regelsatz_partner")).
Proof. do 3 eexists. split; reflexivity. Qed.
