(** Property theorems C45 - C47: reading the specification and the parameters. *)
From Coq Require Import Reals Lra Lia ZArith List String Permutation.
From Verif Require Import Base Num M_Params M_Tax M_Spec S_Exog S_Spec L_Num L_Spec L_SpecSame L_SpecRun L_SpecField L_Params L_SpecOrder X_Example X_Dict.
Import ListNotations.
Local Open Scope string_scope.
Local Open Scope list_scope.
Open Scope R_scope.

(** C45: whatever is passed and whether or not it is accepted, every object of the caller is
    as before. *)
Theorem C45_caller_unchanged :
  forall a df (h : heap R) l d, nth_error h l = Some d -> nth_error (fst (read_model_spec_init a df h)) l = Some d.
Proof.
  intros a df h l d H. destruct (read_frame a df h) as (extra & ->). rewrite nth_error_app1; [exact H|].
  apply nth_error_Some. congruence.
Qed.
Print Assumptions C45_caller_unchanged.

(** However often and with whatever arguments specifications were read before, the result for
    a dictionary is the same, and it is the result for a file with the same contents. *)
Theorem C45_same_result :
  forall (h h' h'' : heap R) df loc, closed h -> (loc < List.length h)%nat -> after_readings h h' ->
  snd (read_model_spec_init (SpecDict loc) df h') = snd (read_model_spec_init (SpecDict loc) df h) /\
  snd (read_model_spec_init (SpecPath h loc) df h'') = snd (read_model_spec_init (SpecDict loc) df h).
Proof.
  intros h h' h'' df loc Hc Hl Ha.
  assert (E : exists extra, h' = h ++ extra).
  { induction Ha as [|h1 a df' H (e1 & ->)]; [exists []; rewrite app_nil_r; reflexivity|].
    destruct (read_frame a df' (h ++ e1)) as (e2 & ->). exists (e1 ++ e2). apply app_assoc_reverse. }
  destruct E as (extra & ->). pose proof (read_same h extra [] h'' loc df Hc Hl) as (E1 & E2). rewrite app_nil_r in E1, E2.
  split; assumption.
Qed.
Print Assumptions C45_same_result.

(** A dictionary with all entries is accepted, and the specification holds its amounts per
    week: converted, and converted once. *)
Theorem C45_weekly_once :
  forall a h c loc root D df, source a h = (c, loc) -> complete c loc root D ->
  exists sp, snd (read_model_spec_init a df h) = Ok sp /\ agrees c loc root D df sp.
Proof. exact complete_read. Qed.
Print Assumptions C45_weekly_once.

(** The entries decide the specification completely: no field is left to anything else. *)
Theorem C45_entries_decide :
  forall h loc root D df sp sp', complete h loc root D -> agrees h loc root D df sp -> agrees h loc root D df sp' -> sp = sp'.
Proof. exact agrees_determined. Qed.
Print Assumptions C45_entries_decide.

(** The order in which the entries of a dictionary or of its sections are written does not matter, whether it is
    passed or read from a file. *)
Theorem C45_order :
  forall a a' g g' (h h' : heap R) loc root D df, source a g = (h, loc) -> source a' g' = (h', loc) ->
  Forall2 (@Permutation (string * pyval R)) h h' -> (forall d, In d h -> NoDup (map fst d)) ->
  complete h loc root D ->
  snd (read_model_spec_init a' df g') = snd (read_model_spec_init a df g).
Proof.
  intros a a' g g' h h' loc root D df Hs Hs' Hr Hn Hc.
  destruct (complete_reordered h h' loc root D Hr Hn Hc) as (root' & D' & Hc' & Ha).
  destruct (complete_read a g h loc root D df Hs Hc) as (sp & -> & A).
  destruct (complete_read a' g' h' loc root' D' df Hs' Hc') as (sp' & -> & A').
  rewrite (agrees_determined h loc root D df sp sp' Hc A (Ha df sp' A')). reflexivity.
Qed.
Print Assumptions C45_order.

(** the example dictionary with the entries of every object written backwards *)
Example C45_backwards : Forall2 (@Permutation (string * pyval R)) ex_heap (map (@rev _) ex_heap) /\
  (forall d, In d ex_heap -> NoDup (map fst d)) /\ complete ex_heap 0 ex_root ex_D /\
  nth_error (map (@rev _) ex_heap) 1 = nth_error ex_heap 1 /\ nth_error (map (@rev _) ex_heap) 3 <> nth_error ex_heap 3.
Proof.
  split; [cbn [ex_heap heap_with heap_of map]; repeat (constructor; [apply Permutation_rev|]); constructor|].
  split; [intros d Hd; apply no_dups; cbn [ex_heap heap_with heap_of In] in Hd; repeat (destruct Hd as [<-|Hd]; [reflexivity|]); destruct Hd|].
  split; [exact ex_complete|]. split; [reflexivity|discriminate].
Qed.

Example C45_dictionary : closed ex_heap /\ (0 < List.length ex_heap)%nat /\ complete ex_heap 0 ex_root ex_D /\
  after_readings ex_heap (fst (read_model_spec_init (SpecDict 5) [] (fst (read_model_spec_init (SpecDict 0) [] ex_heap)))).
Proof.
  split; [exact ex_closed|]. split; [cbn; lia|]. split; [exact ex_complete|]. apply one_more, one_more, no_reading.
Qed.
(** 300 a month becomes 300/4.3 a week, also when the same dictionary is read again *)
Example C45_amount : forall df h', after_readings ex_heap h' ->
  exists sp, snd (read_model_spec_init (SpecDict 0) df h') = Ok sp /\ elterngeld_min sp = 300 / (43/10) /\
    child_care_costs sp = [[0; 0]; [86 / (43/10); 172 / (43/10)]; [64 / (43/10); 129 / (43/10)]] /\ num_educ_levels sp = 3%Z.
Proof.
  intros df h' Ha. destruct (C45_weekly_once (SpecDict 0) ex_heap ex_heap 0 ex_root ex_D df eq_refl ex_complete) as (sp & E & A).
  exists sp. rewrite (proj1 (C45_same_result ex_heap h' ex_heap df 0 ex_closed ltac:(cbn; lia) Ha)). split; [exact E|].
  split; [apply (ag_week _ _ _ _ _ _ A "elterngeld_min" (43/10) elterngeld_min (VInt 300));
    [left; reflexivity|split; [reflexivity|split; reflexivity]|right; exists 300%Z; split; reflexivity]|]. split.
  - apply (ag_costs _ _ _ _ _ _ A (VInts [86; 172]%Z) (VNums [64; 129])).
    + exists 8%nat, ex_care. split; [reflexivity|]. split; [reflexivity|]. split; [reflexivity|]. split; [reflexivity|]. split; [discriminate|].
      intros g Hg. cbn [sections In] in Hg. repeat (destruct Hg as [<-|Hg]; [discriminate|]). destruct Hg.
    + left. right. exists [86; 172]%Z. split; reflexivity.
    + left. left. reflexivity.
  - apply (ag_educ _ _ _ _ _ _ A [0; 1; 2]%Z). reflexivity.
Qed.

(** C46: what is missing decides which error is raised: first whether couples share taxes,
    then the tax year, then its being 2007, then the child care costs.  (How the remaining
    errors are ordered is in T_Main.v.) *)
Theorem C46_dictionary_errors :
  forall a h c loc root D df w ne,
  source a h = (c, loc) -> described c loc root D ->
  assoc_get "educ_years" (D "EDUC") = Some w -> py_len w = Ok ne ->
  let tax := D "TAXES_TRANSFERS" in
  let out := snd (read_model_spec_init a df h) in
  (assoc_get "tax_splitting" tax = None -> out = Err (ValueError "Specify if couples share taxes.")) /\
  (forall s, assoc_get "tax_splitting" tax = Some s ->
    (assoc_get "tax_year" tax = None -> out = Err (ValueError "Specify tax_year.")) /\
    (forall y, assoc_get "tax_year" tax = Some y ->
      (~ number y 2007 -> out = Err (ValueError "Tax year not implemented.")) /\
      (number y 2007 ->
        assoc_get "child_care_costs" tax = None \/ care_costs_incomplete c loc root D ->
        out = Err (ValueError "Child care costs not properly specified.")))).
Proof.
  intros a h c loc root D df w ne Hs Hd He Hl tax out. split; [exact (error_splitting a h c loc root D df Hs Hd w ne He Hl)|].
  intros s Hsp. split; [exact (error_year a h c loc root D df Hs Hd w ne He Hl s Hsp)|].
  intros y Hy. split; [exact (error_2007 a h c loc root D df Hs Hd w ne He Hl s Hsp y Hy)|].
  intros H7 [H|(l & cc & H1 & H2 & H3 & H4 & H5)].
  - exact (error_costs a h c loc root D df Hs Hd w ne He Hl s Hsp y Hy H7 H).
  - exact (error_costs_part a h c loc root D df Hs Hd w ne He Hl s Hsp y Hy H7 l cc H1 H2 H3 H4 H5).
Qed.
Print Assumptions C46_dictionary_errors.

Theorem C46_complete_accepted :
  forall a h c loc root D df, source a h = (c, loc) -> complete c loc root D ->
  exists sp, snd (read_model_spec_init a df h) = Ok sp.
Proof. intros a h c loc root D df Hs Hc. destruct (complete_read a h c loc root D df Hs Hc) as (sp & E & _). exists sp. exact E. Qed.
Print Assumptions C46_complete_accepted.

(** the example dictionary with entries of TAXES_TRANSFERS or of the costs removed *)
Example C46_cases : forall taxes care, NoDup (map fst taxes) ->
  (taxes = tl (tl ex_taxes) \/ taxes = tl ex_taxes \/ taxes = ("tax_year", VInt 2008) :: tl ex_taxes) ->
  described (heap_with ex_simulation taxes care) 0 ex_root (sections_with ex_simulation taxes) /\
  assoc_get "educ_years" (sections_with ex_simulation taxes "EDUC") = Some (VInts [0; 1; 2]%Z) /\
  (taxes = tl (tl ex_taxes) -> assoc_get "tax_splitting" taxes = None) /\
  (taxes = tl ex_taxes -> assoc_get "tax_splitting" taxes = Some (VBool true) /\ assoc_get "tax_year" taxes = None) /\
  (taxes = ("tax_year", VInt 2008) :: tl ex_taxes -> assoc_get "tax_year" taxes = Some (VInt 2008) /\ ~ number (VInt 2008) 2007).
Proof.
  intros taxes care Hn H. split; [apply ex_described; [apply no_dups; reflexivity|exact Hn]|]. split; [reflexivity|].
  split; [intros ->; reflexivity|]. split; [intros ->; split; reflexivity|]. intros ->. split; [reflexivity|].
  intros [E|(z & E & E')]; [discriminate|]. injection E as <-. apply eq_IZR in E'. discriminate.
Qed.
Example C46_costs_missing : care_costs_incomplete (heap_with ex_simulation ex_taxes (tl ex_care)) 0 ex_root ex_D.
Proof.
  exists 8%nat, (tl ex_care). split; [reflexivity|]. split; [reflexivity|]. split; [discriminate|]. split; [|left; reflexivity].
  intros g Hg. cbn [sections In] in Hg. repeat (destruct Hg as [<-|Hg]; [discriminate|]). destruct Hg.
Qed.

(** C47: with up to ten types the parameter of type k is in place k and 0 in place 0; the
    baseline share is what is left. *)
Theorem C47_types_aligned :
  forall a df mp n share p f, (n <= 9)%nat -> read_model_params_init a = Ok (df, mp) -> with_types df n share p f ->
  List.length (theta_p mp) = S n /\ List.length (theta_f mp) = S n /\ List.length (type_shares mp) = S n /\
  nth_error (theta_p mp) 0 = Some 0 /\ nth_error (theta_f mp) 0 = Some 0 /\
  nth_error (type_shares mp) 0 = Some (1 - total (map share (seq 1 n))) /\
  (forall k, (1 <= k <= n)%nat -> nth_error (theta_p mp) k = Some (p k) /\ nth_error (theta_f mp) k = Some (f k) /\
     nth_error (type_shares mp) k = Some (share k)) /\
  total (type_shares mp) = 1.
Proof.
  intros a df mp n share p f Hn Hr Ht. destruct (params_read a df mp Hr) as (d & sd & sh & nt & het & E & Eh & E1 & E2 & E3).
  destruct (expand_types df d sd sh nt n share p f E Ht) as (Esh & het' & Hp & Eh'). rewrite Eh' in Eh.
  assert (het = assoc_set "theta_f0" 0 (assoc_set "theta_p0" 0 het')) by congruence. subst het.
  rewrite E1, E2, E3, Esh. rewrite (theta_of het' p f n p "p" Hn Hp) by (left; split; reflexivity).
  rewrite (theta_of het' p f n f "f" Hn Hp) by (right; split; reflexivity).
  cbn [List.length]. rewrite !map_length, seq_length. rewrite nsum_R. change total with Rsum.
  refine (conj eq_refl (conj eq_refl (conj eq_refl (conj eq_refl (conj eq_refl (conj eq_refl (conj _ _))))))).
  - intros k Hk. destruct k as [|k]; [lia|]. cbn [nth_error].
    assert (Es : nth_error (seq 1 n) k = Some (S k)).
    { rewrite nth_error_nth' with (d := 0%nat) by (rewrite seq_length; lia). rewrite seq_nth by lia. reflexivity. }
    rewrite !(map_nth_error _ _ _ Es). split; [reflexivity|split; reflexivity].
  - cbn [Rsum fold_right]. ring.
Qed.
Print Assumptions C47_types_aligned.

(** Without shares there is the baseline only. *)
Theorem C47_one_type :
  forall a df mp, read_model_params_init a = Ok (df, mp) -> assoc_get "shares" df = None ->
  theta_p mp = [0] /\ theta_f mp = [0] /\ type_shares mp = [1].
Proof.
  intros a df mp Hr Hs. destruct (params_read a df mp Hr) as (d & sd & sh & nt & het & E & Eh & E1 & E2 & E3).
  destruct (expand_one_type df d sd sh nt E Hs) as (Esh & Eh'). rewrite Eh' in Eh.
  assert (het = [("theta_p0", 0); ("theta_f0", 0)]) by congruence. subst het. rewrite E1, E2, E3, Esh. split; [reflexivity|split; reflexivity].
Qed.
Print Assumptions C47_one_type.

(** The specification counts the same types. *)
Theorem C47_number_of_types :
  forall a pa h c loc root D df mp n share p f,
  source a h = (c, loc) -> complete c loc root D -> read_model_params_init pa = Ok (df, mp) -> with_types df n share p f ->
  exists sp, snd (read_model_spec_init a df h) = Ok sp /\ num_types sp = Z.of_nat (S n) /\
    List.length (type_shares mp) = S n /\ List.length (theta_p mp) = S n /\ List.length (theta_f mp) = S n.
Proof.
  intros a pa h c loc root D df mp n share p f Hs Hc Hr Ht. destruct (complete_read a h c loc root D df Hs Hc) as (sp & E & A).
  exists sp. split; [exact E|]. split.
  - rewrite (ag_types _ _ _ _ _ _ A _ (proj1 Ht)), map_length, seq_length. lia.
  - destruct (params_read pa df mp Hr) as (d & sd & sh & nt & het & E0 & Eh & E1 & E2 & E3).
    destruct (expand_types df d sd sh nt n share p f E0 Ht) as (Esh & het' & Hp & Eh'). rewrite Eh' in Eh.
    assert (het = assoc_set "theta_f0" 0 (assoc_set "theta_p0" 0 het')) by congruence. subst het.
    rewrite E1, E2, E3, Esh. cbn [List.length]. rewrite map_length, seq_length. split; [reflexivity|].
    split; [apply (theta_length het' p f n p "p" Hp); left|apply (theta_length het' p f n f "f" Hp); right]; split; reflexivity.
Qed.
Print Assumptions C47_number_of_types.

(** From eleven types on the names are sorted theta_p0, theta_p1, theta_p10, ..., so that type
    2 gets the parameter of type 10. *)
Theorem C47_eleven_types_refuted :
  forall a df mp n share p f, (10 <= n)%nat -> read_model_params_init a = Ok (df, mp) -> with_types df n share p f ->
  nth_error (theta_p mp) 2 = Some (p 10%nat) /\ nth_error (theta_f mp) 2 = Some (f 10%nat) /\
  nth_error (type_shares mp) 2 = Some (share 2%nat).
Proof.
  intros a df mp n share p f Hn Hr Ht. destruct (params_read a df mp Hr) as (d & sd & sh & nt & het & E & Eh & E1 & E2 & E3).
  destruct (expand_types df d sd sh nt n share p f E Ht) as (Esh & het' & Hp & Eh'). rewrite Eh' in Eh.
  assert (het = assoc_set "theta_f0" 0 (assoc_set "theta_p0" 0 het')) by congruence. subst het.
  rewrite E1, E2, E3, Esh. split; [apply (theta_third het' p f n p "p" Hn Hp); left; split; reflexivity|].
  split; [apply (theta_third het' p f n f "f" Hn Hp); right; split; reflexivity|].
  cbn [nth_error]. do 2 (destruct n as [|n]; [lia|]). reflexivity.
Qed.
Print Assumptions C47_eleven_types_refuted.

Example C47_parameters : forall n share p f, exists mp,
  read_model_params_init (ParamsFrame (ex_types n share p f)) = Ok (ex_types n share p f, mp) /\
  with_types (ex_types n share p f) n share p f.
Proof. intros n share p f. destruct (ex_types_read n share p f) as (mp & E). exists mp. split; [exact E|apply ex_types_with]. Qed.
(** eleven types with preferences -1, -2, ...: type 2 is given -10 *)
Example C47_wrong_type : exists df mp, read_model_params_init (ParamsFrame df) = Ok (df, mp) /\
  assoc_get "hetrg_unobs" df <> None /\
  (exists het, assoc_get "hetrg_unobs" df = Some het /\ assoc_get "theta_p2" het = Some (-2)) /\ nth_error (theta_p mp) 2 = Some (-10).
Proof.
  set (df := ex_types 10 (fun _ => 1/20) (fun i => - INR i) (fun i => - INR i)).
  destruct (ex_types_read 10 (fun _ => 1/20) (fun i => - INR i) (fun i => - INR i)) as (mp & E).
  exists df, mp. split; [exact E|]. split; [discriminate|]. split.
  - eexists. split; [reflexivity|]. change (Some (- INR 2) = Some (-2)). f_equal. 
  - destruct (C47_eleven_types_refuted _ _ _ 10 _ _ _ (le_n _) E (ex_types_with _ _ _ _)) as (H & _). rewrite H. f_equal.
    replace (INR 10) with 10; [reflexivity|]. rewrite INR_IZR_INZ. reflexivity.
Qed.
