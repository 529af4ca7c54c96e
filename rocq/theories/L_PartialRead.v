(** Reading the inputs in the arithmetic with an undefined value. *)
From Coq Require Import Reals Lra Lia ZArith List String.
From Verif Require Import Base Num M_Params M_Experience M_Tax M_NonEmployment M_StateSpace M_Solve M_Exog M_Sim M_Spec M_Main S_Partial
  L_Num L_StateSpace L_Partial L_PartialSolve L_PartialSim L_PartialMain.
Import ListNotations.
Local Open Scope string_scope.
Local Open Scope list_scope.
Open Scope R_scope.

Section Undefined_numbers.
Context {U : Unspecified}.

(** *** dictionaries *)
Lemma assoc_map {A B} (f : A -> B) k (d : list (string * A)) : assoc_get k (map (vmap f) d) = option_map f (assoc_get k d).
Proof.
  unfold assoc_get. induction d as [|(k', v) d IH]; [reflexivity|]. cbn [map find vmap fst snd]. destruct (k' =? k)%string; [reflexivity|exact IH].
Qed.
Lemma mem_map {A B} (f : A -> B) k (d : list (string * A)) : assoc_mem k (map (vmap f) d) = assoc_mem k d.
Proof. unfold assoc_mem. induction d as [|(k', v) d IH]; [reflexivity|]. cbn [map existsb vmap fst snd]. rewrite IH. reflexivity. Qed.
Lemma set_map {A B} (f : A -> B) k v (d : list (string * A)) : assoc_set k (f v) (map (vmap f) d) = map (vmap f) (assoc_set k v d).
Proof. induction d as [|(k', v') d IH]; [reflexivity|]. cbn [map assoc_set vmap fst snd]. destruct (k' =? k)%string; [reflexivity|]. cbn [map vmap fst snd]. f_equal. exact IH. Qed.
Lemma kget_map {A B} (f : A -> B) (d : list (string * A)) k : kget (map (vmap f) d) k = on_ok f (kget d k).
Proof. unfold kget. rewrite assoc_map. destruct (assoc_get k d); reflexivity. Qed.
Lemma insert_map {A B} (f : A -> B) x (l : list (string * A)) : insert_item (vmap f x) (map (vmap f) l) = map (vmap f) (insert_item x l).
Proof. induction l as [|y l IH]; [reflexivity|]. cbn [map insert_item]. unfold vmap at 1 3. cbn [fst]. destruct (String.leb _ _); [reflexivity|]. cbn [map]. rewrite IH. reflexivity. Qed.
Lemma sorted_map {A B} (f : A -> B) (l : list (string * A)) : sorted_items (map (vmap f) l) = map (vmap f) (sorted_items l).
Proof. unfold sorted_items. induction l as [|x l IH]; [reflexivity|]. cbn [map fold_right]. rewrite IH. apply insert_map. Qed.

Notation entries := (map (@vmap string R (option R) Some)).
Lemma p_snd (l : list (string * R)) (q : string * R -> bool) (q' : string * option R -> bool) : (forall x, q' (vmap Some x) = q x) ->
  map snd (filter q' (entries l)) = defined1 (map snd (filter q l)).
Proof. intros H. rewrite (L_PartialSim.filter_map (vmap Some) q q') by exact H. unfold defined1. rewrite !map_map. reflexivity. Qed.

Definition defined_derived (r : R * list R * Z) : option R * list (option R) * Z := (Some (fst (fst r)), defined1 (snd (fst r)), snd r).
Lemma p_expand d : expand_model_params_dict (defined_dict d) = on_ok (fun r => (defined_dict (fst r), defined_derived (snd r))) (expand_model_params_dict d).
Proof.
  unfold expand_model_params_dict, defined_dict. rewrite kget_map. apply on_ok_bind. intros sd _. rewrite kget_map. apply on_ok_bind. intros sg _.
  rewrite assoc_map. destruct (assoc_get "shares" d) as [sh|]; cbn [option_map].
  - rewrite (p_snd sh (fun kv => str_contains "share" (fst kv))) by reflexivity. p_simpl.
    rewrite kget_map. apply on_ok_bind. intros het _. rewrite !set_map. unfold defined1. rewrite zlen_map. reflexivity.
  - p_simpl. change (@nil (string * option R)) with (entries []). rewrite set_map, kget_map. apply on_ok_bind. intros het _. rewrite !set_map. reflexivity.
Qed.
Lemma p_educ d c p : educ_param (defined_dict d) c p = on_ok defined1 (educ_param d c p).
Proof.
  unfold educ_param, defined_dict. rewrite kget_map. apply on_ok_bind. intros k _. rewrite kget_map. apply on_ok_bind. intros lo _. rewrite L_Partial.zlen_map.
  destruct (_ <? _)%Z; [reflexivity|]. rewrite kget_map. apply on_ok_bind. intros mi _. destruct (_ <? _)%Z; [reflexivity|].
  rewrite kget_map. apply on_ok_bind. intros hi _. destruct (_ <? _)%Z; [reflexivity|]. unfold on_ok, defined1. cbn [map]. rewrite map_repeat, map_length. reflexivity.
Qed.
Lemma p_kids d n : kids_param (entries d) n = on_ok defined1 (kids_param d n).
Proof. unfold kids_param. apply mapM_same. intros e _. apply kget_map. Qed.
Lemma p_theta d i : theta_param (entries d) i = defined1 (theta_param d i).
Proof. unfold theta_param. rewrite sorted_map. apply p_snd. reflexivity. Qed.

Ltac next x := first [rewrite kget_map | rewrite p_kids | rewrite p_educ]; apply on_ok_bind; intros x _.
Lemma p_group d r : group_parameters (defined_dict d) (defined_derived r) = on_ok defined_params (group_parameters d r).
Proof.
  destruct r as ((sg, ts), n). unfold group_parameters, defined_derived. cbn [fst snd]. do 3 (rewrite p_educ; apply on_ok_bind; intros ? _). unfold defined_dict.
  do 2 (rewrite kget_map; apply on_ok_bind; intros ? _). rewrite kget_map. apply on_ok_bind. intros dis _. do 4 (rewrite p_kids; apply on_ok_bind; intros ? _).
  do 4 (rewrite kget_map; apply on_ok_bind; intros ? _). rewrite kget_map. apply on_ok_bind. intros het _. do 6 (rewrite kget_map; apply on_ok_bind; intros ? _).
  rewrite !p_theta. reflexivity.
Qed.
Lemma p_read_params a : read_model_params_init (defined_arg a) = on_ok (fun r => (defined_dict (fst r), defined_params (snd r))) (read_model_params_init a).
Proof.
  unfold read_model_params_init. destruct a as [d|d|]; cbn [defined_arg bind]; [| |reflexivity];
    (rewrite p_expand; apply on_ok_bind; intros (d1, r1) _; cbn [fst snd]; rewrite p_group; apply on_ok_bind; intros mp _; reflexivity).
Qed.

(** *** the specification *)
Definition follows {A B} (f : A -> B) (m : hm (T := R) A) (m' : hm (T := option R) B) : Prop :=
  forall h, m' (defined_heap h) = (defined_heap (fst (m h)), on_ok f (snd (m h))).

Lemma f_bind {A B C D} (f : A -> B) (k : C -> D) m m' c c' : follows f m m' -> (forall a, follows k (c a) (c' (f a))) -> follows k (hbind m c) (hbind m' c').
Proof. intros H1 H2 h. unfold hbind. rewrite H1. destruct (m h) as (h1, [a|e]); cbn [fst snd on_ok]; [apply H2|reflexivity]. Qed.
Lemma f_lift {A B} (f : A -> B) r r' : r' = on_ok f r -> follows f (hlift r) (hlift r').
Proof. intros -> h. reflexivity. Qed.
Lemma f_get l : follows defined_obj (hget l) (hget l).
Proof. intros h. unfold hget, defined_heap. cbn [fst snd]. rewrite nth_error_map. destruct (nth_error h l); reflexivity. Qed.
Lemma f_set l d : follows (fun u => u) (hset l d) (hset l (defined_obj d)).
Proof. intros h. unfold hset, defined_heap. cbn [fst snd on_ok]. rewrite map_app. cbn [map]. rewrite firstn_map, skipn_map. reflexivity. Qed.
Lemma f_new d : follows (fun l => l) (hnew d) (hnew (defined_obj d)).
Proof. intros h. unfold hnew, defined_heap. cbn [fst snd on_ok]. rewrite map_app, map_length. reflexivity. Qed.
Lemma shift_defined n d : shift_dict n (defined_obj d) = defined_obj (shift_dict n d).
Proof. unfold shift_dict, defined_obj. rewrite !map_map. apply map_ext. intros (k, v). unfold vmap. cbn [fst snd]. destruct v; reflexivity. Qed.
Lemma f_load c l : follows (fun n => n) (hload c l) (hload (defined_heap c) l).
Proof.
  intros h. unfold hload, defined_heap. cbv zeta. cbn [fst snd on_ok]. rewrite map_app, !map_length, !map_map. do 2 f_equal. apply map_ext. intros d. apply shift_defined.
Qed.
Lemma f_copy l : follows (fun n => n) (deepcopy l) (deepcopy l).
Proof. intros h. unfold deepcopy. apply f_load. Qed.

Lemma obj_get d k : kget (defined_obj d) k = on_ok defined_val (kget d k).
Proof. apply kget_map. Qed.
Lemma p_ref v : as_ref (defined_val v) = as_ref v.
Proof. destruct v; reflexivity. Qed.
Lemma p_num v : as_num (defined_val v) = on_ok Some (as_num v).
Proof. destruct v; reflexivity. Qed.
Lemma p_len v : py_len (defined_val v) = py_len v.
Proof. destruct v; try reflexivity; cbn [defined_val py_len]; unfold defined1, defined2; rewrite L_Partial.zlen_map; reflexivity. Qed.
Lemma p_eq_int v z : py_eq_int (defined_val v) z = py_eq_int v z.
Proof. destruct v; reflexivity. Qed.
Lemma p_row2 v : row2 (defined_val v) = on_ok defined1 (row2 v).
Proof. destruct v; try reflexivity; cbn [defined_val row2]; destruct l as [|? [|? [|? ?]]]; reflexivity. Qed.
Lemma id_ok {A} (r : result A) : on_ok (fun x => x) r = r.
Proof. destruct r; reflexivity. Qed.

Lemma f_group root g : follows (fun l => l) (group_loc root g) (group_loc root g).
Proof.
  apply (f_bind defined_obj); [apply f_get|]. intros d. apply f_lift. rewrite obj_get. apply on_ok_bind. intros v _. rewrite p_ref, id_ok. reflexivity.
Qed.
Lemma factor_M : (M_FACTOR : option R) = Some M_FACTOR.
Proof. apply p_lit. lia. Qed.
Lemma factor_Y : (Y_FACTOR : option R) = Some Y_FACTOR.
Proof. unfold Y_FACTOR. rewrite factor_M. p_simpl. reflexivity. Qed.
Lemma M_not0 : (M_FACTOR : R) <> 0.
Proof. unfold M_FACTOR, nlit. cbn [ndiv nofZ RNum]. lra. Qed.
Lemma Y_not0 : (Y_FACTOR : R) <> 0.
Proof. unfold Y_FACTOR, M_FACTOR, nlit. cbn [ndiv nmul nofZ RNum]. lra. Qed.
Lemma p_progression r t i : nsub (aget t (i + 1)) (aget t i) <> 0 ->
  create_progressionsfactor (defined1 r) (defined1 t) i = Some (create_progressionsfactor r t i).
Proof. intros H. unfold create_progressionsfactor. p_simpl. rewrite p_div by exact H. rewrite p_div by (cbn [nofZ RNum]; lra). reflexivity. Qed.
Lemma p_intercepts r q t : create_intercepts (defined1 r) (defined1 q) (defined1 t) = defined1 (create_intercepts r q t).
Proof. unfold create_intercepts, intercept_step. cbv zeta. p_simpl. reflexivity. Qed.
Lemma apart a b : a <> b -> a / Y_FACTOR - b / Y_FACTOR <> 0.
Proof.
  intros H E. apply H. assert (F : (a / Y_FACTOR - b / Y_FACTOR) * Y_FACTOR = a - b) by (field; exact Y_not0). rewrite E in F. lra.
Qed.
Lemma tax_table_defined : create_tax_parameters = defined_tax create_tax_parameters.
Proof.
  unfold create_tax_parameters, defined_tax. cbv zeta. cbn [tx_thresholds tx_intercepts tx_linear tx_quadratic].
  set (th := map (fun z => ndiv (nofZ z) Y_FACTOR) [7664; 12739; 52151; 250000]%Z : list R).
  assert (Ht : map (fun z => ndiv (nofZ z) Y_FACTOR) [7664; 12739; 52151; 250000]%Z = defined1 th).
  { unfold th, defined1. rewrite map_map. apply map_ext. intros z. rewrite factor_Y, p_ofZ. apply p_div. exact Y_not0. }
  rewrite Ht. set (r := [nlit 15 100; nlit 2397 10000; nlit 42 100; nlit 45 100] : list R).
  assert (Hr : [nlit 15 100; nlit 2397 10000; nlit 42 100; nlit 45 100] = defined1 r) by (rewrite !p_lit by lia; reflexivity).
  rewrite Hr. rewrite !p_progression, !p_ofZ.
  - set (q := [create_progressionsfactor r th 0; create_progressionsfactor r th 1; nofZ 0; nofZ 0]).
    change [Some (create_progressionsfactor r th 0); Some (create_progressionsfactor r th 1); Some (nofZ 0); Some (nofZ 0)] with (defined1 q).
    rewrite p_intercepts. reflexivity.
  - apply apart. intros E. apply eq_IZR in E. discriminate E.
  - apply apart. intros E. apply eq_IZR in E. discriminate E.
Qed.

Lemma obj_mem k d : assoc_mem k (defined_obj d) = assoc_mem k d.
Proof. apply mem_map. Qed.
Lemma obj_assoc k d : assoc_get k (defined_obj d) = option_map defined_val (assoc_get k d).
Proof. apply assoc_map. Qed.
Lemma obj_set k v d : assoc_set k (defined_val v) (defined_obj d) = defined_obj (assoc_set k v d).
Proof. apply set_map. Qed.
Lemma f_err {A B} (f : A -> B) e : follows f (hlift (Err e)) (hlift (Err e)).
Proof. apply f_lift. reflexivity. Qed.

Notation same := (fun u : unit => u).
Lemma f_tax_system root : follows same (process_tax_system root) (process_tax_system root).
Proof.
  apply (f_bind (fun l : nat => l)); [apply f_group|]. intros l. apply (f_bind defined_obj); [apply f_get|]. intros d. rewrite !obj_mem.
  destruct (negb _); [apply f_err|]. destruct (negb _); [apply f_err|]. apply (f_bind defined_val); [apply f_lift, obj_get|]. intros v. rewrite p_eq_int.
  destruct (py_eq_int v 2007); [|apply f_err]. rewrite tax_table_defined. change (VTax (defined_tax create_tax_parameters)) with (defined_val (VTax create_tax_parameters)). rewrite obj_set. apply f_set.
Qed.
Lemma f_child_costs root : follows same (create_child_care_costs root) (create_child_care_costs root).
Proof.
  apply (f_bind (fun l : nat => l)); [apply f_group|]. intros l. apply (f_bind defined_obj); [apply f_get|]. intros d. cbv zeta. rewrite obj_assoc.
  destruct (assoc_get "child_care_costs" d) as [v|]; cbn [option_map]; [|apply f_err]. apply (f_bind (fun l : nat => l)); [apply f_lift; rewrite p_ref, id_ok; reflexivity|].
  intros lc. apply (f_bind defined_obj); [apply f_get|]. intros c. rewrite !obj_assoc.
  destruct (assoc_get "under_3" c) as [u|]; cbn [option_map]; [|apply f_err]. destruct (assoc_get "3_to_6" c) as [w|]; cbn [option_map]; [|apply f_err].
  apply (f_bind defined1); [apply f_lift, p_row2|]. intros r1. apply (f_bind defined1); [apply f_lift, p_row2|]. intros r2.
  assert (H : forall r, map (fun x => ndiv x M_FACTOR) (defined1 r) = defined1 (map (fun x => ndiv x M_FACTOR) r)).
  { intros r. unfold defined1. rewrite !map_map. apply map_ext. intros x. rewrite factor_M. apply p_div. exact M_not0. }
  rewrite !p_ofZ. change [Some (nofZ 0); Some (nofZ 0)] with (defined1 [nofZ 0; nofZ 0]). cbn [map]. rewrite !H.
  match goal with |- follows _ (hset l (assoc_set _ (VMat ?m) d)) _ => change (VMat _) with (defined_val (VMat m)) at 2 end.
  rewrite obj_set. apply f_set.
Qed.
Lemma f_ssc root : follows same (process_ssc root) (process_ssc root).
Proof.
  apply (f_bind (fun l : nat => l)); [apply f_group|]. intros l. apply (f_bind defined_obj); [apply f_get|]. intros d.
  apply (f_bind Some). { apply f_lift. rewrite obj_get. apply on_ok_bind. intros v _. apply p_num. } intros rate.
  apply (f_bind Some). { apply f_lift. rewrite obj_get. apply on_ok_bind. intros v _. apply p_num. } intros cap.
  rewrite factor_Y, p_div by exact Y_not0. change (VPair (Some rate, Some (ndiv cap Y_FACTOR))) with (defined_val (VPair (rate, ndiv cap Y_FACTOR))). rewrite obj_set. apply f_set.
Qed.
Lemma f_div root k f : f <> 0 -> follows same (div_key root k f) (div_key root k (Some f)).
Proof.
  intros Hf. apply (f_bind (fun l : nat => l)); [apply f_group|]. intros l. apply (f_bind defined_obj); [apply f_get|]. intros d.
  apply (f_bind Some). { apply f_lift. rewrite obj_get. apply on_ok_bind. intros v _. apply p_num. } intros x.
  rewrite p_div by exact Hf. change (VNum (Some (ndiv x f))) with (defined_val (VNum (ndiv x f))). rewrite obj_set. apply f_set.
Qed.
Lemma f_elterngeld root : follows same (process_elterngeld root) (process_elterngeld root).
Proof. unfold process_elterngeld. rewrite factor_M. apply (f_bind same); [|intros _]; apply f_div; exact M_not0. Qed.
Lemma f_erziehungsgeld root : follows same (process_erziehungsgeld root) (process_erziehungsgeld root).
Proof.
  unfold process_erziehungsgeld. rewrite factor_M, factor_Y. apply (f_bind same); [|intros _; apply (f_bind same); [|intros _]]; apply f_div; try exact M_not0; exact Y_not0.
Qed.
Lemma f_expand root df : follows same (expand_model_spec_dict root df) (expand_model_spec_dict root (defined_dict df)).
Proof.
  unfold expand_model_spec_dict.
  apply (f_bind (fun l : nat => l)); [apply f_group|]. intros le. apply (f_bind defined_obj); [apply f_get|]. intros de.
  apply (f_bind (fun n : Z => n)). { apply f_lift. rewrite obj_get. apply on_ok_bind. intros v _. rewrite p_len, id_ok. reflexivity. } intros ne.
  assert (Ht : match assoc_get "shares" (defined_dict df) with Some s => (zlen s + 1)%Z | None => 1%Z end = match assoc_get "shares" df with Some s => (zlen s + 1)%Z | None => 1%Z end).
  { unfold defined_dict. rewrite assoc_map. destruct (assoc_get "shares" df); cbn [option_map]; [rewrite L_Partial.zlen_map|]; reflexivity. }
  rewrite Ht. cbv zeta.
  apply (f_bind (fun l : nat => l)); [apply f_group|]. intros ls. apply (f_bind defined_obj); [apply f_get|]. intros ds. rewrite obj_mem.
  apply (f_bind same). { destruct (negb _); [|apply f_lift; reflexivity]. change (VInt 1) with (defined_val (VInt 1)) at 2. rewrite obj_set. apply f_set. } intros _.
  match goal with |- follows _ (hbind (hnew ?d) _) _ => apply (f_bind (fun l : nat => l)); [apply (f_new d)|] end. intros ln.
  apply (f_bind defined_obj); [apply f_get|]. intros d.
  apply (f_bind same). { change (VRef ln) with (defined_val (VRef ln)) at 2. rewrite obj_set. apply f_set. } intros _.
  apply (f_bind same); [apply f_tax_system|intros _]. apply (f_bind same); [apply f_child_costs|intros _]. apply (f_bind same); [apply f_ssc|intros _].
  apply (f_bind same); [apply f_elterngeld|intros _]. apply f_erziehungsgeld.
Qed.
Lemma f_flatten root gs acc : follows defined_obj (flatten root gs acc) (flatten root gs (defined_obj acc)).
Proof.
  revert acc. induction gs as [|g gs IH]; intros acc; [apply f_lift; reflexivity|]. cbn [flatten].
  apply (f_bind (fun l : nat => l)); [apply f_group|]. intros l. apply (f_bind defined_obj); [apply f_get|]. intros d.
  assert (H : forall a, fold_left (fun acc kv => assoc_set (fst kv) (snd kv) acc) (defined_obj d) (defined_obj a) = defined_obj (fold_left (fun acc kv => assoc_set (fst kv) (snd kv) acc) d a)).
  { induction d as [|(k, v) d IHd]; intros a; [reflexivity|]. cbn [defined_obj map fold_left vmap fst snd]. fold (defined_obj d). fold (defined_obj a). rewrite obj_set. apply IHd. }
  rewrite H. apply IH.
Qed.
Lemma f_flat a df : follows defined_obj (read_model_spec_flat a df) (read_model_spec_flat (defined_spec_arg a) (defined_dict df)).
Proof.
  unfold read_model_spec_flat. apply (f_bind (fun l : nat => l)). { destruct a; cbn [defined_spec_arg]; [apply f_load|apply f_copy]. } intros root.
  apply (f_bind same); [apply f_expand|intros _]. apply (f_bind defined_obj); [apply (f_flatten root groups [])|]. intros flat.
  apply (f_bind defined_obj); [apply f_get|]. intros d. apply (f_bind defined_val); [apply f_lift, obj_get|]. intros v. apply f_lift. rewrite obj_set. reflexivity.
Qed.

Lemma p_f_num d k : f_num (defined_obj d) k = on_ok Some (f_num d k).
Proof. unfold f_num. rewrite obj_get. apply on_ok_bind. intros v _. apply p_num. Qed.
Lemma p_f_int d k : f_int (defined_obj d) k = f_int d k.
Proof. unfold f_int. rewrite obj_get. destruct (kget d k) as [v|]; [destruct v|]; reflexivity. Qed.
Lemma p_f_bool d k : f_bool (defined_obj d) k = f_bool d k.
Proof. unfold f_bool. rewrite obj_get. destruct (kget d k) as [v|]; [destruct v|]; reflexivity. Qed.
Lemma p_f_str d k : f_str (defined_obj d) k = f_str d k.
Proof. unfold f_str. rewrite obj_get. destruct (kget d k) as [v|]; [destruct v|]; reflexivity. Qed.
Lemma p_f_ints d k : f_ints (defined_obj d) k = f_ints d k.
Proof. unfold f_ints. rewrite obj_get. destruct (kget d k) as [v|]; [destruct v|]; reflexivity. Qed.
Lemma p_f_nums d k : f_nums (defined_obj d) k = on_ok defined1 (f_nums d k).
Proof. unfold f_nums. rewrite obj_get. apply on_ok_bind. intros v _. destruct v; try reflexivity. cbn [defined_val on_ok]. f_equal. unfold defined1. rewrite map_map. reflexivity. Qed.
Lemma p_flat d : spec_of_flat (defined_obj d) = on_ok defined_spec (spec_of_flat d).
Proof.
  unfold spec_of_flat.
  repeat first
    [ rewrite p_f_int; apply bind_same; intros ? _ | rewrite p_f_ints; apply bind_same; intros ? _ | rewrite p_f_str; apply bind_same; intros ? _
    | rewrite p_f_bool; apply bind_same; intros ? _ | rewrite p_f_nums; apply on_ok_bind; intros ? _ | rewrite p_f_num; apply on_ok_bind; intros ? _
    | match goal with
      | |- bind (bind (kget (defined_obj d) "tax_params") _) _ = _ =>
          match goal with |- bind _ ?f' = on_ok ?b (bind ?r ?f) => rewrite <- (on_ok_bind r f defined_tax b f') end;
          [f_equal; rewrite obj_get; apply on_ok_bind; intros v _; destruct v; reflexivity|intros ? _]
      | |- bind (bind (kget (defined_obj d) "ssc_deductions") _) _ = _ =>
          match goal with |- bind _ ?f' = on_ok ?b (bind ?r ?f) => rewrite <- (on_ok_bind r f defined_pair b f') end;
          [f_equal; rewrite obj_get; apply on_ok_bind; intros v _; destruct v; reflexivity|intros ? _]
      | |- bind (bind (kget (defined_obj d) "child_care_costs") _) _ = _ =>
          match goal with |- bind _ ?f' = on_ok ?b (bind ?r ?f) => rewrite <- (on_ok_bind r f defined2 b f') end;
          [f_equal; rewrite obj_get; apply on_ok_bind; intros v _; destruct v; reflexivity|intros ? _]
      end ].
  reflexivity.
Qed.
Lemma f_spec a df : follows defined_spec (read_model_spec_init a df) (read_model_spec_init (defined_spec_arg a) (defined_dict df)).
Proof. unfold read_model_spec_init. apply (f_bind defined_obj); [apply f_flat|]. intros d. apply f_lift, p_flat. Qed.
Lemma f_model pa sa : follows (fun r => (defined_params (fst r), defined_spec (snd r))) (read_model pa sa) (read_model (defined_arg pa) (defined_spec_arg sa)).
Proof.
  unfold read_model. apply (f_bind (fun r => (defined_dict (fst r), defined_params (snd r)))); [apply f_lift, p_read_params|]. intros (df, mp). cbn [fst snd].
  apply (f_bind defined_spec); [apply f_spec|]. intros sp. apply f_lift. reflexivity.
Qed.
End Undefined_numbers.
