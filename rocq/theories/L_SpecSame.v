(** Reading the specification depends only on the contents of the dictionary: runs on two
    heaps holding the same dictionary (at possibly different locations) agree. *)
From Coq Require Import Lia ZArith List String.
From Verif Require Import Base Num M_Params M_Tax M_Spec S_Spec L_Spec.
Import ListNotations.
Local Open Scope string_scope.
Local Open Scope list_scope.

Section Same.
  Context {T : Type} {NT : Num T}.
  Definition match_ := nat -> nat -> Prop.
  Implicit Type b : match_.

  Definition vrel b (v w : pyval T) : Prop :=
    match v, w with
    | VRef l, VRef m => b l m
    | VRef _, _ | _, VRef _ => False
    | _, _ => v = w
    end.
  Definition drel b (d e : pydict T) : Prop := Forall2 (fun p q => fst p = fst q /\ vrel b (snd p) (snd q)) d e.
  Definition hrel b (h1 h2 : heap T) : Prop :=
    (forall l m, b l m -> exists d e, nth_error h1 l = Some d /\ nth_error h2 m = Some e /\ drel b d e) /\
    (forall l m m', b l m -> b l m' -> m = m') /\ (forall l l' m, b l m -> b l' m -> l = l').
  Definition sub b b' : Prop := forall l m, b l m -> b' l m.

  Definition same {A B} b (m1 : hm A) (m2 : hm B) (Q : match_ -> A -> B -> Prop) : Prop :=
    forall h1 h2, hrel b h1 h2 -> exists b', sub b b' /\ hrel b' (fst (m1 h1)) (fst (m2 h2)) /\
      match snd (m1 h1), snd (m2 h2) with
      | Ok x, Ok y => Q b' x y
      | Err e, Err e' => e = e'
      | _, _ => False
      end.

  Lemma sub_refl b : sub b b.
  Proof. intros l m H. exact H. Qed.
  Lemma vrel_sub b b' v w : sub b b' -> vrel b v w -> vrel b' v w.
  Proof. intros Hs. destruct v, w; cbn; try trivial. apply Hs. Qed.
  Lemma drel_sub b b' d e : sub b b' -> drel b d e -> drel b' d e.
  Proof. intros Hs H. induction H as [|p q d e [E V] H IH]; constructor; [split; [exact E|eapply vrel_sub; eassumption]|exact IH]. Qed.

  Lemma same_bind {A A' B B'} b (m1 : hm A) (m2 : hm A') (f1 : A -> hm B) (f2 : A' -> hm B') Q Q' :
    same b m1 m2 Q -> (forall b' x y, sub b b' -> Q b' x y -> same b' (f1 x) (f2 y) Q') -> same b (hbind m1 f1) (hbind m2 f2) Q'.
  Proof.
    intros Hm Hf h1 h2 Hh. destruct (Hm h1 h2 Hh) as (b' & Hs & Hh' & Hr). unfold hbind.
    destruct (m1 h1) as [h1' [x|e]], (m2 h2) as [h2' [y|e']]; cbn [fst snd] in *; try contradiction.
    - destruct (Hf b' x y Hs Hr h1' h2' Hh') as (b'' & Hs' & R). exists b''. split; [|exact R]. intros l m H. apply Hs', Hs, H.
    - exists b'. split; [exact Hs|]. split; assumption.
  Qed.
  Lemma same_lift {A B} b (r1 : result A) (r2 : result B) Q :
    match r1, r2 with Ok x, Ok y => Q b x y | Err e, Err e' => e = e' | _, _ => False end -> same b (hlift r1) (hlift r2) Q.
  Proof. intros H h1 h2 Hh. exists b. split; [apply sub_refl|]. split; [exact Hh|exact H]. Qed.
  Lemma same_get b l m : b l m -> same b (hget l) (hget m) drel.
  Proof.
    intros Hb h1 h2 Hh. exists b. split; [apply sub_refl|]. split; [exact Hh|]. destruct Hh as [Hh _].
    destruct (Hh l m Hb) as (d & e & E1 & E2 & Hd). cbn [hget snd]. rewrite E1, E2. exact Hd.
  Qed.
  Lemma nth_set (h : heap T) l d l' : (l < List.length h)%nat ->
    nth_error (firstn l h ++ d :: skipn (S l) h) l' = if Nat.eqb l' l then Some d else nth_error h l'.
  Proof.
    intros Hl. assert (Hf : List.length (firstn l h) = l) by (rewrite firstn_length; lia).
    destruct (Nat.eqb_spec l' l) as [->|Hn].
    - rewrite nth_error_app2 by lia. rewrite Hf, Nat.sub_diag. reflexivity.
    - destruct (Nat.lt_ge_cases l' l) as [Hlt|Hge].
      + rewrite nth_error_app1 by lia. rewrite <- (firstn_skipn l h) at 2. rewrite nth_error_app1 by lia. reflexivity.
      + rewrite nth_error_app2 by lia. rewrite Hf. replace (l' - l)%nat with (S (l' - S l)) by lia. cbn [nth_error].
        rewrite <- (firstn_skipn (S l) h) at 2. rewrite nth_error_app2; rewrite firstn_length; [|lia].
        f_equal. lia.
  Qed.
  Lemma same_set b l m d e : b l m -> drel b d e -> same b (hset l d) (hset m e) (fun _ _ _ => True).
  Proof.
    intros Hb Hd h1 h2 (Hh & I1 & I2). exists b. split; [apply sub_refl|]. split; [|exact I].
    split; [|split; assumption]. intros l' m' Hb'. destruct (Hh l m Hb) as (d0 & e0 & E1 & E2 & _).
    assert (L1 : (l < List.length h1)%nat) by (apply nth_error_Some; congruence).
    assert (L2 : (m < List.length h2)%nat) by (apply nth_error_Some; congruence).
    cbn [hset fst]. rewrite !nth_set by assumption. destruct (Nat.eqb_spec l' l) as [->|Hn].
    - rewrite (I1 l m' m Hb' Hb), Nat.eqb_refl. exists d, e. repeat split. exact Hd.
    - destruct (Nat.eqb_spec m' m) as [->|Hn']; [exfalso; apply Hn; eapply I2; eassumption|]. apply Hh. exact Hb'.
  Qed.
  Lemma same_new b d e : drel b d e -> same b (hnew d) (hnew e) (fun b' x y => b' x y).
  Proof.
    intros Hd h1 h2 (Hh & I1 & I2).
    set (b' := fun l m => b l m \/ (l = List.length h1 /\ m = List.length h2)).
    assert (Hs : sub b b') by (intros l m H; left; exact H).
    assert (HL : forall l m, b l m -> (l < List.length h1)%nat /\ (m < List.length h2)%nat).
    { intros l m H. destruct (Hh l m H) as (d0 & e0 & E1 & E2 & _). split; apply nth_error_Some; congruence. }
    exists b'. split; [exact Hs|]. cbn [hnew fst snd]. split; [|right; split; reflexivity]. split; [|split].
    - intros l m [H|[-> ->]].
      + destruct (Hh l m H) as (d0 & e0 & E1 & E2 & Hd0). destruct (HL l m H). exists d0, e0.
        rewrite !nth_error_app1 by assumption. repeat split; try assumption. eapply drel_sub; eassumption.
      + exists d, e. rewrite !nth_error_app2, !Nat.sub_diag by lia. repeat split. eapply drel_sub; eassumption.
    - intros l m m' [H|[E1 E2]] [H'|[E1' E2']]; try (destruct (HL _ _ H)); try (destruct (HL _ _ H')); try lia. eapply I1; eassumption.
    - intros l l' m [H|[E1 E2]] [H'|[E1' E2']]; try (destruct (HL _ _ H)); try (destruct (HL _ _ H')); try lia. eapply I2; eassumption.
  Qed.

  Lemma drel_get b d e k : drel b d e -> match assoc_get k d, assoc_get k e with
    Some v, Some w => vrel b v w | None, None => True | _, _ => False end.
  Proof.
    intros H. induction H as [|[k1 v1] [k2 v2] d e [E V] H IH]; [exact I|]. cbn [fst snd] in *. subst k2.
    rewrite !get_cons. destruct (String.eqb k1 k); [exact V|exact IH].
  Qed.
  Lemma drel_set b d e k v w : drel b d e -> vrel b v w -> drel b (assoc_set k v d) (assoc_set k w e).
  Proof.
    intros H Hv. induction H as [|[k1 v1] [k2 v2] d e [E V] H IH]; cbn [assoc_set].
    - constructor; [split; [reflexivity|exact Hv]|constructor].
    - cbn [fst snd] in *. subst k2. destruct (String.eqb k1 k); constructor; try assumption; split; try reflexivity; assumption.
  Qed.
  Lemma drel_mem b d e k : drel b d e -> assoc_mem k d = assoc_mem k e.
  Proof. intros H. rewrite !mem_get. apply (drel_get b d e k) in H. destruct (assoc_get k d), (assoc_get k e); try contradiction; reflexivity. Qed.

  (** values that are not dictionaries are equal *)
  Lemma drel_read {A} b d e k (f : pyval T -> result A) : (forall l m, f (VRef l) = f (VRef m)) -> drel b d e ->
    bind (kget d k) f = bind (kget e k) f.
  Proof.
    intros Hf H. unfold kget. apply (drel_get b d e k) in H. destruct (assoc_get k d) as [v|], (assoc_get k e) as [w|]; try contradiction; [|reflexivity].
    cbn [bind]. destruct v, w; cbn in H; try contradiction; try (rewrite H; reflexivity); try discriminate. apply Hf.
  Qed.

  Lemma same_group b root root' g : b root root' -> same b (group_loc root g) (group_loc root' g) (fun b' x y => b' x y).
  Proof.
    intros Hb. unfold group_loc. eapply same_bind; [apply same_get; exact Hb|]. intros b' d e _ Hd. apply same_lift.
    unfold kget. apply (drel_get b' d e g) in Hd. destruct (assoc_get g d) as [v|], (assoc_get g e) as [w|]; try contradiction; [|reflexivity].
    cbn [bind]. destruct v, w; cbn in Hd |- *; try contradiction; try reflexivity; try discriminate. exact Hd.
  Qed.

  Ltac up := repeat match goal with
    | Hs : sub ?b ?b', H : ?b ?x ?y |- _ => lazymatch goal with _ : b' x y |- _ => fail | _ => pose proof (Hs x y H) end
    | Hs : sub ?b ?b', H : drel ?b ?x ?y |- _ => lazymatch goal with _ : drel b' x y |- _ => fail | _ => pose proof (drel_sub b b' x y Hs H) end
    end.
  Ltac group2 := eapply same_bind; [apply same_group; assumption|intros ?b ?l ?l' ?Hs ?Hl; up];
    eapply same_bind; [apply same_get; assumption|intros ?b ?d ?e ?Hs ?Hd; up].
  Ltac lift_eq H := eapply (same_bind _ _ _ _ _ (fun _ x y => x = y)); [apply same_lift; rewrite H; destruct (bind _ _); reflexivity|intros ?b ?x ?y ?Hs ->; up].

  Lemma same_err {A B} b (x : error) Q : same b (hlift (Err x) : hm A) (hlift (Err x) : hm B) Q.
  Proof. apply same_lift. reflexivity. Qed.

  Lemma same_tax b root root' : b root root' -> same b (process_tax_system root) (process_tax_system root') (fun _ _ _ => True).
  Proof.
    intros Hb. unfold process_tax_system. group2.
    rewrite !(drel_mem _ _ _ _ Hd). destruct (negb _); [apply same_err|]. destruct (negb _); [apply same_err|].
    eapply (same_bind _ _ _ _ _ vrel).
    - apply same_lift. unfold kget. pose proof (drel_get _ _ _ "tax_year" Hd) as Hy.
      destruct (assoc_get "tax_year" d), (assoc_get "tax_year" e); try contradiction; [exact Hy|reflexivity].
    - intros b3 v w Hs3 Hv. up. assert (E : py_eq_int v 2007 = py_eq_int w 2007).
      { destruct v, w; cbn in Hv; try contradiction; try (rewrite Hv; reflexivity); try discriminate; reflexivity. }
      rewrite E. destruct (py_eq_int w 2007); [|apply same_err]. apply same_set; [assumption|]. apply drel_set; [assumption|]. reflexivity.
  Qed.
  Lemma same_row2 b v w : vrel b v w -> row2 v = row2 w.
  Proof. destruct v, w; cbn [vrel]; intros H; try contradiction; try (rewrite H; reflexivity); try discriminate; reflexivity. Qed.
  Lemma same_costs b root root' : b root root' -> same b (create_child_care_costs root) (create_child_care_costs root') (fun _ _ _ => True).
  Proof.
    intros Hb. unfold create_child_care_costs. group2.
    pose proof (drel_get _ _ _ "child_care_costs" Hd) as Hc.
    destruct (assoc_get "child_care_costs" d) as [v|], (assoc_get "child_care_costs" e) as [w|]; try contradiction; [|apply same_err].
    eapply (same_bind _ _ _ _ _ (fun b' x y => b' x y)).
    { apply same_lift. destruct v, w; cbn in Hc |- *; try contradiction; try reflexivity; try discriminate. exact Hc. }
    intros b3 lc lc' Hs3 Hlc. up. eapply same_bind; [apply same_get; assumption|]. intros b4 c c' Hs4 Hcc. up.
    pose proof (drel_get _ _ _ "under_3" Hcc) as Hu3. pose proof (drel_get _ _ _ "3_to_6" Hcc) as Hu6.
    destruct (assoc_get "under_3" c), (assoc_get "under_3" c'); try contradiction; [|apply same_err].
    destruct (assoc_get "3_to_6" c), (assoc_get "3_to_6" c'); try contradiction; [|apply same_err].
    rewrite (same_row2 _ _ _ Hu3), (same_row2 _ _ _ Hu6).
    eapply (same_bind _ _ _ _ _ (fun _ x y => x = y)); [apply same_lift; destruct (row2 _); reflexivity|]. intros b5 r1 r1' Hs5 ->. up.
    eapply (same_bind _ _ _ _ _ (fun _ x y => x = y)); [apply same_lift; destruct (row2 _); reflexivity|]. intros b6 r2 r2' Hs6 ->. up.
    apply same_set; [assumption|]. apply drel_set; [assumption|]. reflexivity.
  Qed.
  Lemma num_refs l m : as_num (VRef l : pyval T) = as_num (VRef m).
  Proof. reflexivity. Qed.
  Lemma same_ssc b root root' : b root root' -> same b (process_ssc root) (process_ssc root') (fun _ _ _ => True).
  Proof.
    intros Hb. unfold process_ssc. group2.
    lift_eq (drel_read _ _ _ "ssc_rate" (fun v => as_num v) num_refs Hd). lift_eq (drel_read _ _ _ "ssc_cap" (fun v => as_num v) num_refs Hd).
    apply same_set; [assumption|]. apply drel_set; [assumption|]. reflexivity.
  Qed.
  Lemma same_div b root root' k f : b root root' -> same b (div_key root k f) (div_key root' k f) (fun _ _ _ => True).
  Proof.
    intros Hb. unfold div_key. group2. lift_eq (drel_read _ _ _ k (fun v => as_num v) num_refs Hd).
    apply same_set; [assumption|]. apply drel_set; [assumption|]. reflexivity.
  Qed.
  Ltac step H := eapply same_bind; [apply H; assumption|intros ?b _ _ ?Hs _; up].
  Lemma same_expand b root root' df : b root root' ->
    same b (expand_model_spec_dict root df) (expand_model_spec_dict root' df) (fun _ _ _ => True).
  Proof.
    intros Hb. unfold expand_model_spec_dict. group2.
    assert (Hlen : forall l m, py_len (VRef l : pyval T) = py_len (VRef m : pyval T)) by reflexivity.
    lift_eq (drel_read _ _ _ "educ_years" (fun v => py_len v) Hlen Hd).
    group2. eapply (same_bind _ _ _ _ _ (fun _ _ _ => True)).
    { rewrite (drel_mem _ _ _ _ Hd0). destruct (negb _); [|apply same_lift; exact I].
      apply same_set; [assumption|]. apply drel_set; [assumption|]. reflexivity. }
    intros b5 _ _ Hs5 _. up. eapply same_bind; [apply same_new|].
    { constructor; [split; reflexivity|]. constructor; [split; reflexivity|]. constructor. }
    intros b6 ln ln' Hs6 Hln. up. eapply same_bind; [apply same_get; assumption|]. intros b7 dr er Hs7 Hdr. up.
    eapply same_bind; [apply same_set; [assumption|apply drel_set; [assumption|]]|].
    { cbn [vrel]. assumption. }
    intros b8 _ _ Hs8 _. up. step same_tax. step same_costs. step same_ssc.
    eapply same_bind; [|intros ?b _ _ ?Hs _; up].
    { unfold process_elterngeld. step same_div. apply same_div. assumption. }
    unfold process_erziehungsgeld. step same_div. step same_div. apply same_div. assumption.
  Qed.
  Lemma drel_merge b d e acc acc' : drel b d e -> drel b acc acc' ->
    drel b (fold_left (fun acc kv => assoc_set (fst kv) (snd kv) acc) d acc)
           (fold_left (fun acc kv => assoc_set (fst kv) (snd kv) acc) e acc').
  Proof.
    intros H. revert acc acc'; induction H as [|p q d e [E V] H IH]; intros acc acc' Ha; [exact Ha|]. cbn [fold_left].
    apply IH. rewrite E. apply drel_set; assumption.
  Qed.
  Lemma same_flatten b root root' gs acc acc' : b root root' -> drel b acc acc' ->
    same b (flatten root gs acc) (flatten root' gs acc') drel.
  Proof.
    revert b acc acc'; induction gs as [|g gs IH]; intros b acc acc' Hb Ha; cbn [flatten]; [apply same_lift; exact Ha|].
    group2. apply IH; [assumption|]. apply drel_merge; assumption.
  Qed.

  Lemma same_spec b d e : drel b d e -> spec_of_flat d = spec_of_flat e.
  Proof.
    intros H. unfold spec_of_flat, f_int, f_num, f_bool, f_str, f_ints, f_nums.
    repeat (match goal with
      | |- bind (bind (kget d ?k) ?f) ?g = _ => rewrite (drel_read b d e k f (fun _ _ => eq_refl) H); destruct (bind (kget e k) f); cbn [bind]; [|reflexivity]
      end). reflexivity.
  Qed.

  (** the part of reading after the copy *)
  Definition process (df : params_dict T) (root : nat) : hm (model_spec T) :=
    hbind (hbind (expand_model_spec_dict root df) (fun _ =>
      hbind (flatten_model_spec_dict root) (fun flat => hbind (hget root) (fun d => hbind (hlift (kget d "exp_grid"))
        (fun grid => hlift (Ok (assoc_set "exp_grid" grid flat))))))) (fun flat => hlift (spec_of_flat flat)).

  Lemma same_process b root root' df : b root root' -> same b (process df root) (process df root') (fun _ x y => x = y).
  Proof.
    intros Hb. unfold process. eapply (same_bind _ _ _ _ _ drel).
    - step same_expand. eapply same_bind; [apply same_flatten; [assumption|constructor]|].
      intros b2 f f' Hs2 Hf. up. eapply same_bind; [apply same_get; assumption|]. intros b3 d e Hs3 Hd. up.
      eapply (same_bind _ _ _ _ _ vrel).
      + apply same_lift. unfold kget. pose proof (drel_get _ _ _ "exp_grid" Hd) as Hg.
        destruct (assoc_get "exp_grid" d), (assoc_get "exp_grid" e); try contradiction; [exact Hg|reflexivity].
      + intros b4 v w Hs4 Hv. up. apply same_lift. apply drel_set; assumption.
    - intros b2 d e _ Hd. apply same_lift. rewrite (same_spec _ _ _ Hd). destruct (spec_of_flat e); reflexivity.
  Qed.

  (** the loaded copies of one closed heap *)
  Lemma shift_rel n1 n2 N b d : (forall l, (l < N)%nat -> b (l + n1)%nat (l + n2)%nat) ->
    (forall k l, In (k, VRef l) d -> (l < N)%nat) -> drel b (shift_dict n1 d) (shift_dict n2 d).
  Proof.
    intros Hb Hd. unfold shift_dict, drel. induction d as [|[k v] d IH]; cbn [map]; constructor.
    - split; [reflexivity|]. cbn [fst snd]. destruct v; cbn [shift_val vrel]; try reflexivity. apply Hb. eapply Hd. left. reflexivity.
    - apply IH. intros k' l Hi. eapply Hd. right. exact Hi.
  Qed.

  Lemma loaded (c h1 h2 : heap T) extra1 extra2 l : closed c -> (l < List.length c)%nat ->
    let n1 := List.length h1 in let n2 := List.length h2 in
    exists b, b (l + n1)%nat (l + n2)%nat /\
      hrel b (h1 ++ map (shift_dict n1) (c ++ extra1)) (h2 ++ map (shift_dict n2) (c ++ extra2)).
  Proof.
    intros Hc Hl n1 n2. exists (fun l1 l2 => exists l, (l < List.length c)%nat /\ l1 = l + n1 /\ l2 = l + n2)%nat.
    split; [exists l; repeat split; exact Hl|]. split; [|split].
    - intros l1 l2 (k & Hk & -> & ->).
      assert (Hx : exists d, nth_error c k = Some d) by (destruct (nth_error c k) eqn:E; [eexists; reflexivity|apply nth_error_None in E; lia]).
      destruct Hx as [d Hd]. exists (shift_dict n1 d), (shift_dict n2 d).
      unfold n1, n2. rewrite !nth_error_app2, !Nat.add_sub by lia. rewrite !map_app, !nth_error_app1 by (rewrite map_length; exact Hk).
      rewrite !(map_nth_error _ _ _ Hd). split; [reflexivity|]. split; [reflexivity|].
      apply (shift_rel _ _ (List.length c)); [intros j Hj; exists j; repeat split; exact Hj|].
      intros k' j Hi. eapply Hc; [eapply nth_error_In; exact Hd|exact Hi].
    - intros l1 m m' (j & ? & -> & ->) (j' & ? & E & ->). f_equal. lia.
    - intros l1 l' m (j & ? & -> & ->) (j' & ? & -> & E). f_equal. lia.
  Qed.

  Lemma read_process (a : spec_arg T) df h :
    read_model_spec_init a df h =
    match a with SpecPath c l => process df (l + List.length h)%nat (h ++ map (shift_dict (List.length h)) c)
               | SpecDict l => process df (l + List.length h)%nat (h ++ map (shift_dict (List.length h)) h) end.
  Proof. destruct a; reflexivity. Qed.


  (** a dictionary in the heap c, read when further objects exist, or from a file *)
  Theorem read_same (c extra1 extra2 h : heap T) l df : closed c -> (l < List.length c)%nat ->
    snd (read_model_spec_init (SpecDict l) df (c ++ extra1)) = snd (read_model_spec_init (SpecDict l) df (c ++ extra2)) /\
    snd (read_model_spec_init (SpecPath c l) df h) = snd (read_model_spec_init (SpecDict l) df (c ++ extra2)).
  Proof.
    intros Hc Hl. rewrite !read_process. split.
    - destruct (loaded c (c ++ extra1) (c ++ extra2) extra1 extra2 l Hc Hl) as (b & Hb & Hh).
      destruct (same_process b _ _ df Hb _ _ Hh) as (b' & _ & _ & Hr).
      destruct (snd _) as [x|e], (snd _) as [y|e'] in Hr |- *; try contradiction; congruence.
    - destruct (loaded c h (c ++ extra2) [] extra2 l Hc Hl) as (b & Hb & Hh). rewrite app_nil_r in Hh.
      destruct (same_process b _ _ df Hb _ _ Hh) as (b' & _ & _ & Hr).
      destruct (snd _) as [x|e], (snd _) as [y|e'] in Hr |- *; try contradiction; congruence.
  Qed.
End Same.
