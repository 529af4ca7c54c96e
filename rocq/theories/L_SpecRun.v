(** Evaluation of read_model_spec_init on a dictionary with the expected sections. *)
From Coq Require Import Reals Lra Lia ZArith List String.
From Verif Require Import Base Num M_Params M_Tax M_Spec S_Spec L_Num L_Spec L_SpecSame.
Import ListNotations.
Local Open Scope string_scope.
Local Open Scope list_scope.

Section Run.
  Context {T : Type} {NT : Num T}.

  Definition good {A} (Q : heap T -> A -> Prop) (o : heap T * result A) : Prop := exists x, snd o = Ok x /\ Q (fst o) x.
  Definition bad {A} (e : error) (o : heap T * result A) : Prop := snd o = Err e.
  Definition runs {A} (m : hm A) (h : heap T) (Q : heap T -> A -> Prop) : Prop := good Q (m h).
  Definition fails {A} (m : hm A) (h : heap T) (e : error) : Prop := bad e (m h).

  Lemma runs_bind {A B} (m : hm A) (f : A -> hm B) h Q : runs m h (fun h' x => runs (f x) h' Q) -> runs (hbind m f) h Q.
  Proof.
    intros (x & E & y & E' & H). unfold runs, good, hbind. destruct (m h) as [h' [x'|e]]; cbn [fst snd] in *; [|discriminate].
    injection E as ->. exists y. split; assumption.
  Qed.
  Lemma fails_first {A B} (m : hm A) (f : A -> hm B) h e : fails m h e -> fails (hbind m f) h e.
  Proof. unfold fails, bad, hbind. destruct (m h) as [h' [x'|e']]; cbn [fst snd]; [discriminate|]. intros E. congruence. Qed.
  Lemma fails_then {A B} (m : hm A) (f : A -> hm B) h e : runs m h (fun h' x => fails (f x) h' e) -> fails (hbind m f) h e.
  Proof.
    intros (x & E & H). unfold fails, bad, hbind. destruct (m h) as [h' [x'|e']]; cbn [fst snd] in *; [|discriminate].
    injection E as ->. exact H.
  Qed.
  Lemma runs_impl {A} (m : hm A) h (Q Q' : heap T -> A -> Prop) : runs m h Q -> (forall h' x, Q h' x -> Q' h' x) -> runs m h Q'.
  Proof. intros (x & E & H) Hi. exists x. split; [exact E|apply Hi, H]. Qed.
  Lemma runs_lift {A} (r : result A) x h (Q : heap T -> A -> Prop) : r = Ok x -> Q h x -> runs (hlift r) h Q.
  Proof. intros -> H. exists x. split; [reflexivity|exact H]. Qed.
  Lemma runs_get l d h (Q : heap T -> pydict T -> Prop) : nth_error h l = Some d -> Q h d -> runs (hget l) h Q.
  Proof. intros E H. exists d. cbn [hget fst snd]. rewrite E. split; [reflexivity|exact H]. Qed.

  (** the heap during processing: root dictionary, sections, and one further dictionary *)
  Record view (h : heap T) (root : nat) (place : string -> nat) (rt : pydict T) (D : string -> pydict T) (cc : list (nat * pydict T)) : Prop := {
    vi_root : nth_error h root = Some rt;
    vi_dist : NoDup (root :: map place sections);
    vi_at : forall g, In g sections -> assoc_get g rt = Some (VRef (place g)) /\ nth_error h (place g) = Some (D g);
    vi_cc : forall l c, In (l, c) cc -> nth_error h l = Some c /\ ~ In l (root :: map place sections)
  }.
  Definition upd (D : string -> pydict T) (g : string) (d : pydict T) : string -> pydict T :=
    fun g' => if String.eqb g' g then d else D g'.

  Lemma place_inj (root : nat) (place : string -> nat) g g' : NoDup (root :: map place sections) -> In g sections -> In g' sections -> place g = place g' -> g = g'.
  Proof.
    intros Hn. apply NoDup_cons_iff in Hn. destruct Hn as [_ H]. revert H. generalize sections as ss. induction ss as [|s ss IH]; [intros _ []|].
    cbn [map]. intros H. inversion H as [|? ? H2 H3]; subst. intros [Hg|Hg] [Hg'|Hg'] E.
    - congruence.
    - exfalso. apply H2. rewrite Hg, E. apply in_map. exact Hg'.
    - exfalso. apply H2. rewrite Hg', <- E. apply in_map. exact Hg.
    - apply IH; assumption.
  Qed.

  Lemma view_group h root place rt D cc g (Q : heap T -> nat -> Prop) : view h root place rt D cc -> In g sections ->
    Q h (place g) -> runs (group_loc root g) h Q.
  Proof.
    intros V Hg H. unfold group_loc. apply runs_bind. eapply runs_get; [apply (vi_root _ _ _ _ _ _ V)|].
    destruct (vi_at _ _ _ _ _ _ V g Hg) as [E _]. apply (runs_lift _ (place g)); [|exact H]. unfold kget. rewrite E. reflexivity.
  Qed.
  Lemma view_get h root place rt D cc g (Q : heap T -> pydict T -> Prop) : view h root place rt D cc -> In g sections ->
    Q h (D g) -> runs (hget (place g)) h Q.
  Proof. intros V Hg H. eapply runs_get; [|exact H]. apply (vi_at _ _ _ _ _ _ V g Hg). Qed.
  Lemma view_set h root place rt D cc g d (Q : heap T -> unit -> Prop) : view h root place rt D cc -> In g sections ->
    (forall h', view h' root place rt (upd D g d) cc -> Q h' tt) -> runs (hset (place g) d) h Q.
  Proof.
    intros V Hg H. exists tt. split; [reflexivity|]. apply H. cbn [hset fst].
    assert (L : (place g < List.length h)%nat) by (apply nth_error_Some; rewrite (proj2 (vi_at _ _ _ _ _ _ V g Hg)); discriminate).
    assert (Hd := vi_dist _ _ _ _ _ _ V). split.
    - rewrite nth_set by exact L. destruct (Nat.eqb_spec root (place g)) as [E|_]; [|apply (vi_root _ _ _ _ _ _ V)].
      exfalso. apply NoDup_cons_iff in Hd. apply (proj1 Hd). rewrite E. apply in_map. exact Hg.
    - exact Hd.
    - intros g' Hg'. destruct (vi_at _ _ _ _ _ _ V g' Hg') as [E1 E2]. split; [exact E1|]. rewrite nth_set by exact L. unfold upd.
      destruct (String.eqb_spec g' g) as [->|Hn]; [rewrite Nat.eqb_refl; reflexivity|].
      destruct (Nat.eqb_spec (place g') (place g)) as [E|_]; [|exact E2]. exfalso. apply Hn. eapply place_inj; eassumption.
    - intros l c Hc. destruct (vi_cc _ _ _ _ _ _ V l c Hc) as [E Hn]. split; [|exact Hn]. rewrite nth_set by exact L.
      destruct (Nat.eqb_spec l (place g)) as [->|_]; [|exact E]. exfalso. apply Hn. right. apply in_map. exact Hg.
  Qed.

  (** whatever holds of the outcome *)
  Lemma after {A B} (m : hm A) (f : A -> hm B) h Q (P : heap T * result B -> Prop) :
    runs m h Q -> (forall h' x, Q h' x -> P (f x h')) -> P (hbind m f h).
  Proof.
    intros (x & E & H) Hp. unfold hbind. destruct (m h) as [h' [x'|e]]; cbn [fst snd] in *; [|discriminate].
    injection E as ->. apply Hp, H.
  Qed.

  (** the new dictionary and its entry in the root *)
  Lemma view_derived {B} h root place rt D cc da (k : unit -> hm B) (P : heap T * result B -> Prop) : view h root place rt D cc ->
    (forall h' ld, view h' root place (assoc_set "DERIVED_ATTR" (VRef ld) rt) D ((ld, da) :: cc) -> P (k tt h')) ->
    P (hbind (hnew da) (fun ld => hbind (hget root) (fun d => hbind (hset root (assoc_set "DERIVED_ATTR" (VRef ld) d)) k)) h).
  Proof.
    intros V H. unfold hbind at 1, hnew.
    assert (Hr := vi_root _ _ _ _ _ _ V). assert (Hd := vi_dist _ _ _ _ _ _ V).
    assert (L : (root < List.length h)%nat) by (apply nth_error_Some; congruence).
    assert (Hroot : nth_error (h ++ [da]) root = Some rt) by (rewrite nth_error_app1 by exact L; exact Hr).
    unfold hbind at 1, hget. rewrite Hroot. unfold hbind, hset.
    assert (L' : (root < List.length (h ++ [da]))%nat) by (rewrite app_length; lia).
    assert (Hin : forall g, In g sections -> (place g < List.length h)%nat).
    { intros g Hg. apply nth_error_Some. rewrite (proj2 (vi_at _ _ _ _ _ _ V g Hg)). discriminate. }
    assert (Hnin : ~ In (List.length h) (root :: map place sections)).
    { intros [E|E]; [lia|]. apply in_map_iff in E. destruct E as (g & E & Hg). specialize (Hin g Hg). lia. }
    apply (H _ (List.length h)). split.
    - rewrite nth_set, Nat.eqb_refl by exact L'. reflexivity.
    - exact Hd.
    - intros g Hg. destruct (vi_at _ _ _ _ _ _ V g Hg) as [E1 E2]. split.
      + rewrite get_set_other; [exact E1|]. intros <-. cbn in Hg. repeat (destruct Hg as [Hg|Hg]; [discriminate|]). exact Hg.
      + rewrite nth_set by exact L'. destruct (Nat.eqb_spec (place g) root) as [E|_].
        * exfalso. apply NoDup_cons_iff in Hd. apply (proj1 Hd). rewrite <- E. apply in_map. exact Hg.
        * rewrite nth_error_app1 by (apply Hin; exact Hg). exact E2.
    - intros l c [Hc|Hc].
      + injection Hc as <- <-. split; [|exact Hnin]. rewrite nth_set by exact L'. destruct (Nat.eqb_spec (List.length h) root); [lia|].
        rewrite nth_error_app2, Nat.sub_diag by lia. reflexivity.
      + destruct (vi_cc _ _ _ _ _ _ V l c Hc) as [E Hn]. split; [|exact Hn]. rewrite nth_set by exact L'.
        destruct (Nat.eqb_spec l root) as [->|_]; [exfalso; apply Hn; left; reflexivity|].
        rewrite nth_error_app1; [exact E|]. apply nth_error_Some. congruence.
  Qed.

  (** the merged dictionary *)
  Definition last_of (D : string -> pydict T) (gs : list string) (k : string) (acc : option (pyval T)) : option (pyval T) :=
    fold_left (fun acc g => match assoc_get k (D g) with Some v => Some v | None => acc end) gs acc.

  Lemma flatten_run root place rt (D : string -> pydict T) gs h acc (Q : heap T -> pydict T -> Prop) :
    nth_error h root = Some rt ->
    (forall g, In g gs -> assoc_get g rt = Some (VRef (place g)) /\ nth_error h (place g) = Some (D g) /\ NoDup (map fst (D g))) ->
    (forall f, (forall k, assoc_get k f = last_of D gs k (assoc_get k acc)) -> Q h f) ->
    runs (flatten root gs acc) h Q.
  Proof.
    intros Hr. revert acc; induction gs as [|g gs IH]; intros acc Hg H; cbn [flatten].
    - apply (runs_lift _ acc); [reflexivity|]. apply H. reflexivity.
    - destruct (Hg g (or_introl eq_refl)) as (E1 & E2 & E3). apply runs_bind. unfold group_loc. apply runs_bind.
      eapply runs_get; [exact Hr|]. apply (runs_lift _ (place g)); [unfold kget; rewrite E1; reflexivity|].
      apply runs_bind. eapply runs_get; [exact E2|]. apply IH; [intros g' Hg'; apply Hg; right; exact Hg'|].
      intros f Hf. apply H. intros k. rewrite Hf. cbn [last_of fold_left]. rewrite get_merge by exact E3. reflexivity.
  Qed.

  (** *** The steps of expand_model_spec_dict *)
  Notation TAX := "TAXES_TRANSFERS".
  Lemma in_tax : In TAX sections. Proof. cbn. tauto. Qed.
  Lemma in_educ : In "EDUC" sections. Proof. cbn. tauto. Qed.
  Lemma in_sim : In "SIMULATION" sections. Proof. cbn. tauto. Qed.

  Section Steps.
    Context (root : nat) (place : string -> nat) (rt : pydict T) (D : string -> pydict T) (cc : list (nat * pydict T)).
    Definition tax_is (d : pydict T) (h : heap T) (_ : unit) : Prop := view h root place rt (upd D TAX d) cc.

    (** reading and replacing the tax section *)
    Lemma tax_section {B} h (k : nat -> pydict T -> hm B) d (P : heap T * result B -> Prop) : tax_is d h tt ->
      P (k (place TAX) d h) -> P (hbind (group_loc root TAX) (fun l => hbind (hget l) (k l)) h).
    Proof.
      intros V H. eapply after; [eapply (view_group _ _ _ _ _ _ _ (fun h' l => h' = h /\ l = place TAX) V in_tax); split; reflexivity|].
      intros h' l (-> & ->). eapply after; [eapply (view_get _ _ _ _ _ _ _ (fun h' e => h' = h /\ e = d) V in_tax)|].
      - split; [reflexivity|]. unfold upd. rewrite String.eqb_refl. reflexivity.
      - intros h' e (-> & ->). exact H.
    Qed.
    Lemma tax_set h d d' : tax_is d h tt -> runs (hset (place TAX) d') h (tax_is d').
    Proof.
      intros V. eapply view_set; [exact V|exact in_tax|]. intros h' [V1 V2 V3 V4]. split; try assumption.
      intros g Hg. destruct (V3 g Hg) as [E1 E2]. split; [exact E1|]. rewrite E2. unfold upd. destruct (String.eqb g TAX); reflexivity.
    Qed.
    Lemma tax_system_ok h d y : tax_is d h tt -> assoc_mem "tax_splitting" d = true -> assoc_get "tax_year" d = Some y ->
      py_eq_int y 2007 = true ->
      runs (process_tax_system root) h (tax_is (assoc_set "tax_params" (VTax create_tax_parameters) d)).
    Proof.
      intros V Hs Hy H7. unfold runs. unfold process_tax_system. apply (tax_section _ _ d (good _) V).
      cbv beta. rewrite Hs. cbn [negb]. rewrite mem_get, Hy. cbn [negb].
      unfold kget. rewrite Hy. unfold hbind, hlift. rewrite H7. apply (tax_set _ _ _ V).
    Qed.
    Lemma tax_system_split h d : tax_is d h tt -> assoc_mem "tax_splitting" d = false ->
      fails (process_tax_system root) h (ValueError "Specify if couples share taxes.").
    Proof.
      intros V Hs. unfold fails. unfold process_tax_system. apply (tax_section _ _ d (bad _) V).
      rewrite Hs. reflexivity.
    Qed.
    Lemma tax_system_year h d : tax_is d h tt -> assoc_mem "tax_splitting" d = true -> assoc_mem "tax_year" d = false ->
      fails (process_tax_system root) h (ValueError "Specify tax_year.").
    Proof.
      intros V Hs Hy. unfold fails. unfold process_tax_system. apply (tax_section _ _ d (bad _) V).
      rewrite Hs, Hy. reflexivity.
    Qed.
    Lemma tax_system_2007 h d y : tax_is d h tt -> assoc_mem "tax_splitting" d = true -> assoc_get "tax_year" d = Some y ->
      py_eq_int y 2007 = false -> fails (process_tax_system root) h (ValueError "Tax year not implemented.").
    Proof.
      intros V Hs Hy H7. unfold fails. unfold process_tax_system. apply (tax_section _ _ d (bad _) V).
      rewrite Hs, mem_get, Hy. unfold kget. rewrite Hy. unfold hbind, hlift. cbn [negb]. rewrite H7. reflexivity.
    Qed.

    Lemma costs_ok h d l c u t r1 r2 : tax_is d h tt -> assoc_get "child_care_costs" d = Some (VRef l) -> In (l, c) cc ->
      assoc_get "under_3" c = Some u -> assoc_get "3_to_6" c = Some t -> row2 u = Ok r1 -> row2 t = Ok r2 ->
      runs (create_child_care_costs root) h
        (tax_is (assoc_set "child_care_costs" (VMat (map (map (fun x => ndiv x M_FACTOR)) [[nofZ 0; nofZ 0]; r1; r2])) d)).
    Proof.
      intros V Hc Hl Hu Ht E1 E2. unfold runs. unfold create_child_care_costs. apply (tax_section _ _ d (good _) V).
      cbv beta zeta. rewrite Hc. unfold hbind at 1, hlift at 1. cbn [as_ref]. unfold hbind at 1, hget.
      rewrite (proj1 (vi_cc _ _ _ _ _ _ V l c Hl)), Hu, Ht, E1, E2. unfold hbind, hlift. apply (tax_set _ _ _ V).
    Qed.
    Lemma costs_none h d : tax_is d h tt -> assoc_get "child_care_costs" d = None ->
      fails (create_child_care_costs root) h (ValueError "Child care costs not properly specified.").
    Proof.
      intros V Hc. unfold fails. unfold create_child_care_costs. apply (tax_section _ _ d (bad _) V). rewrite Hc. reflexivity.
    Qed.
    Lemma costs_part h d l c : tax_is d h tt -> assoc_get "child_care_costs" d = Some (VRef l) -> In (l, c) cc ->
      assoc_get "under_3" c = None \/ assoc_get "3_to_6" c = None ->
      fails (create_child_care_costs root) h (ValueError "Child care costs not properly specified.").
    Proof.
      intros V Hc Hl Hu. unfold fails. unfold create_child_care_costs. apply (tax_section _ _ d (bad _) V).
      cbv beta zeta. rewrite Hc. unfold hbind at 1, hlift at 1. cbn [as_ref]. unfold hbind at 1, hget.
      rewrite (proj1 (vi_cc _ _ _ _ _ _ V l c Hl)). destruct Hu as [->| ->]; [reflexivity|]. destruct (assoc_get "under_3" c); reflexivity.
    Qed.
    Lemma ssc_ok h d u v x y : tax_is d h tt -> assoc_get "ssc_rate" d = Some u -> as_num u = Ok x ->
      assoc_get "ssc_cap" d = Some v -> as_num v = Ok y ->
      runs (process_ssc root) h (tax_is (assoc_set "ssc_deductions" (VPair (x, ndiv y Y_FACTOR)) d)).
    Proof.
      intros V Hu Hx Hv Hy. unfold runs. unfold process_ssc. apply (tax_section _ _ d (good _) V). unfold kget. rewrite Hu, Hv.
      cbn [bind]. rewrite Hx, Hy. unfold hbind, hlift. apply (tax_set _ _ _ V).
    Qed.
    Lemma div_ok h d k f v x : tax_is d h tt -> assoc_get k d = Some v -> as_num v = Ok x ->
      runs (div_key root k f) h (tax_is (assoc_set k (VNum (ndiv x f)) d)).
    Proof.
      intros V Hu Hx. unfold runs. unfold div_key. apply (tax_section _ _ d (good _) V). unfold kget. rewrite Hu.
      cbn [bind]. rewrite Hx. unfold hbind, hlift. apply (tax_set _ _ _ V).
    Qed.
  End Steps.
End Run.
