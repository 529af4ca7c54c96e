(** Lemmas about reading the specification. *)
From Coq Require Import Reals Lra Lia ZArith List String Permutation.
From Verif Require Import Base Num M_Params M_Tax M_Spec S_Spec L_Num.
Import ListNotations.
Local Open Scope string_scope.
Local Open Scope list_scope.

Section Dict.
  Context {A : Type}.
  Implicit Type d : list (string * A).

  Lemma get_cons k k' (v : A) d : assoc_get k ((k', v) :: d) = if String.eqb k' k then Some v else assoc_get k d.
  Proof. unfold assoc_get. cbn [find fst]. destruct (String.eqb k' k); reflexivity. Qed.

  Lemma get_set_same k (v : A) d : assoc_get k (assoc_set k v d) = Some v.
  Proof.
    induction d as [|[k' v'] d IH]; cbn [assoc_set].
    - rewrite get_cons, String.eqb_refl. reflexivity.
    - destruct (String.eqb k' k) eqn:E; rewrite get_cons, E; [reflexivity|exact IH].
  Qed.
  Lemma get_set_other k k' (v : A) d : k <> k' -> assoc_get k' (assoc_set k v d) = assoc_get k' d.
  Proof.
    intros Hk. induction d as [|[k2 v2] d IH]; cbn [assoc_set].
    - rewrite get_cons. destruct (String.eqb_spec k k'); [contradiction|reflexivity].
    - destruct (String.eqb_spec k2 k) as [->|].
      + rewrite !get_cons. destruct (String.eqb_spec k k'); [contradiction|reflexivity].
      + rewrite !get_cons, IH. reflexivity.
  Qed.
  Lemma mem_get k d : assoc_mem k d = match assoc_get k d with Some _ => true | None => false end.
  Proof.
    induction d as [|[k' v] d IH]; [reflexivity|]. rewrite get_cons. unfold assoc_mem in *. cbn [existsb fst].
    destruct (String.eqb k' k); [reflexivity|exact IH].
  Qed.
  Lemma get_in k (v : A) d : assoc_get k d = Some v -> In (k, v) d.
  Proof.
    induction d as [|[k' v'] d IH]; [discriminate|]. rewrite get_cons. destruct (String.eqb_spec k' k) as [->|].
    - intros H. injection H as ->. left. reflexivity.
    - intros H. right. apply IH. exact H.
  Qed.
  Lemma set_in k (v : A) d q : In q (assoc_set k v d) -> q = (k, v) \/ In q d.
  Proof.
    induction d as [|[k' v'] d IH]; cbn [assoc_set].
    - intros [<-|[]]. left. reflexivity.
    - destruct (String.eqb_spec k' k) as [->|].
      + intros [<-|H]; [left; reflexivity|right; right; exact H].
      + intros [<-|H]; [right; left; reflexivity|]. destruct (IH H); [left; assumption|right; right; assumption].
  Qed.

  Lemma get_none k d : assoc_get k d = None <-> ~ In k (map fst d).
  Proof.
    induction d as [|[k' v] d IH]; [split; [intros _ []|reflexivity]|]. rewrite get_cons. cbn [map fst In].
    destruct (String.eqb_spec k' k) as [->|Hn]; split.
    - discriminate.
    - intros H. exfalso. apply H. left. reflexivity.
    - intros H [E|E]; [contradiction|]. apply IH in H. contradiction.
    - intros H. apply IH. intros E. apply H. right. exact E.
  Qed.
  Lemma set_keys k (v : A) d k' : In k' (map fst (assoc_set k v d)) -> k' = k \/ In k' (map fst d).
  Proof.
    intros H. apply in_map_iff in H. destruct H as ([k2 v2] & <- & H). apply set_in in H. destruct H as [H|H].
    - injection H as -> ->. left. reflexivity.
    - right. apply in_map_iff. exists (k2, v2). split; [reflexivity|exact H].
  Qed.
  Lemma set_nodup k (v : A) d : NoDup (map fst d) -> NoDup (map fst (assoc_set k v d)).
  Proof.
    induction d as [|[k' v'] d IH]; cbn [assoc_set map fst]; intros H.
    - constructor; [intros []|constructor].
    - inversion H; subst. destruct (String.eqb_spec k' k) as [->|Hn]; cbn [map fst]; [constructor; assumption|].
      constructor; [|apply IH; assumption]. intros Hi. apply set_keys in Hi. destruct Hi; [congruence|contradiction].
  Qed.

  Lemma get_rev k d : NoDup (map fst d) -> assoc_get k (rev d) = assoc_get k d.
  Proof.
    induction d as [|[k' v] d IH]; intros H; [reflexivity|]. cbn [rev map fst] in *. inversion H; subst.
    assert (Happ : forall l : list (string * A), assoc_get k (l ++ [(k', v)]) = match assoc_get k l with Some v => Some v
                   | None => if String.eqb k' k then Some v else None end).
    { induction l as [|[k2 v2] l IHl]; cbn [app]; [rewrite get_cons; destruct (String.eqb k' k); reflexivity|].
      rewrite !get_cons, IHl. destruct (String.eqb k2 k); reflexivity. }
    rewrite Happ, IH, get_cons by assumption. destruct (String.eqb_spec k' k) as [->|].
    - apply get_none in H2. rewrite H2. reflexivity.
    - destruct (assoc_get k d); reflexivity.
  Qed.

  (** d.update(e) *)
  Lemma get_merge k d e : NoDup (map fst e) -> assoc_get k (fold_left (fun acc kv => assoc_set (fst kv) (snd kv) acc) e d)
    = match assoc_get k e with Some v => Some v | None => assoc_get k d end.
  Proof.
    intros Hn. rewrite <- (get_rev k e Hn). clear Hn.
    revert d; induction e as [|[k' v] e IH]; intros d; [reflexivity|]. cbn [fold_left fst snd rev]. rewrite IH.
    assert (Happ : forall l : list (string * A), assoc_get k (l ++ [(k', v)]) = match assoc_get k l with Some v => Some v
                   | None => if String.eqb k' k then Some v else None end).
    { induction l as [|[k2 v2] l IHl]; cbn [app]; [rewrite get_cons; destruct (String.eqb k' k); reflexivity|].
      rewrite !get_cons, IHl. destruct (String.eqb k2 k); reflexivity. }
    rewrite Happ. destruct (assoc_get k (rev e)); [reflexivity|]. destruct (String.eqb_spec k' k) as [->|Hn].
    - apply get_set_same.
    - apply get_set_other. exact Hn.
  Qed.
End Dict.

(** *** Writes stay in the copy *)
Section Frame.
  Context {T : Type} {NT : Num T}.

  Definition refs_from (n : nat) (d : pydict T) : Prop := forall k m, In (k, VRef m) d -> (n <= m)%nat.
  Definition region (n : nat) (h : heap T) : Prop := forall l d, (n <= l)%nat -> nth_error h l = Some d -> refs_from n d.

  Definition safe {A} (n : nat) (m : hm A) (Q : A -> Prop) : Prop :=
    forall h, (n <= List.length h)%nat -> region n h ->
      firstn n (fst (m h)) = firstn n h /\ (n <= List.length (fst (m h)))%nat /\ region n (fst (m h)) /\
      forall a, snd (m h) = Ok a -> Q a.

  Lemma safe_bind {A B} n (m : hm A) (f : A -> hm B) Q Q' :
    safe n m Q -> (forall a, Q a -> safe n (f a) Q') -> safe n (hbind m f) Q'.
  Proof.
    intros Hm Hf h Hl Hr. unfold hbind. destruct (Hm h Hl Hr) as (H1 & H2 & H3 & H4).
    destruct (m h) as [h' [a|e]]; cbn [fst snd] in *.
    - destruct (Hf a (H4 a eq_refl) h' H2 H3) as (G1 & G2 & G3 & G4). rewrite G1, H1. repeat split; assumption.
    - repeat split; try assumption. intros a E. discriminate.
  Qed.
  Lemma safe_lift {A} n (r : result A) (Q : A -> Prop) : (forall a, r = Ok a -> Q a) -> safe n (hlift r) Q.
  Proof. intros H h Hl Hr. cbn [hlift fst snd]. repeat split; assumption. Qed.
  Lemma safe_get n l : (n <= l)%nat -> safe n (hget l) (refs_from n).
  Proof.
    intros Hl h Hn Hr. unfold hget. cbn [fst snd]. repeat split; try assumption. intros d E.
    destruct (nth_error h l) as [d'|] eqn:El; [|discriminate]. injection E as <-. apply (Hr l d' Hl El).
  Qed.
  Lemma safe_set n l d : (n <= l)%nat -> refs_from n d -> safe n (hset l d) (fun _ => True).
  Proof.
    intros Hl Hd h Hn Hr. unfold hset. cbn [fst snd].
    assert (Hf : firstn n (firstn l h ++ d :: skipn (S l) h) = firstn n h).
    { rewrite firstn_app. rewrite firstn_firstn, Nat.min_l by exact Hl.
      assert (E : (n - List.length (firstn l h) = 0)%nat) by (rewrite firstn_length; lia). rewrite E. cbn [firstn]. apply app_nil_r. }
    split; [exact Hf|]. split; [rewrite app_length, firstn_length; cbn [List.length]; lia|]. split; [|trivial].
    intros l' d' Hl' E. apply nth_error_In in E as Hin. apply in_app_or in Hin.
    assert (Hsk : forall l'' , nth_error (firstn l h) l'' = Some d' -> nth_error h l'' = Some d').
    { intros l'' E'. rewrite <- (firstn_skipn l h). rewrite nth_error_app1; [exact E'|]. apply nth_error_Some. congruence. }
    destruct (Nat.lt_ge_cases l' (List.length (firstn l h))) as [Hlt|Hge].
    - rewrite nth_error_app1 in E by exact Hlt. apply (Hr l' d' Hl'). apply Hsk. exact E.
    - rewrite nth_error_app2 in E by exact Hge. remember (l' - List.length (firstn l h))%nat as j.
      destruct j as [|j]; [injection E as <-; exact Hd|]. cbn [nth_error] in E.
      apply (Hr (S l + j)%nat d'); [lia|]. rewrite <- (firstn_skipn (S l) h).
      rewrite nth_error_app2; rewrite firstn_length.
      + destruct (Nat.le_gt_cases (S l) (List.length h)) as [Hle|Hgt].
        * replace (S l + j - Nat.min (S l) (List.length h))%nat with j by lia. exact E.
        * rewrite skipn_all2 in E by lia. destruct j; discriminate.
      + lia.
  Qed.
  Lemma safe_new n d : refs_from n d -> safe n (hnew d) (fun l => (n <= l)%nat).
  Proof.
    intros Hd h Hn Hr. unfold hnew. cbn [fst snd]. split; [|split; [|split]].
    - rewrite firstn_app. replace (n - List.length h)%nat with 0%nat by lia. cbn [firstn]. apply app_nil_r.
    - rewrite app_length. lia.
    - intros l d' Hl E. destruct (Nat.lt_ge_cases l (List.length h)) as [Hlt|Hge].
      + rewrite nth_error_app1 in E by exact Hlt. apply (Hr l d' Hl E).
      + rewrite nth_error_app2 in E by exact Hge. destruct (l - List.length h)%nat as [|j]; [injection E as <-; exact Hd|].
        destruct j; discriminate.
    - intros a E. injection E as <-. exact Hn.
  Qed.
  Lemma safe_weaken {A} n (m : hm A) (Q Q' : A -> Prop) : safe n m Q -> (forall a, Q a -> Q' a) -> safe n m Q'.
  Proof. intros H Hq h Hl Hr. destruct (H h Hl Hr) as (H1 & H2 & H3 & H4). repeat split; try assumption. intros a E. apply Hq, H4, E. Qed.

  Lemma safe_group n root g : (n <= root)%nat -> safe n (group_loc root g) (fun l => (n <= l)%nat).
  Proof.
    intros Hr. unfold group_loc. eapply safe_bind; [apply safe_get; exact Hr|]. intros d Hd. apply safe_lift. intros l E.
    unfold kget in E. destruct (assoc_get g d) as [v|] eqn:Eg; [|discriminate]. cbn [bind] in E. apply get_in in Eg.
    destruct v; try discriminate. cbn [as_ref] in E. injection E as <-. eapply Hd. exact Eg.
  Qed.
  Lemma refs_set n k v d : refs_from n d -> (forall m, v = VRef m -> (n <= m)%nat) -> refs_from n (assoc_set k v d).
  Proof.
    intros Hd Hv k' m Hi. apply set_in in Hi. destruct Hi as [Hi|Hi]; [|eapply Hd; exact Hi]. injection Hi as -> Hi. apply Hv. symmetry. exact Hi.
  Qed.

  Ltac group := eapply safe_bind; [apply safe_group; assumption|intros ?l ?Hl]; eapply safe_bind; [apply safe_get; assumption|intros ?d ?Hd].
  Ltac lift := eapply (safe_bind _ _ _ (fun _ => True)); [apply safe_lift; trivial|intros ? _].
  Ltac fail_ := apply safe_lift; intros ? E; discriminate E.

  Lemma safe_tax n root : (n <= root)%nat -> safe n (process_tax_system root) (fun _ => True).
  Proof.
    intros Hr. unfold process_tax_system. group. destruct (negb _); [fail_|]. destruct (negb _); [fail_|]. lift.
    destruct (py_eq_int _ _); [|fail_]. apply safe_set; [assumption|]. apply refs_set; [assumption|]. intros m E; discriminate.
  Qed.
  Lemma safe_costs n root : (n <= root)%nat -> safe n (create_child_care_costs root) (fun _ => True).
  Proof.
    intros Hr. unfold create_child_care_costs. group. destruct (assoc_get _ d) as [v|] eqn:Ev; [|fail_].
    eapply (safe_bind _ _ _ (fun l => (n <= l)%nat)).
    - apply safe_lift. intros m E. destruct v; try discriminate. cbn in E. injection E as <-. apply get_in in Ev. eapply Hd. exact Ev.
    - intros lc Hlc. eapply safe_bind; [apply safe_get; assumption|]. intros c _.
      destruct (assoc_get "under_3" c); [|fail_]. destruct (assoc_get "3_to_6" c); [|fail_]. lift. lift.
      apply safe_set; [assumption|]. apply refs_set; [assumption|]. intros m E; discriminate.
  Qed.
  Lemma safe_ssc n root : (n <= root)%nat -> safe n (process_ssc root) (fun _ => True).
  Proof.
    intros Hr. unfold process_ssc. group. lift. lift. apply safe_set; [assumption|]. apply refs_set; [assumption|]. intros m E; discriminate.
  Qed.
  Lemma safe_div n root k f : (n <= root)%nat -> safe n (div_key root k f) (fun _ => True).
  Proof.
    intros Hr. unfold div_key. group. lift. apply safe_set; [assumption|]. apply refs_set; [assumption|]. intros m E; discriminate.
  Qed.
  Lemma safe_expand n root df : (n <= root)%nat -> safe n (expand_model_spec_dict root df) (fun _ => True).
  Proof.
    intros Hr. unfold expand_model_spec_dict. group. lift. group.
    eapply (safe_bind _ _ _ (fun _ => True)).
    { destruct (negb _); [|apply safe_lift; trivial]. apply safe_set; [assumption|]. apply refs_set; [assumption|]. intros m E; discriminate. }
    intros _ _. eapply safe_bind; [apply safe_new|]. { intros k m Hi. cbn in Hi. destruct Hi as [E|[E|[]]]; discriminate. }
    intros lnew Hnew. eapply safe_bind; [apply safe_get; assumption|]. intros dr Hdr.
    eapply safe_bind; [apply safe_set; [assumption|]|].
    { apply refs_set; [assumption|]. intros m E. injection E as <-. exact Hnew. }
    intros _ _. eapply safe_bind; [apply safe_tax; assumption|]. intros _ _. eapply safe_bind; [apply safe_costs; assumption|].
    intros _ _. eapply safe_bind; [apply safe_ssc; assumption|]. intros _ _.
    eapply safe_bind; [unfold process_elterngeld; eapply safe_bind; [apply safe_div; assumption|intros _ _; apply safe_div; assumption]|].
    intros _ _. unfold process_erziehungsgeld. eapply safe_bind; [apply safe_div; assumption|intros _ _].
    eapply safe_bind; [apply safe_div; assumption|intros _ _]. apply safe_div; assumption.
  Qed.
  Lemma safe_flatten n root gs acc : (n <= root)%nat -> safe n (flatten root gs acc) (fun _ => True).
  Proof.
    intros Hr. revert acc; induction gs as [|g gs IH]; intros acc; cbn [flatten]; [apply safe_lift; trivial|]. group. apply IH.
  Qed.

  Lemma shift_refs n d : refs_from n (shift_dict n d).
  Proof.
    intros k m Hi. unfold shift_dict in Hi. apply in_map_iff in Hi. destruct Hi as ([k' v] & E & _). cbn [fst snd] in E.
    destruct v; cbn [shift_val] in E; try discriminate. injection E as _ E. lia.
  Qed.

  Lemma hbind_first {A B C} (m : hm A) (k1 : A -> hm B) (k2 : B -> hm C) (h h' : heap T) a :
    m h = (h', Ok a) -> hbind (hbind m k1) k2 h = hbind (k1 a) k2 h'.
  Proof. intros H. unfold hbind. rewrite H. reflexivity. Qed.

  (** reading leaves every object that existed before as it is, also if it fails *)
  Lemma read_frame (a : spec_arg T) df h : exists extra, fst (read_model_spec_init a df h) = h ++ extra.
  Proof.
    set (n := List.length h).
    assert (Hload : forall c l, exists root, hload c l h = (h ++ map (shift_dict n) c, Ok root) /\ (n <= root)%nat /\
                      region n (h ++ map (shift_dict n) c)).
    { intros c l. exists (l + n)%nat. split; [reflexivity|]. split; [lia|]. intros l' d Hl E. unfold n in *.
      rewrite nth_error_app2 in E by exact Hl. rewrite nth_error_map in E. destruct (nth_error c _); [|discriminate].
      injection E as <-. apply shift_refs. }
    assert (Hs : forall root, (n <= root)%nat -> safe n (hbind (hbind (expand_model_spec_dict root df) (fun _ =>
        hbind (flatten_model_spec_dict root) (fun flat => hbind (hget root) (fun d => hbind (hlift (kget d "exp_grid"))
          (fun grid => hlift (Ok (assoc_set "exp_grid" grid flat))))))) (fun flat => hlift (spec_of_flat flat))) (fun _ => True)).
    { intros root Hr. eapply (safe_bind _ _ _ (fun _ => True)); [|intros; apply safe_lift; trivial]. eapply safe_bind; [apply safe_expand; exact Hr|].
      intros _ _. eapply safe_bind; [apply safe_flatten; exact Hr|]. intros flat _. eapply safe_bind; [apply safe_get; exact Hr|].
      intros d _. eapply (safe_bind _ _ _ (fun _ => True)); [apply safe_lift; trivial|]. intros grid _. apply safe_lift; trivial. }
    assert (Hfin : forall c l, exists extra, fst (hbind (hbind (hload c l) (fun root => hbind (expand_model_spec_dict root df) (fun _ =>
        hbind (flatten_model_spec_dict root) (fun flat => hbind (hget root) (fun d => hbind (hlift (kget d "exp_grid"))
          (fun grid => hlift (Ok (assoc_set "exp_grid" grid flat)))))))) (fun flat => hlift (spec_of_flat flat)) h) = h ++ extra).
    { intros c l. destruct (Hload c l) as (root & E & Hr & Hreg).
      assert (Hn : (n <= List.length (h ++ map (shift_dict n) c))%nat) by (rewrite app_length; unfold n; lia).
      destruct (Hs root Hr _ Hn Hreg) as (F & G & _). rewrite (hbind_first _ _ _ _ _ _ E).
      match type of F with firstn n (fst ?x) = _ => set (res := x) in * end.
      exists (skipn n (fst res)). rewrite <- (firstn_skipn n (fst res)) at 1. rewrite F.
      rewrite firstn_app. unfold n at 1 2. rewrite Nat.sub_diag, firstn_all. cbn [firstn]. rewrite app_nil_r. reflexivity. }
    destruct a as [c l|l]; [exact (Hfin c l)|exact (Hfin h l)].
  Qed.
End Frame.
