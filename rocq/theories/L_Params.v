(** Lemmas about reading the parameters: sorting by name. *)
From Coq Require Import Reals Lra Lia ZArith NArith List String Ascii Permutation Sorting.Sorted.
From Verif Require Import Base Num M_Params M_Tax M_Spec S_Spec L_Num L_Spec.
Import ListNotations.
Local Open Scope string_scope.
Local Open Scope list_scope.

Section Order.
  Lemma string_compare_trans (s1 s2 s3 : string) : String.leb s1 s2 = true -> String.leb s2 s3 = true -> String.leb s1 s3 = true.
  Proof.
    unfold String.leb. revert s2 s3; induction s1 as [|a s1 IH]; intros [|b s2] [|c s3]; cbn [String.compare]; try discriminate; try reflexivity.
    specialize (IH s2 s3). unfold Ascii.compare.
    destruct (N.compare_spec (N_of_ascii a) (N_of_ascii b)), (N.compare_spec (N_of_ascii b) (N_of_ascii c)), (N.compare_spec (N_of_ascii a) (N_of_ascii c)); try lia; try discriminate; try reflexivity.
    exact IH.
  Qed.

  Context {A : Type}.
  Definition below (x y : string * A) : Prop := String.leb (fst x) (fst y) = true.

  Lemma insert_perm (x : string * A) l : Permutation (insert_item x l) (x :: l).
  Proof.
    induction l as [|y l IH]; cbn [insert_item]; [reflexivity|]. destruct (String.leb (fst x) (fst y)); [reflexivity|].
    rewrite IH. apply perm_swap.
  Qed.
  Lemma sorted_perm (l : list (string * A)) : Permutation (sorted_items l) l.
  Proof. induction l as [|x l IH]; cbn [sorted_items fold_right]; [reflexivity|]. rewrite insert_perm. constructor. exact IH. Qed.
  Lemma insert_sorted (x : string * A) l : StronglySorted below l -> StronglySorted below (insert_item x l).
  Proof.
    induction l as [|y l IH]; intros H; cbn [insert_item]; [repeat constructor|]. inversion H; subst.
    destruct (String.leb (fst x) (fst y)) eqn:E.
    - constructor; [exact H|]. constructor; [exact E|]. apply Forall_forall. intros z Hz. rewrite Forall_forall in H3.
      eapply string_compare_trans; [exact E|apply H3, Hz].
    - constructor; [apply IH; assumption|]. apply Forall_forall. intros z Hz. apply (Permutation_in _ (insert_perm x l)) in Hz.
      destruct Hz as [<-|Hz]; [|rewrite Forall_forall in H3; apply H3, Hz]. unfold below.
      destruct (String.leb_total (fst x) (fst y)); congruence.
  Qed.
  Lemma sorted_sorted (l : list (string * A)) : StronglySorted below (sorted_items l).
  Proof. induction l as [|x l IH]; cbn [sorted_items fold_right]; [constructor|]. apply insert_sorted, IH. Qed.

  Lemma filter_sorted P (l : list (string * A)) : StronglySorted below l -> StronglySorted below (filter P l).
  Proof.
    induction 1 as [|x l Hs IH Hf]; cbn [filter]; [constructor|]. destruct (P x); [|exact IH]. constructor; [exact IH|].
    apply Forall_forall. intros y Hy. apply filter_In in Hy. rewrite Forall_forall in Hf. apply Hf, Hy.
  Qed.
  Lemma filter_perm (P : string * A -> bool) l l' : Permutation l l' -> Permutation (filter P l) (filter P l').
  Proof.
    induction 1 as [|x l l' H IH|x y l|l l' l'' H1 IH1 H2 IH2]; cbn [filter].
    - reflexivity.
    - destruct (P x); [constructor; exact IH|exact IH].
    - destruct (P y), (P x); try reflexivity. apply perm_swap.
    - rewrite IH1. exact IH2.
  Qed.

  (** two sorted arrangements of the same items with different names are equal *)
  Lemma sorted_unique (l l' : list (string * A)) : StronglySorted below l -> StronglySorted below l' -> NoDup (map fst l) ->
    Permutation l l' -> l = l'.
  Proof.
    intros H. revert l'; induction H as [|x l Hs IH Hf]; intros l' H' Hn Hp.
    - apply Permutation_nil in Hp. congruence.
    - destruct l' as [|y l']; [apply Permutation_sym, Permutation_nil in Hp; discriminate|].
      inversion H' as [|y' l2 Hs' Hf']; subst. rewrite Forall_forall in Hf, Hf'. cbn [map] in Hn. apply NoDup_cons_iff in Hn. destruct Hn as [Hn1 Hn2].
      assert (E : x = y).
      { assert (Hx : In x (y :: l')) by (apply (Permutation_in _ Hp); left; reflexivity).
        assert (Hy : In y (x :: l)) by (apply (Permutation_in _ (Permutation_sym Hp)); left; reflexivity).
        destruct Hx as [Hx|Hx]; [congruence|]. destruct Hy as [Hy|Hy]; [congruence|]. exfalso.
        apply Hn1. replace (fst x) with (fst y) by (apply String.leb_antisym; [apply Hf', Hx|apply Hf, Hy]).
        apply in_map. exact Hy. }
      subst y. f_equal. apply IH; [assumption|exact Hn2|]. eapply Permutation_cons_inv. exact Hp.
  Qed.

  Lemma sorted_filter_is P (l target : list (string * A)) : Permutation (filter P l) target -> StronglySorted below target ->
    NoDup (map fst target) -> filter P (sorted_items l) = target.
  Proof.
    intros Hp Hs Hn.
    assert (Hp' : Permutation (filter P (sorted_items l)) target) by (rewrite (filter_perm P _ _ (sorted_perm l)); exact Hp).
    symmetry. apply sorted_unique; [exact Hs|apply filter_sorted, sorted_sorted|exact Hn|apply Permutation_sym, Hp'].
  Qed.
  (** names compared by a computation *)
  Fixpoint names_ok (l : list string) : bool :=
    match l with [] => true | x :: l => forallb (fun y => String.leb x y && negb (String.eqb x y)) l && names_ok l end.
  Lemma names_ok_sorted (l : list (string * A)) : names_ok (map fst l) = true -> StronglySorted below l /\ NoDup (map fst l).
  Proof.
    induction l as [|x l IH]; intros H; [split; constructor|]. cbn [map names_ok] in H. apply andb_prop in H. destruct H as [H1 H2].
    destruct (IH H2) as [Hs Hn]. rewrite forallb_forall in H1. split; constructor; try assumption.
    - apply Forall_forall. intros y Hy. specialize (H1 (fst y) (in_map fst l y Hy)). apply andb_prop in H1. apply H1.
    - intros Hi. specialize (H1 _ Hi). rewrite String.eqb_refl, andb_comm in H1. discriminate.
  Qed.
End Order.

(** the new entries are at the end *)
Lemma set_new {A} k (v : A) d : assoc_get k d = None -> assoc_set k v d = d ++ [(k, v)].
Proof.
  induction d as [|[k' v'] d IH]; [reflexivity|]. rewrite get_cons. cbn [assoc_set app]. destruct (String.eqb k' k); [discriminate|].
  intros H. rewrite IH by exact H. reflexivity.
Qed.
Lemma perm_get_none {A} k (d d' : list (string * A)) : Permutation d d' -> assoc_get k d' = None -> assoc_get k d = None.
Proof.
  intros Hp H. apply get_none. apply get_none in H. intros Hi. apply H. apply (Permutation_in _ (Permutation_map fst Hp)), Hi.
Qed.

Section Types.
  Open Scope R_scope.
  Definition thetas (p f : nat -> R) (n : nat) : list (string * R) :=
    map (fun i => (numbered "theta_p" i, p i)) (seq 1 n) ++ map (fun i => (numbered "theta_f" i, f i)) (seq 1 n).

  Lemma theta_of het p f n (q : nat -> R) i : (n <= 9)%nat -> Permutation het (thetas p f n) ->
    (i = "p" /\ q = p \/ i = "f" /\ q = f) ->
    theta_param (assoc_set "theta_f0" 0 (assoc_set "theta_p0" 0 het)) i = 0 :: map q (seq 1 n).
  Proof.
    intros Hn Hp Hi.
    assert (N1 : assoc_get "theta_p0" het = None).
    { apply (perm_get_none _ _ _ Hp). do 10 (destruct n as [|n]; [reflexivity|]). lia. }
    assert (N2 : assoc_get "theta_f0" het = None).
    { apply (perm_get_none _ _ _ Hp). do 10 (destruct n as [|n]; [reflexivity|]). lia. }
    rewrite (set_new "theta_p0") by exact N1.
    rewrite (set_new "theta_f0").
    2: { apply get_none. rewrite map_app. intros H. apply in_app_or in H. destruct H as [H|[H|[]]]; [apply get_none in N2; contradiction|discriminate]. }
    unfold theta_param.
    rewrite (sorted_filter_is _ _ ((numbered ("theta_" ++ i)%string 0, 0) :: map (fun k => (numbered ("theta_" ++ i)%string k, q k)) (seq 1 n))).
    - cbn [map snd]. f_equal. rewrite map_map. reflexivity.
    - assert (Hall : Permutation ((het ++ [("theta_p0", 0)]) ++ [("theta_f0", 0)]) ((thetas p f n ++ [("theta_p0", 0)]) ++ [("theta_f0", 0)]))
        by (apply Permutation_app_tail, Permutation_app_tail, Hp).
      rewrite (filter_perm _ _ _ Hall). rewrite !filter_app. unfold thetas. rewrite filter_app. clear Hall N1 N2 Hp.
      destruct Hi as [[-> ->]|[-> ->]].
      + do 10 (destruct n as [|n]; [match goal with |- Permutation _ (?x :: ?l) => exact (Permutation_sym (Permutation_cons_append l x)) end|]); lia.
      + do 10 (destruct n as [|n]; [match goal with |- Permutation _ (?x :: ?l) => exact (Permutation_sym (Permutation_cons_append l x)) end|]); lia.
    - apply names_ok_sorted. cbn [map fst]. rewrite map_map. cbn [fst]. destruct Hi as [[-> _]|[-> _]]; do 10 (destruct n as [|n]; [reflexivity|]); lia.
    - apply names_ok_sorted. cbn [map fst]. rewrite map_map. cbn [fst]. destruct Hi as [[-> _]|[-> _]]; do 10 (destruct n as [|n]; [reflexivity|]); lia.
  Qed.
End Types.

(** *** names with numbers *)
From Coq Require Import DecimalString DecimalNat DecimalFacts.
Section Names.
  Definition digits (i : nat) : string := NilEmpty.string_of_uint (Nat.to_uint i).

  Lemma append_inj (b s s' : string) : String.append b s = String.append b s' -> s = s'.
  Proof. induction b as [|c b IH]; cbn [String.append]; intros H; [exact H|]. injection H as H. apply IH, H. Qed.

  Lemma numbered_inj b i j : numbered b i = numbered b j -> i = j.
  Proof.
    intros H. apply append_inj in H. apply (f_equal NilEmpty.uint_of_string) in H. rewrite !NilEmpty.usu in H.
    assert (E : Nat.to_uint i = Nat.to_uint j) by congruence. rewrite <- (Unsigned.of_to i), <- (Unsigned.of_to j), E. reflexivity.
  Qed.

  (** no leading zeros *)
  Lemma to_uint_norm i : Decimal.unorm (Nat.to_uint i) = Nat.to_uint i.
  Proof. rewrite <- Unsigned.to_of, Unsigned.of_to. reflexivity. Qed.

  Lemma no_zero i u : Nat.to_uint i = Decimal.D0 u -> i = 0%nat.
  Proof.
    intros H. pose proof (to_uint_norm i) as E. rewrite H in E. rewrite <- (Unsigned.of_to i), H.
    destruct (Decimal.nzhead u) eqn:F.
    - change (Decimal.unorm (Decimal.D0 u)) with (Decimal.unorm u) in E. unfold Decimal.unorm in E. rewrite F in E. injection E as <-. reflexivity.
    - exfalso. unfold Decimal.unorm in E. cbn [Decimal.nzhead] in E. rewrite F in E. revert F. rewrite E. apply nzhead_nonzero.
    - unfold Decimal.unorm in E. cbn [Decimal.nzhead] in E. rewrite F in E. discriminate.
    - unfold Decimal.unorm in E. cbn [Decimal.nzhead] in E. rewrite F in E. discriminate.
    - unfold Decimal.unorm in E. cbn [Decimal.nzhead] in E. rewrite F in E. discriminate.
    - unfold Decimal.unorm in E. cbn [Decimal.nzhead] in E. rewrite F in E. discriminate.
    - unfold Decimal.unorm in E. cbn [Decimal.nzhead] in E. rewrite F in E. discriminate.
    - unfold Decimal.unorm in E. cbn [Decimal.nzhead] in E. rewrite F in E. discriminate.
    - unfold Decimal.unorm in E. cbn [Decimal.nzhead] in E. rewrite F in E. discriminate.
    - unfold Decimal.unorm in E. cbn [Decimal.nzhead] in E. rewrite F in E. discriminate.
    - unfold Decimal.unorm in E. cbn [Decimal.nzhead] in E. rewrite F in E. discriminate.
  Qed.
  Lemma is_digits i u j : Nat.to_uint i = u -> Nat.of_uint u = j -> i = j.
  Proof. intros <- <-. symmetry. apply Unsigned.of_to. Qed.

  (** comparison of two names with the same beginning *)
  Lemma leb_append b s s' : String.leb (String.append b s) (String.append b s') = String.leb s s'.
  Proof.
    unfold String.leb. induction b as [|c b IH]; [reflexivity|]. cbn [String.append String.compare].
    unfold Ascii.compare at 1. rewrite N.compare_refl. exact IH.
  Qed.
  Lemma not_empty i : Nat.to_uint i <> Decimal.Nil.
  Proof. intros H. pose proof (to_uint_norm i) as E. rewrite H in E. discriminate. Qed.

  (** zero and one come first, ten before two, three, ... *)
  Lemma zero_first i : String.leb (digits 0) (digits i) = true.
  Proof. unfold digits. destruct (Nat.to_uint i) eqn:E; try reflexivity; [destruct (not_empty _ E)|]. rewrite (no_zero _ _ E) in E. cbn in E. injection E as <-. reflexivity. Qed.
  Lemma one_second i : (1 <= i)%nat -> String.leb (digits 1) (digits i) = true.
  Proof.
    intros Hi. unfold digits. destruct (Nat.to_uint i) as [|u|u|u|u|u|u|u|u|u|u] eqn:E; try reflexivity.
    - destruct (not_empty _ E).
    - apply no_zero in E. lia.
    - cbn. destruct u; reflexivity.
  Qed.
  Lemma ten_third i : (2 <= i)%nat -> String.leb (digits 10) (digits i) = true.
  Proof.
    intros Hi. unfold digits. destruct (Nat.to_uint i) as [|u|u|u|u|u|u|u|u|u|u] eqn:E; try reflexivity.
    - destruct (not_empty _ E).
    - apply no_zero in E. lia.
    - destruct u as [|u|u|u|u|u|u|u|u|u|u]; try reflexivity.
      + apply (is_digits _ _ 1%nat) in E; [lia|reflexivity].
      + destruct u; reflexivity.
  Qed.

  (** digits do not contain letters *)
  Lemma digits_index u s : String.index 0 (String "t" s) (NilEmpty.string_of_uint u) = None.
  Proof. induction u as [|u IH|u IH|u IH|u IH|u IH|u IH|u IH|u IH|u IH|u IH]; cbn [NilEmpty.string_of_uint]; [reflexivity|..]; cbn; rewrite IH; reflexivity. Qed.
End Names.

Section ManyTypes.
  Open Scope R_scope.
  Lemma filter_all {A} (P : A -> bool) l : (forall x, In x l -> P x = true) -> filter P l = l.
  Proof. induction l as [|x l IH]; intros H; cbn [filter]; [reflexivity|]. rewrite (H x (or_introl eq_refl)), IH; [reflexivity|]. intros y Hy. apply H. right. exact Hy. Qed.
  Lemma filter_none {A} (P : A -> bool) l : (forall x, In x l -> P x = false) -> filter P l = [].
  Proof. induction l as [|x l IH]; intros H; cbn [filter]; [reflexivity|]. rewrite (H x (or_introl eq_refl)). apply IH. intros y Hy. apply H. right. exact Hy. Qed.

  Lemma own_name i k : i = "p" \/ i = "f" -> str_contains ("theta_" ++ i)%string (numbered ("theta_" ++ i)%string k) = true.
  Proof. unfold numbered. intros [->| ->]; destruct (NilEmpty.string_of_uint _); reflexivity. Qed.
  Lemma other_name i j k : (i = "p" /\ j = "f") \/ (i = "f" /\ j = "p") -> str_contains ("theta_" ++ i)%string (numbered ("theta_" ++ j)%string k) = false.
  Proof.
    intros [[-> ->]|[-> ->]]; unfold str_contains, numbered; cbn; rewrite digits_index; reflexivity.
  Qed.
  Definition named (b : string) (q : nat -> R) (l : list nat) : list (string * R) := map (fun k => (numbered b k, q k)) l.

  Lemma named_in b q l x : In x (named b q l) -> exists k, In k l /\ x = (numbered b k, q k).
  Proof. intros H. apply in_map_iff in H. destruct H as (k & <- & Hk). exists k. split; [exact Hk|reflexivity]. Qed.

  Lemma get_named_none b b' q l k : ~ In k l -> b = b' -> assoc_get (numbered b k) (named b' q l) = None.
  Proof.
    intros H <-. apply get_none. unfold named. rewrite map_map. cbn [fst]. intros Hi. apply in_map_iff in Hi. destruct Hi as (j & E & Hj).
    apply numbered_inj in E. subst j. contradiction.
  Qed.

  Lemma theta_items het p f n (q : nat -> R) i : Permutation het (thetas p f n) -> (i = "p" /\ q = p \/ i = "f" /\ q = f) ->
    Permutation (filter (fun kv => str_contains ("theta_" ++ i)%string (fst kv)) (assoc_set "theta_f0" 0 (assoc_set "theta_p0" 0 het)))
      ((numbered ("theta_" ++ i)%string 0, 0) :: named ("theta_" ++ i)%string q (seq 1 n)).
  Proof.
    intros Hp Hi.
    assert (Hne : forall b' b'' k, (b' = "p" /\ b'' = "f") \/ (b' = "f" /\ b'' = "p") -> numbered ("theta_" ++ b')%string 0 <> numbered ("theta_" ++ b'')%string k)
      by (intros b' b'' k [[-> ->]|[-> ->]] E; cbn in E; injection E as E; discriminate).
    assert (N : forall b, b = "p" \/ b = "f" -> assoc_get (numbered ("theta_" ++ b)%string 0) (thetas p f n) = None).
    { intros b Hb. apply get_none. unfold thetas. rewrite map_app, !map_map. cbn [fst]. intros H. apply in_app_or in H.
      assert (Hs : forall k, In k (seq 1 n) -> k <> 0%nat) by (intros k Hk; apply in_seq in Hk; lia).
      destruct H as [H|H]; apply in_map_iff in H; destruct H as (k & E & Hk); destruct Hb as [->| ->].
      - apply (numbered_inj "theta_p") in E. apply (Hs k Hk E).
      - symmetry in E. revert E. apply (Hne "f" "p"). right. split; reflexivity.
      - symmetry in E. revert E. apply (Hne "p" "f"). left. split; reflexivity.
      - apply (numbered_inj "theta_f") in E. apply (Hs k Hk E). }
    pose proof (perm_get_none _ _ _ Hp (N "p" (or_introl eq_refl))) as N1. pose proof (perm_get_none _ _ _ Hp (N "f" (or_intror eq_refl))) as N2.
    change (numbered ("theta_" ++ "p") 0) with "theta_p0" in N1. change (numbered ("theta_" ++ "f") 0) with "theta_f0" in N2.
    rewrite (set_new "theta_p0") by exact N1.
    rewrite (set_new "theta_f0").
    2: { apply get_none. rewrite map_app. intros H. apply in_app_or in H. destruct H as [H|[H|[]]]; [apply get_none in N2; contradiction|discriminate]. }
    assert (Hall : Permutation ((het ++ [("theta_p0", 0)]) ++ [("theta_f0", 0)]) ((thetas p f n ++ [("theta_p0", 0)]) ++ [("theta_f0", 0)]))
      by (apply Permutation_app_tail, Permutation_app_tail, Hp).
    rewrite (filter_perm _ _ _ Hall). rewrite !filter_app. unfold thetas. rewrite filter_app. clear Hall N1 N2 Hp N.
    destruct Hi as [[-> ->]|[-> ->]].
    - rewrite (filter_all _ (map (fun i => (numbered "theta_p" i, _)) _)).
      2: { intros x Hx. apply in_map_iff in Hx. destruct Hx as (k & <- & _). apply (own_name "p"). left. reflexivity. }
      rewrite (filter_none _ (map (fun i => (numbered "theta_f" i, _)) _)).
      2: { intros x Hx. apply in_map_iff in Hx. destruct Hx as (k & <- & _). apply (other_name "p" "f"). left. split; reflexivity. }
      cbn [filter fst]. rewrite !List.app_nil_r. apply Permutation_sym. exact (Permutation_cons_append _ _).
    - rewrite (filter_none _ (map (fun i => (numbered "theta_p" i, _)) _)).
      2: { intros x Hx. apply in_map_iff in Hx. destruct Hx as (k & <- & _). apply (other_name "f" "p"). right. split; reflexivity. }
      rewrite (filter_all _ (map (fun i => (numbered "theta_f" i, _)) _)).
      2: { intros x Hx. apply in_map_iff in Hx. destruct Hx as (k & <- & _). apply (own_name "f"). right. reflexivity. }
      cbn [filter fst app]. rewrite !List.app_nil_r. apply Permutation_sym. exact (Permutation_cons_append _ _).
  Qed.

  Lemma theta_length het p f n (q : nat -> R) i : Permutation het (thetas p f n) -> (i = "p" /\ q = p \/ i = "f" /\ q = f) ->
    List.length (theta_param (assoc_set "theta_f0" 0 (assoc_set "theta_p0" 0 het)) i) = S n.
  Proof.
    intros Hp Hi. unfold theta_param. rewrite map_length. rewrite (Permutation_length (filter_perm _ _ _ (sorted_perm _))).
    rewrite (Permutation_length (theta_items het p f n q i Hp Hi)). cbn [List.length]. unfold named. rewrite map_length, seq_length. reflexivity.
  Qed.

  (** from eleven types on, the third place holds the parameter of type ten *)
  Lemma theta_third het p f n (q : nat -> R) i : (10 <= n)%nat -> Permutation het (thetas p f n) ->
    (i = "p" /\ q = p \/ i = "f" /\ q = f) ->
    nth_error (theta_param (assoc_set "theta_f0" 0 (assoc_set "theta_p0" 0 het)) i) 2 = Some (q 10%nat).
  Proof.
    intros Hn Hp Hi. pose proof (theta_items het p f n q i Hp Hi) as Hall. unfold theta_param.
    set (b := ("theta_" ++ i)%string) in *.
    set (rest := named b q (seq 2 8 ++ seq 11 (n - 10))).
    assert (Hr : forall k v, In (k, v) rest -> exists j, k = numbered b j /\ (2 <= j)%nat /\ j <> 10%nat).
    { intros k v H. apply named_in in H. destruct H as (j & Hj & E). injection E as -> ->. exists j. split; [reflexivity|].
      apply in_app_or in Hj. destruct Hj as [Hj|Hj]; apply in_seq in Hj; lia. }
    assert (Hperm : Permutation (filter (fun kv => str_contains b (fst kv)) (assoc_set "theta_f0" 0 (assoc_set "theta_p0" 0 het)))
      ((numbered b 0, 0) :: (numbered b 1, q 1%nat) :: (numbered b 10, q 10%nat) :: sorted_items rest)).
    { rewrite Hall. constructor. change (seq 1 n) with (seq 1 n). replace n with (1 + (8 + (1 + (n - 10))))%nat by lia.
      rewrite !seq_app. cbn [Nat.add]. change (seq 1 1) with [1%nat]. change (seq 10 1) with [10%nat].
      unfold named. rewrite !map_app. cbn [map app]. constructor.
      rewrite sorted_perm. unfold rest, named. rewrite map_app. replace (1 + (8 + (1 + (n - 10))) - 10)%nat with (n - 10)%nat by lia.
      apply Permutation_sym. apply Permutation_cons_app. reflexivity. }
    assert (Hle : forall j k, String.leb (digits j) (digits k) = true -> String.leb (numbered b j) (numbered b k) = true).
    { intros j k H. unfold numbered. rewrite leb_append. exact H. }
    rewrite (sorted_filter_is _ _ _ Hperm); [reflexivity| |].
    - assert (Hin : forall x, In x (sorted_items rest) -> exists j, fst x = numbered b j /\ (2 <= j)%nat).
      { intros [k v] H. apply (Permutation_in _ (sorted_perm rest)) in H. destruct (Hr k v H) as (j & -> & A & _). exists j. split; [reflexivity|exact A]. }
      constructor; [constructor; [constructor; [apply sorted_sorted|]|]|].
      + apply Forall_forall. intros x H. destruct (Hin x H) as (j & E & Hj). unfold below. rewrite E. apply Hle, ten_third, Hj.
      + apply Forall_forall. intros x [<-|H]; unfold below; cbn [fst]; [apply Hle, one_second; lia|].
        destruct (Hin x H) as (j & E & Hj). rewrite E. apply Hle, one_second. lia.
      + apply Forall_forall. intros x [<-|[<-|H]]; unfold below; cbn [fst]; [apply Hle, zero_first|apply Hle, zero_first|].
        destruct (Hin x H) as (j & E & Hj). rewrite E. apply Hle, zero_first.
    - assert (Hno : forall k, (k = 10 \/ k < 2)%nat -> ~ In (numbered b k) (map fst (sorted_items rest))).
      { intros k Hk H. apply in_map_iff in H. destruct H as ([s v] & E & H). cbn [fst] in E. apply (Permutation_in _ (sorted_perm rest)) in H.
        destruct (Hr s v H) as (j & E' & A & B). rewrite E' in E. apply numbered_inj in E. lia. }
      cbn [map fst]. constructor; [|constructor; [|constructor]].
      + intros [H|[H|H]]; [apply numbered_inj in H; lia|apply numbered_inj in H; lia|]. revert H. apply Hno. lia.
      + intros [H|H]; [apply numbered_inj in H; lia|]. revert H. apply Hno. lia.
      + apply Hno. lia.
      + eapply Permutation_NoDup; [apply Permutation_map, Permutation_sym, sorted_perm|]. unfold rest, named. rewrite map_map. cbn [fst].
        apply FinFun.Injective_map_NoDup; [intros x y; apply numbered_inj|]. 
        assert (Nd : forall l l' : list nat, NoDup l -> NoDup l' -> (forall x, In x l -> ~ In x l') -> NoDup (l ++ l')).
        { induction l as [|x l IH]; intros l' H1 H2 H3; [exact H2|]. apply NoDup_cons_iff in H1. destruct H1 as [H1 H1']. cbn [app]. constructor.
          - intros H. apply in_app_or in H. destruct H as [H|H]; [contradiction|]. apply (H3 x (or_introl eq_refl) H).
          - apply IH; [exact H1'|exact H2|]. intros y Hy. apply H3. right. exact Hy. }
        apply Nd; [apply seq_NoDup|apply seq_NoDup|]. intros x H1 H2. apply in_seq in H1. apply in_seq in H2. lia.
  Qed.
End ManyTypes.

Section Read.
  Open Scope R_scope.
  Lemma bind_ok {A B} (r : result A) (f : A -> result B) y : bind r f = Ok y -> exists x, r = Ok x /\ f x = Ok y.
  Proof. destruct r as [x|e]; cbn [bind]; intros H; [exists x; split; [reflexivity|exact H]|discriminate]. Qed.

  (** what a successful reading is made of *)
  Lemma params_read a df (mp : model_params R) : read_model_params_init a = Ok (df, mp) ->
    exists d sd sh nt het, expand_model_params_dict df = Ok (d, (sd, sh, nt)) /\ assoc_get "hetrg_unobs" d = Some het /\
      type_shares mp = sh /\ theta_p mp = theta_param het "p" /\ theta_f mp = theta_param het "f".
  Proof.
    unfold read_model_params_init. intros H. apply bind_ok in H. destruct H as (df' & _ & H). apply bind_ok in H.
    destruct H as ((d & ((sd & sh) & nt)) & E & H). apply bind_ok in H. destruct H as (mp' & G & H).
    assert (df' = df) by congruence. assert (mp' = mp) by congruence. subst df' mp'. clear H.
    exists d, sd, sh, nt. unfold group_parameters in G.
    repeat (apply bind_ok in G; let x := fresh "x" in let E' := fresh "G" in destruct G as (x & E' & G)).
    assert (Hm : mp = mkParams R x x0 x1 x3 (theta_param x13 "p") (theta_param x13 "f") x5 x6 x7 x8 x14 x15 x16 x17 x18 x19 sd x10 x12 sh) by congruence.
    subst mp. exists x13. split; [exact E|]. split; [|repeat split].
    match goal with H : kget d "hetrg_unobs" = Ok x13 |- _ => revert H; clear; unfold kget; destruct (assoc_get "hetrg_unobs" d); intros H; congruence end.
  Qed.

  Lemma expand_types df d sd sh nt n share p f : expand_model_params_dict df = Ok (d, (sd, sh, nt)) -> with_types df n share p f ->
    sh = (1 - nsum (map share (seq 1 n))) :: map share (seq 1 n) /\
    exists het, Permutation het (thetas p f n) /\ assoc_get "hetrg_unobs" d = Some (assoc_set "theta_f0" 0 (assoc_set "theta_p0" 0 het)).
  Proof.
    intros H (Hs & het & Hh & Hp). unfold expand_model_params_dict in H. apply bind_ok in H. destruct H as (c & _ & H).
    apply bind_ok in H. destruct H as (sd' & _ & H). rewrite Hs in H.
    rewrite filter_all in H.
    2: { intros x Hx. apply in_map_iff in Hx. destruct Hx as (k & <- & _). unfold numbered. cbn [fst]. destruct (NilEmpty.string_of_uint _); reflexivity. }
    rewrite map_map in H. cbn [snd] in H. apply bind_ok in H. destruct H as (het' & E & H).
    unfold kget in E. rewrite Hh in E. assert (het' = het) by congruence. subst het'.
    assert (E2 : Some sh = Some ((1 - nsum (map share (seq 1 n))) :: map share (seq 1 n)))
      by exact (eq_sym (f_equal (fun r => match r with Ok (_, (_, s, _)) => Some s | _ => None end) H)).
    assert (E3 : sh = (1 - nsum (map share (seq 1 n))) :: map share (seq 1 n)) by congruence. clear E2. rename E3 into E2.
    split; [exact E2|]. exists het. split; [exact Hp|].
    assert (Ed' : Some d = Some (assoc_set "hetrg_unobs" (assoc_set "theta_f0" 0 (assoc_set "theta_p0" 0 het)) df))
      by exact (eq_sym (f_equal (fun r => match r with Ok (d, _) => Some d | _ => None end) H)).
    assert (Ed : d = assoc_set "hetrg_unobs" (assoc_set "theta_f0" 0 (assoc_set "theta_p0" 0 het)) df) by congruence.
    rewrite Ed. apply get_set_same.
  Qed.
  Lemma expand_one_type df d sd sh nt : expand_model_params_dict df = Ok (d, (sd, sh, nt)) -> assoc_get "shares" df = None ->
    sh = [1] /\ assoc_get "hetrg_unobs" d = Some [("theta_p0", 0); ("theta_f0", 0)].
  Proof.
    intros H Hs. unfold expand_model_params_dict in H. apply bind_ok in H. destruct H as (c & _ & H).
    apply bind_ok in H. destruct H as (sd' & _ & H). rewrite Hs in H. unfold kget in H. rewrite get_set_same in H. cbn [bind assoc_set String.eqb Ascii.eqb Bool.eqb] in H.
    assert (E2 : Some sh = Some [1]) by exact (eq_sym (f_equal (fun r => match r with Ok (_, (_, s, _)) => Some s | _ => None end) H)).
    split; [congruence|].
    assert (Ed' : Some d = Some (assoc_set "hetrg_unobs" [("theta_p0", 0); ("theta_f0", 0)] (assoc_set "hetrg_unobs" [] df)))
      by exact (eq_sym (f_equal (fun r => match r with Ok (d, _) => Some d | _ => None end) H)).
    assert (Ed : d = assoc_set "hetrg_unobs" [("theta_p0", 0); ("theta_f0", 0)] (assoc_set "hetrg_unobs" [] df)) by congruence.
    rewrite Ed. apply get_set_same.
  Qed.
End Read.
