(** Property theorems C97: the libraries' binary searches find what the model counts. *)
From Coq Require Import Reals Lra Lia ZArith List Bool.
From Coq Require QArith.
From Verif Require Import Base Num M_Experience M_Numpy M_Search S_Interp S_Search L_Num L_Interp L_Search.
Import ListNotations.
Open Scope R_scope.

(** C97: jax's search finds the place of any number in any sorted list, and there is one place
    only.  Comparisons are exact in floating point, so this holds with every rounding. *)
Theorem C97_jax :
  forall rnd g x, nondecreasing g ->
  belongs g x (@jnp_searchsorted_right R (RndNum rnd) g x) /\
  forall r, belongs g x r -> r = @jnp_searchsorted_right R (RndNum rnd) g x.
Proof.
  intros rnd g x H. rewrite jax_upto by exact H. split; [apply belongs_upto; exact H|].
  intros r Hr. apply (belongs_unique g x); [exact Hr|]. apply belongs_upto. exact H.
Qed.
Print Assumptions C97_jax.

(** Interpolation with this search is the interpolation of the model, for all values and query
    points. *)
Theorem C97_interpolation :
  forall rnd g v x, nondecreasing g ->
  @linear_interp_1d_search R (RndNum rnd) g v x = @linear_interp_1d R (RndNum rnd) g v x.
Proof.
  intros rnd g v x H. unfold linear_interp_1d_search, linear_interp_1d. rewrite jax_upto, model_jax_upto by exact H. reflexivity.
Qed.
Print Assumptions C97_interpolation.

(** numpy's search finds the places of any keys, one after the other, although it starts from
    the place of the key before; its loop has ended after as many rounds as there are entries. *)
Theorem C97_numpy :
  forall rnd g keys, nondecreasing g ->
  Forall2 (belongs g) keys (@np_searchsorted_right R (RndNum rnd) g keys) /\
  (forall x lo hi r, belongs g x r -> (0 <= lo <= r)%Z -> (r <= hi <= zlen g)%Z ->
     @binsearch_loop R (RndNum rnd) (List.length g) g x lo hi = (r, r)).
Proof.
  intros rnd g keys H. split.
  - rewrite np_upto by exact H. induction keys as [|k keys IH]; constructor; [apply belongs_upto; exact H|exact IH].
  - intros x lo hi r Hr H1 H2. assert (E : r = upto g x) by (apply (belongs_unique g x); [exact Hr|apply belongs_upto; exact H]). subst r.
    apply np_loop_upto; try assumption. unfold zlen in H2. lia.
Qed.
Print Assumptions C97_numpy.

(** Sampling with this search is the sampling of the model, errors included, for every rounding
    that respects the order and leaves floating-point numbers alone. *)
Theorem C97_choice :
  forall rnd src g vals n p, (forall x y, x <= y -> rnd x <= rnd y) -> (forall x, rnd (rnd x) = rnd x) -> rnd 0 = 0 ->
  Forall (fun x => rnd x = x) p ->
  @np_choice_search R (RndNum rnd) src g vals n p = @np_choice R (RndNum rnd) src g vals n p.
Proof.
  intros rnd src g vals n p Hm Hf H0 Hp. unfold np_choice_search, np_choice.
  destruct (_ && _); [reflexivity|]. destruct (negb _); [reflexivity|]. destruct (existsb _ p) eqn:E; [reflexivity|]. destruct (nltb _ _); [reflexivity|].
  assert (Hq : Forall (fun x => 0 <= x /\ rnd x = x) p).
  { rewrite Forall_forall in *. intros x Hx. split; [|apply Hp; exact Hx]. apply Rnot_lt_le. intros L.
    assert (Q : existsb (fun x => @nltb R (RndNum rnd) x (@nofZ R (RndNum rnd) 0)) p = true).
    { apply existsb_exists. exists x. split; [exact Hx|]. cbn [nltb nofZ RndNum]. rewrite H0. apply Rltb_true. exact L. }
    congruence. }
  destruct (uniforms src n g) as [us g'].
  assert (Hs : nondecreasing (map (fun c => @ndiv R (RndNum rnd) c (last (@cumsum R (RndNum rnd) p) (@nofZ R (RndNum rnd) 0))) (@cumsum R (RndNum rnd) p))).
  { cbn [ndiv nofZ RndNum]. apply (cdf_sorted rnd Hm Hf p (rnd 0) Hq). lra. }
  set (c := map _ _) in *. rewrite np_upto by exact Hs. f_equal. clearbody c. clear - Hs.
  induction us as [|u us IH]; [reflexivity|]. cbn [map mapM]. rewrite model_np_upto by exact Hs. rewrite IH. reflexivity.
Qed.
Print Assumptions C97_choice.

(** in exact arithmetic there is nothing to assume *)
Theorem C97_choice_exact :
  forall src g vals n (p : list R), np_choice_search src g vals n p = np_choice src g vals n p.
Proof.
  intros src g vals n p. apply (C97_choice (fun x => x) src g vals n p); auto. apply Forall_forall. reflexivity.
Qed.
Print Assumptions C97_choice_exact.

(** the grid and the draws of a small case *)
Example C97_case :
  nondecreasing [0; 1/2; 1/2; 1] /\ belongs [0; 1/2; 1/2; 1] (1/2) 3 /\
  jnp_searchsorted_right [0; 1/2; 1/2; 1] (1/2) = 3%Z /\
  np_searchsorted_right [0; 1/2; 1/2; 1] [1/2; 1/4; 2] = [3; 1; 4]%Z.
Proof.
  assert (S : nondecreasing [0; 1/2; 1/2; 1]).
  { intros i j [A B]. cbn [List.length] in B. destruct i as [|[|[|[|i]]]], j as [|[|[|[|j]]]]; try lia; cbn [nth]; lra. }
  assert (B : forall x r, (0 <= r <= 4)%Z -> (forall i, (i < 4)%nat -> if (Z.of_nat i <? r)%Z then nth i [0; 1/2; 1/2; 1] 0 <= x else x < nth i [0; 1/2; 1/2; 1] 0) -> belongs [0; 1/2; 1/2; 1] x r).
  { intros x r H1 H2. split; [exact H1|exact H2]. }
  assert (B1 : belongs [0; 1/2; 1/2; 1] (1/2) 3) by (apply B; [lia|]; intros [|[|[|[|i]]]] Hi; try lia; cbn; lra).
  assert (B2 : belongs [0; 1/2; 1/2; 1] (1/4) 1) by (apply B; [lia|]; intros [|[|[|[|i]]]] Hi; try lia; cbn; lra).
  assert (B3 : belongs [0; 1/2; 1/2; 1] 2 4) by (apply B; [lia|]; intros [|[|[|[|i]]]] Hi; try lia; cbn; lra).
  split; [exact S|]. split; [exact B1|]. split.
  - symmetry. apply (C97_jax (fun x => x) _ _ S). exact B1.
  - destruct (C97_numpy (fun x => x) _ [1/2; 1/4; 2] S) as (F & _). change (RndNum (fun x => x)) with RNum in F.
    assert (U : forall keys l l', Forall2 (belongs [0; 1/2; 1/2; 1]) keys l -> Forall2 (belongs [0; 1/2; 1/2; 1]) keys l' -> l = l').
    { induction keys as [|k keys IH]; intros l l' P Q; inversion P; inversion Q; subst; [reflexivity|]. f_equal; [eapply belongs_unique; eassumption|apply IH; assumption]. }
    apply (U _ _ _ F). exact (Forall2_cons _ _ B1 (Forall2_cons _ _ B2 (Forall2_cons _ _ B3 (Forall2_nil _)))).
Qed.

(** In an unsorted grid the search of jax and the count differ (the program does not check the
    order of the grid of a specification). *)
Example C97_unsorted_can_differ :
  let q := fun z => QArith_base.Qmake z 1%positive in
  let N := QNum (fun x => x) (fun x => x) (fun x _ => x) in
  @jnp_searchsorted_right _ N (map q [0; 5; 1]%Z) (q 2%Z) = 1%Z /\
  @M_Experience.searchsorted_right _ N (map q [0; 5; 1]%Z) (q 2%Z) = 2%Z.
Proof. vm_compute. split; reflexivity. Qed.
