(** A generator that meets the contract of S_Rng.v. *)
From Coq Require Import Reals Lra Lia ZArith List Arith.
From Verif Require Import Base Num M_Exog S_Rng L_Num.
Import ListNotations.
Open Scope R_scope.

(** the values offered with positive probability *)
Definition offered (vals : list Z) (p : list R) : list Z :=
  map fst (filter (fun q => Rltb 0 (snd q)) (combine vals p)).

Definition tick (g : Z) (k : nat) : nat := Z.to_nat (Z.abs g + Z.of_nat k).

(** the generator walks through the possible values; normals cycle through -1, 0, 1 *)
Definition ex_rng : rng R := {|
  rng_state := Z;
  rng_seed := fun s => s;
  rng_choice := fun g vals n p =>
    if negb (Nat.eqb (List.length p) (List.length vals)) then Err (ValueError "a and p must have same size")
    else match offered vals p with
         | [] => Err (ValueError "probabilities do not sum to 1")
         | v :: _ => Ok (map (fun k => nth (tick g k mod List.length (offered vals p)) (offered vals p) v) (seq 0 n), (g + 1)%Z)
         end;
  rng_binomial := fun g ps =>
    Ok (map (fun '(k, p) => if Rleb 1 p then 1%Z else if Rltb 0 p then (g + Z.of_nat k) mod 2 else 0)%Z
          (combine (seq 0 (List.length ps)) ps), (g + 1)%Z);
  rng_normal := fun g n m =>
    (map (fun i => map (fun j => IZR ((g + Z.of_nat i + Z.of_nat j) mod 3 - 1)) (seq 0 m)) (seq 0 n), (g + 1)%Z)
|}.

Lemma offered_in vals p x : In x (offered vals p) -> exists i q,
  nth_error vals i = Some x /\ nth_error p i = Some q /\ 0 < q.
Proof.
  unfold offered. intros H. apply in_map_iff in H. destruct H as ([v q] & <- & H). apply filter_In in H.
  destruct H as [H Hq]. cbn [fst snd] in *. apply In_nth_error in H. destruct H as [i Hi]. exists i, q.
  revert p i Hi. induction vals as [|w vals IH]; intros [|q' p] [|i] Hi; try discriminate Hi.
  - cbn in Hi. injection Hi as -> ->. destruct (Rltb_spec 0 q); [|discriminate]. cbn. repeat split; assumption.
  - cbn in Hi |- *. apply IH. exact Hi.
Qed.
Lemma offered_some vals p : List.length p = List.length vals -> fold_right Rplus 0 p = 1 -> offered vals p <> [].
Proof.
  intros Hl Hs E. assert (H : forall q, In q p -> q <= 0).
  { intros q Hq. apply In_nth_error in Hq. destruct Hq as [i Hi]. destruct (Rle_dec q 0) as [|Hn]; [assumption|exfalso].
    unfold offered in E. apply map_eq_nil in E. clear Hs. revert vals i Hl Hi E.
    induction p as [|q' p IH]; intros [|v vals] [|i] Hl Hi E; try discriminate; cbn in *.
    - injection Hi as ->. destruct (Rltb_spec 0 q); [discriminate|lra].
    - destruct (Rltb 0 q'); [discriminate|]. apply (IH vals i); [lia|assumption|assumption]. }
  clear E Hl. assert (fold_right Rplus 0 p <= 0); [|lra]. clear Hs. induction p as [|q p IH]; cbn; [lra|].
  pose proof (H q (or_introl eq_refl)). assert (fold_right Rplus 0 p <= 0) by (apply IH; intros; apply H; right; assumption). lra.
Qed.

Lemma ex_choice g vals n p l g' : rng_choice ex_rng g vals n p = Ok (l, g') ->
  List.length l = n /\ forall x, In x l -> In x (offered vals p).
Proof.
  cbn [ex_rng rng_choice]. destruct (negb _); [discriminate|]. destruct (offered vals p) as [|v o] eqn:E; [discriminate|].
  remember (List.length (v :: o)) as m eqn:Em.
  intros H. injection H as <- <-. split; [rewrite map_length, seq_length; reflexivity|].
  intros x Hx. apply in_map_iff in Hx. destruct Hx as (k & <- & _). apply (nth_In (v :: o) v). rewrite <- Em.
  apply Nat.mod_upper_bound. subst m. discriminate.
Qed.

Lemma combine_seq_nth {A} (l : list A) : forall s k x, nth_error l k = Some x ->
  nth_error (combine (seq s (List.length l)) l) k = Some ((s + k)%nat, x).
Proof.
  induction l as [|y l IH]; intros s [|k] x H; try discriminate.
  - cbn in *. injection H as ->. rewrite Nat.add_0_r. reflexivity.
  - cbn [List.length seq combine nth_error] in *. rewrite (IH (S s) k x H). f_equal. f_equal. lia.
Qed.

Lemma ex_rng_ok : rng_ok ex_rng.
Proof.
  constructor.
  - intros. eapply (proj1 (ex_choice _ _ _ _ _ _ H)).
  - intros g vals n p l g' H x Hx. apply (proj2 (ex_choice _ _ _ _ _ _ H)) in Hx.
    apply offered_in in Hx. destruct Hx as (i & q & Hi & _). eapply nth_error_In. exact Hi.
  - intros g vals n p l g' H Hnd i x Hi Hp Hx. apply (proj2 (ex_choice _ _ _ _ _ _ H)) in Hx.
    apply offered_in in Hx. destruct Hx as (j & q & Hj & Hq & Hpos).
    assert (i = j).
    { rewrite NoDup_nth_error in Hnd. apply Hnd; [|congruence]. apply nth_error_Some. congruence. }
    subst j. rewrite Hp in Hq. injection Hq as <-. cbn in Hpos. lra.
  - intros g ps l g' H. cbn in H. injection H as <- <-. rewrite map_length, combine_length, seq_length. apply Nat.min_id.
  - intros g ps l g' H x Hx. cbn in H. injection H as <- <-. apply in_map_iff in Hx. destruct Hx as ([k p] & <- & _).
    destruct (Rleb 1 p); [right; reflexivity|]. destruct (Rltb 0 p); [|left; reflexivity].
    pose proof (Z.mod_pos_bound (g + Z.of_nat k) 2). lia.
  - intros g ps l g' k H Hk. cbn in H. injection H as <- <-.
    apply (combine_seq_nth _ 0) in Hk. apply (map_nth_error (fun '(k, p) => if Rleb 1 p then 1%Z else if Rltb 0 p then (g + Z.of_nat k) mod 2 else 0)%Z) in Hk.
    rewrite Hk. f_equal. cbn. destruct (Rleb_spec 1 0); [lra|]. destruct (Rltb_spec 0 0); [lra|reflexivity].
  - intros g ps l g' k H Hk. cbn in H. injection H as <- <-.
    apply (combine_seq_nth _ 0) in Hk. apply (map_nth_error (fun '(k, p) => if Rleb 1 p then 1%Z else if Rltb 0 p then (g + Z.of_nat k) mod 2 else 0)%Z) in Hk.
    rewrite Hk. f_equal. cbn. destruct (Rleb_spec 1 1); [reflexivity|lra].
  - intros g n m. cbn. rewrite map_length, seq_length. reflexivity.
  - intros g n m r H. cbn in H. apply in_map_iff in H. destruct H as (i & <- & _). rewrite map_length, seq_length. reflexivity.
Qed.

Lemma ex_rng_total : rng_total ex_rng.
Proof.
  constructor.
  - intros g vals n p Hl _ Hs. pose proof (offered_some vals p Hl Hs) as Ho. cbn. rewrite Hl, Nat.eqb_refl. cbn [negb].
    destruct (offered vals p); [congruence|]. eexists. reflexivity.
  - intros g ps _. cbn. eexists. reflexivity.
Qed.
