(** Lemmas about seeds and sizes of samples. *)
From Coq Require Import ZArith List Lia.
From Verif Require Import Base Num M_Exog S_Rng.
Import ListNotations.

Section Seed.
  Context {T : Type} {NT : Num T} (rg : rng T).

  Lemma np_seed_ok s : valid_seed s -> np_seed rg s = Ok (rng_seed rg s).
  Proof.
    unfold valid_seed, np_seed. change (2 ^ 32)%Z with 4294967296%Z. intros H.
    destruct (Z.leb_spec 0 s), (Z.ltb_spec s 4294967296); try lia. reflexivity.
  Qed.
  Lemma np_seed_inv s g : np_seed rg s = Ok g -> g = rng_seed rg s.
  Proof. unfold np_seed. destruct (_ && _)%bool; [congruence|discriminate]. Qed.
  Lemma np_seed_bad s : ~ valid_seed s -> np_seed rg s = Err (ValueError "Seed must be between 0 and 2**32 - 1").
  Proof.
    unfold valid_seed, np_seed. change (2 ^ 32)%Z with 4294967296%Z. intros H.
    destruct (Z.leb_spec 0 s), (Z.ltb_spec s 4294967296); try lia; reflexivity.
  Qed.
  Lemma np_size_ok n : (0 <= n)%Z -> np_size n = Ok (Z.to_nat n).
  Proof. unfold np_size. intros H. destruct (Z.ltb_spec n 0); [lia|reflexivity]. Qed.
  Lemma np_size_inv n k : np_size n = Ok k -> (0 <= n)%Z /\ k = Z.to_nat n.
  Proof. unfold np_size. destruct (Z.ltb_spec n 0); intros H1; [discriminate|]. split; [lia|congruence]. Qed.

  Lemma shocks_ok s n m : valid_seed s -> (0 <= n)%Z -> (0 <= m)%Z ->
    draw_zero_one_distributed_shocks rg s n m = Ok (rng_normal rg (rng_seed rg s) (Z.to_nat n) (Z.to_nat m)).
  Proof.
    intros H1 H2 H3. unfold draw_zero_one_distributed_shocks. rewrite np_seed_ok, !np_size_ok by assumption. reflexivity.
  Qed.
  Lemma shocks_inv s n m r : draw_zero_one_distributed_shocks rg s n m = Ok r ->
    r = rng_normal rg (rng_seed rg s) (Z.to_nat n) (Z.to_nat m).
  Proof.
    unfold draw_zero_one_distributed_shocks. intros H.
    destruct (np_seed rg s) as [g|] eqn:E1; cbn [bind] in H; [|discriminate]. apply np_seed_inv in E1. subst g.
    destruct (np_size n) as [k|] eqn:E2; cbn [bind] in H; [|discriminate]. apply np_size_inv in E2. destruct E2 as [_ ->].
    destruct (np_size m) as [k|] eqn:E3; cbn [bind] in H; [|discriminate]. apply np_size_inv in E3. destruct E3 as [_ ->]. congruence.
  Qed.
End Seed.
