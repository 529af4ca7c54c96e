(** What is assumed about numpy.random (documented behaviour of [choice], [binomial]
    with n = 1, and [normal]).  Theorems that need it take [rng_ok] as a hypothesis;
    L_Rng.v exhibits a generator that satisfies it. *)
From Coq Require Import ZArith List Reals.
From Verif Require Import Base Num M_Exog.
Import ListNotations.

Section Contract.
  Context {T : Type} {NT : Num T}.
  Local Open Scope num_scope.

  Record rng_ok (rg : rng T) : Prop := {
    (* a sample has the requested size and consists of offered values; values offered
       with probability 0 are never drawn *)
    choice_length : forall g vals n p l g',
      rng_choice rg g vals n p = Ok (l, g') -> List.length l = n;
    choice_values : forall g vals n p l g',
      rng_choice rg g vals n p = Ok (l, g') -> forall x, In x l -> In x vals;
    choice_possible : forall g vals n p l g',
      rng_choice rg g vals n p = Ok (l, g') -> NoDup vals ->
      forall i x, nth_error vals i = Some x -> nth_error p i = Some #0 -> ~ In x l;
    (* one 0/1 outcome per probability; certain outcomes are certain *)
    binomial_length : forall g ps l g',
      rng_binomial rg g ps = Ok (l, g') -> List.length l = List.length ps;
    binomial_values : forall g ps l g',
      rng_binomial rg g ps = Ok (l, g') -> forall x, In x l -> x = 0%Z \/ x = 1%Z;
    binomial_zero : forall g ps l g' k,
      rng_binomial rg g ps = Ok (l, g') -> nth_error ps k = Some #0 -> nth_error l k = Some 0%Z;
    binomial_one : forall g ps l g' k,
      rng_binomial rg g ps = Ok (l, g') -> nth_error ps k = Some #1 -> nth_error l k = Some 1%Z;
    (* shape of normal samples *)
    normal_rows : forall g n m, List.length (fst (rng_normal rg g n m)) = n;
    normal_cols : forall g n m r, In r (fst (rng_normal rg g n m)) -> List.length r = m
  }.

  (** [x] is the outcome of a 0/1 draw with success probability [p] *)
  Definition drawn (rg : rng T) (p : T) (x : Z) : Prop :=
    exists g ps l g' j, rng_binomial rg g ps = Ok (l, g') /\
      nth_error ps j = Some p /\ nth_error l j = Some x.
End Contract.

(** the seeds numpy accepts *)
Definition valid_seed (s : Z) : Prop := (0 <= s <= 2 ^ 32 - 1)%Z.

(** sampling succeeds for proper probabilities *)
Record rng_total (rg : rng R) : Prop := {
  choice_ok : forall g vals n p, List.length p = List.length vals ->
    (forall x, In x p -> (0 <= x)%R) -> fold_right Rplus 0%R p = 1%R ->
    exists r, rng_choice rg g vals n p = Ok r;
  binomial_ok : forall g ps, (forall p, In p ps -> (0 <= p <= 1)%R) ->
    exists r, rng_binomial rg g ps = Ok r
}.
