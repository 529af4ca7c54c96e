(** What sampling from uniform random numbers means, stated without the code of numpy. *)
From Coq Require Import ZArith List Reals.
From Verif Require Import Base Num M_Numpy.
Import ListNotations.
Open Scope R_scope.

(** the numbers of the source lie in [0, 1) *)
Definition unit_source (src : random_source R) : Prop := forall g, 0 <= fst (src_next src g) < 1.

(** the [k]-th number from state [g] on, and the state after [k] numbers *)
Fixpoint skip (src : random_source R) (k : nat) (g : src_state src) : src_state src :=
  match k with O => g | S k' => skip src k' (snd (src_next src g)) end.
Definition rand (src : random_source R) (g : src_state src) (k : nat) : R := fst (src_next src (skip src k g)).

(** sum of the first [i] probabilities *)
Fixpoint mass (p : list R) (i : nat) : R :=
  match p, i with x :: xs, S i' => x + mass xs i' | _, _ => 0 end.

(** inverse transform sampling: [x] is the value that the number [u] stands for; the numbers
    that stand for the i-th value form an interval whose length is the i-th probability *)
Definition stands_for (vals : list Z) (p : list R) (u : R) (x : Z) : Prop :=
  exists i, nth_error vals i = Some x /\ mass p i <= u < mass p (S i).

(** the numbers that mean success in a draw with probability [p]: an interval of length [p] *)
Definition success (p u : R) : Prop := if Rle_dec p (1 / 2) then 1 - p < u else u <= p.

(** how many numbers draws with these probabilities use up: none for impossible events *)
Fixpoint numbers_used (ps : list R) : nat :=
  match ps with [] => 0%nat | p :: ps => ((if Req_EM_T p 0 then 0 else 1) + numbers_used ps)%nat end.

(** two numbers that Marsaglia's polar method accepts, and what it makes of them *)
Definition inside (u1 u2 : R) : Prop :=
  let r := (2 * u1 - 1) ^ 2 + (2 * u2 - 1) ^ 2 in 0 < r < 1.
Definition polar (u1 u2 : R) : R * R :=
  let r := (2 * u1 - 1) ^ 2 + (2 * u2 - 1) ^ 2 in
  let f := sqrt (- (2 * ln r) / r) in (f * (2 * u2 - 1), f * (2 * u1 - 1)).

(** the polar method: pairs of numbers are taken until one is inside; [k] pairs are rejected *)
Inductive polar_after (src : random_source R) : nat -> src_state src -> R * R -> src_state src -> Prop :=
| polar_now s : inside (rand src s 0) (rand src s 1) -> polar_after src 0 s (polar (rand src s 0) (rand src s 1)) (skip src 2 s)
| polar_later k s p s' : ~ inside (rand src s 0) (rand src s 1) -> polar_after src k (skip src 2 s) p s' -> polar_after src (S k) s p s'.

(** a stream of normal numbers: the second number of a pair is kept for the next call *)
Inductive normals (src : random_source R) : src_state src * option R -> list R -> src_state src * option R -> Prop :=
| normals_end st : normals src st [] st
| normals_kept s x l st : normals src (s, None) l st -> normals src (s, Some x) (x :: l) st
| normals_pair k s a b s' l st : (k < 256)%nat -> polar_after src k s (a, b) s' -> normals src (s', Some b) l st -> normals src (s, None) (a :: l) st.
