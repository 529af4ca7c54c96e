(** Specifications of the exogenous inputs, over the real numbers. *)
From Coq Require Import Reals ZArith List.
From Verif Require Import Base Num M_Params M_Exog.
Import ListNotations.
Open Scope R_scope.

Definition total (l : list R) : R := fold_right Rplus 0 l.

(** A file that lists, period by period and for every education level in turn, the values
    p t e for the periods 0..n-1.  The child file may hold them in one or several rows per
    period. *)
Definition lists_periods (p : Z -> Z -> R) (levels n : Z) (rows : list (Z * list R)) : Prop :=
  exists blocks, rows = List.concat blocks /\ zlen blocks = n /\
    forall t block, nth_error blocks t = Some block ->
      (forall row, In row block -> fst row = Z.of_nat t) /\
      List.concat (map snd block) = map (p (Z.of_nat t)) (range levels).

(** the same for files with one value per row *)
Definition lists_values (p : Z -> Z -> R) (levels n : Z) (rows : list (Z * R)) : Prop :=
  rows = List.concat (map (fun t => map (fun e => (t, p t e)) (range levels)) (range n)).

(** the shares a file holds for one education level, in file order *)
Definition of_level (e : Z) (file : list (Z * R)) : list R :=
  map snd (filter (fun r => fst r =? e)%Z file).

(** probability that two independent draws, from the distributions a and b over 0,1,2,...,
    sum to k *)
Definition law_of_sum (a b : list R) (k : nat) : R :=
  total (map (fun i => total (map (fun j => if Nat.eqb (i + j) k then nth i a 0 * nth j b 0 else 0)
                                  (seq 0 (List.length b)))) (seq 0 (List.length a))).

(** contract of scipy.special.roots_hermite(n): n nodes and n weights for the weight function
    exp(-x^2); the weights sum to sqrt(pi), odd moments vanish and, from two nodes on, the
    second moment is sqrt(pi)/2 *)
Definition hermite_ok (roots : Z -> list R * list R) : Prop :=
  forall n, (1 <= n)%Z -> let x := fst (roots n) in let w := snd (roots n) in
    zlen x = n /\ zlen w = n /\ (forall v, In v w -> 0 < v) /\ total w = sqrt PI /\
    total (map2 Rmult x w) = 0 /\ ((2 <= n)%Z -> total (map2 (fun a b => a * a * b) x w) = sqrt PI / 2).
