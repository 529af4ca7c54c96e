(** The number interface over which the model is written, and its instances. *)
From Verif Require Import Base.
From Coq Require Import Reals Lra QArith Qround.
Open Scope Z_scope.

(** Operations of python/numpy/jax floats used by the modelled code. *)
Class Num (T : Type) := {
  nofZ : Z -> T;                (* int -> float *)
  nadd : T -> T -> T;
  nsub : T -> T -> T;
  nmul : T -> T -> T;
  ndiv : T -> T -> T;
  nleb : T -> T -> bool;        (* <= *)
  nltb : T -> T -> bool;        (* <  *)
  nexp : T -> T;
  nln  : T -> T;
  npow : T -> T -> T;           (* x ** y, for x > 0 *)
  nfloor : T -> Z               (* np.floor(x).astype(int) *)
}.

Declare Scope num_scope.
Delimit Scope num_scope with num.
Notation "x + y" := (nadd x y) : num_scope.
Notation "x - y" := (nsub x y) : num_scope.
Notation "x * y" := (nmul x y) : num_scope.
Notation "x / y" := (ndiv x y) : num_scope.
Notation "x <=? y" := (nleb x y) : num_scope.
Notation "x <? y" := (nltb x y) : num_scope.
Notation "# z" := (nofZ z%Z) (at level 1, format "# z") : num_scope.

Section Derived.
  Context {T : Type} {NT : Num T}.
  Local Open Scope num_scope.

  (** bool -> float as in [mask * value] *)
  Definition b2n (b : bool) : T := if b then #1 else #0.
  (** [jnp.maximum], [jnp.minimum], python [min] *)
  Definition nmax (x y : T) : T := if x <=? y then y else x.
  Definition nmin (x y : T) : T := if x <=? y then x else y.
  (** [jnp.clip(x, lo, hi)] = minimum(maximum(x, lo), hi) *)
  Definition nclip (x lo hi : T) : T := nmin (nmax x lo) hi.
  Definition nneg (x : T) : T := #0 - x.
  Definition nabs (x : T) : T := if x <? #0 then #0 - x else x.
  Definition nsq (x : T) : T := x * x.
  (** decimal literal a/b *)
  Definition nlit (a b : Z) : T := #a / #b.
  (** [.sum()] left to right *)
  Definition nsum (l : list T) : T := fold_left nadd l #0.
  (** [x.astype(int)]: truncation towards zero *)
  Definition ntrunc (x : T) : Z :=
    if #0 <=? x then nfloor x else Z.opp (nfloor (#0 - x)).
End Derived.

(** ** Instance 1: the real numbers (exact arithmetic). *)
Definition Rleb (x y : R) : bool := if Rle_dec x y then true else false.
Definition Rltb (x y : R) : bool := if Rlt_dec x y then true else false.
(** [x ** y]; only meaningful for x > 0 (0 is returned otherwise). *)
Definition Rpow (x y : R) : R := if Rlt_dec 0 x then Rpower x y else 0%R.

#[export] Instance RNum : Num R := {
  nofZ := IZR;
  nadd := Rplus; nsub := Rminus; nmul := Rmult; ndiv := Rdiv;
  nleb := Rleb; nltb := Rltb;
  nexp := exp; nln := ln; npow := Rpow;
  nfloor := Int_part
}.

(** ** Instance 2: real numbers with a rounding function applied after every
    operation (IEEE arithmetic without NaN, infinities and overflow).  Not
    registered for type-class resolution: it is always passed explicitly. *)
Definition RndNum (rnd : R -> R) : Num R := {|
  nofZ := fun z => rnd (IZR z);
  nadd := fun x y => rnd (x + y)%R;
  nsub := fun x y => rnd (x - y)%R;
  nmul := fun x y => rnd (x * y)%R;
  ndiv := fun x y => rnd (x / y)%R;
  nleb := Rleb; nltb := Rltb;
  nexp := fun x => rnd (exp x);
  nln := fun x => rnd (ln x);
  npow := fun x y => rnd (Rpow x y);
  nfloor := Int_part
|}.

(** ** Instance 3: rationals, for running the model.  exp/log/pow are oracles. *)
Definition QNum (qexp qln : Q -> Q) (qpow : Q -> Q -> Q) : Num Q := {|
  nofZ := inject_Z;
  nadd := fun x y => Qred (x + y)%Q;
  nsub := fun x y => Qred (x - y)%Q;
  nmul := fun x y => Qred (x * y)%Q;
  ndiv := fun x y => Qred (x / y)%Q;
  nleb := Qle_bool;
  nltb := fun x y => negb (Qle_bool y x);
  nexp := qexp; nln := qln; npow := qpow;
  nfloor := Qfloor
|}.
