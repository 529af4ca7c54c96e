(** Specifications for taxes and social security. *)
From Coq Require Import Reals List.
From Verif Require Import Base Num M_Params.
Open Scope R_scope.

(** weeks of a year as used by the package: 12 months of 4.3 weeks *)
Definition weeks_per_year : R := 12 * (43 / 10).

(** German income tax tariff 2007, EStG 32a (annual euro, before rounding down to
    whole euros). *)
Definition statute_2007 (x : R) : R :=
  let y := (x - 7664) / 10000 in
  let z := (x - 12739) / 10000 in
  if Rle_dec x 7664 then 0
  else if Rle_dec x 12739 then (88374 / 100 * y + 1500) * y
  else if Rle_dec x 52151 then (22874 / 100 * z + 2397) * z + 989
  else if Rle_dec x 250000 then 42 / 100 * x - 7914
  else 45 / 100 * x - 15414.

(** contribution: a rate on income up to a cap *)
Definition contribution (rate cap w : R) : R := if Rle_dec w cap then rate * w else rate * cap.

(** a function is convex *)
Definition convex (f : R -> R) : Prop :=
  forall x y l, 0 <= l <= 1 -> f (l * x + (1 - l) * y) <= l * f x + (1 - l) * f y.

(** the four thresholds of a tax table are in order *)
Definition thresholds_sorted (tp : tax_table R) : Prop :=
  exists t0 t1 t2 t3, tx_thresholds tp = [t0; t1; t2; t3] /\ t0 <= t1 /\ t1 <= t2 /\ t2 <= t3.

(** four brackets, thresholds strictly increasing (pandas.cut refuses repeated bin edges) *)
Definition four_brackets (tp : tax_table R) : Prop :=
  exists t0 t1 t2 t3 i0 i1 i2 i3 r0 r1 r2 r3 q0 q1 q2 q3,
  tp = mkTax R [t0; t1; t2; t3] [i0; i1; i2; i3] [r0; r1; r2; r3] [q0; q1; q2; q3] /\ t0 < t1 < t2 /\ t2 < t3.
