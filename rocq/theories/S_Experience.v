(** Specification: years of experience behind a normalised stock. *)
From Coq Require Import Reals ZArith.
Open Scope R_scope.

(** The largest number of years one can have at the start of period [t]: the initial
    maximum plus, each period, the larger of one year and the part-time credit. *)
Definition max_years (init_max t : Z) (pt_credit : R) : R :=
  IZR init_max + IZR t * Rmax 1 pt_credit.

(** A stock is the share of that maximum. *)
Definition years_of (stock : R) (init_max t : Z) (pt_credit : R) : R :=
  stock * max_years init_max t pt_credit.

(** Credit earned in one period: 0 = not working, 1 = part-time, 2 = full-time. *)
Definition credit (choice : Z) (pt_credit : R) : R :=
  if Z.eqb choice 1 then pt_credit else if Z.eqb choice 2 then 1 else 0.
