(** Vocabulary for statements about how agents enter a simulated data set (C64 - C68). *)
From Coq Require Import Reals ZArith List.
From Verif Require Import Base Num M_Params M_Sim S_Sim S_Bellman.
Import ListNotations.
Open Scope Z_scope.

Section Vocabulary.
  Context {T : Type} {NT : Num T}.
  Local Open Scope num_scope.

  (** the first row of an agent *)
  Definition entry_row (data : list (out_row T)) (r : out_row T) : Prop :=
    In r data /\ forall r', In r' data -> row_id r' = row_id r -> (row_period r <= row_period r')%Z.

  (** [i] is not a value of probability 0 *)
  Definition can_occur (p : list T) (i : Z) : Prop :=
    (0 <= i)%Z /\ nth_error p (Z.to_nat i) <> Some #0.

  (** the distribution given for education level [e] *)
  Definition given_for {A} (l : list A) (e : Z) (p : A) : Prop :=
    (0 <= e)%Z /\ nth_error l (Z.to_nat e) = Some p.
End Vocabulary.

Open Scope R_scope.

(** years of work experience somebody is credited with at entry *)
Definition credited_years (mp : model_params R) (a : agent R) : R :=
  IZR (a_exp_pt a) * pt_credit mp false (a_educ a) (a_age a) + IZR (a_exp_ft a).

(** [y] lies strictly between two whole numbers, by more than 10^-8 above the lower one *)
Definition broken_years (y : R) : Prop := exists n : Z, IZR n + 1 / 100000000 < y < IZR n + 1.
