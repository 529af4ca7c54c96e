(** Populations in which part of the inputs should not matter (C69 - C71). *)
From Coq Require Import Reals ZArith List.
From Verif Require Import Base Num M_Params M_Sim S_Sim.
Import ListNotations.
Open Scope R_scope.

(** nobody has children at entry, nobody gets any *)
Definition no_births (pc : list (list R)) : Prop := forall row, In row pc -> forall p, In p row -> p = 0.
Definition enter_childless (sp : model_spec R) (ip : init_probs R) : Prop :=
  forall p, In p (ip_child_age ip) -> p = 1 :: repeat 0 (Z.to_nat (child_age_init_max sp + 1)).

(** nobody has a partner at entry, nobody finds one *)
Definition no_arrivals (pp : list (list (list (R * R)))) : Prop :=
  forall row, In row pp -> forall q, In q row -> snd (nth 0 q (0, 0)) = 0.
Definition enter_single (ip : init_probs R) : Prop := forall p, In p (ip_partner_present ip) -> p = 0.

(** the rows of one education level and type *)
Definition rows_of (e ty : Z) (data : list (out_row R)) : list (out_row R) :=
  filter (fun r => (a_educ (o_state r) =? e)%Z && (a_type (o_state r) =? ty)%Z) data.
