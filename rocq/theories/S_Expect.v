(** Lives as the simulation decides them, in expectation (C100).  [K] stands for the
    continuation values that the simulation reads off the solution's table: [K t e ty a m c x]
    for alternative [c] at stock [x]. *)
From Coq Require Import Reals ZArith List Bool.
From Verif Require Import Base Num M_Params M_Sim S_Rng S_StateSpace S_Bellman S_Solver S_Sim S_SimInputs S_Grid S_GridSim.
Import ListNotations.
Open Scope R_scope.

Section Life.
  Variable sp : model_spec R.
  Variable mp : model_params R.
  Variable K : Z -> Z -> Z -> Z -> Z -> Z -> R -> R.
  Variable draws : list (R * R).
  Variable p_child : Z -> Z -> R.
  Variable p_partner : Z -> Z -> Z -> Z -> R.

  (** value of an alternative given the wage shock [s] *)
  Definition worth (t e l ty a m : Z) (x s : R) (c : Z) : R :=
    sim_flow sp mp t e l ty a m x s c + delta mp * K t e ty a m c x.

  (** the first of the best alternatives *)
  Definition rule (t e l ty a m : Z) (x s : R) : Z :=
    let w := worth t e l ty a m x s in
    if Rle_dec (w 1%Z) (w 0%Z)
    then if Rle_dec (w 2%Z) (w 0%Z) then 0%Z else 2%Z
    else if Rle_dec (w 2%Z) (w 1%Z) then 1%Z else 2%Z.

  (** the value of the alternative taken, averaged over wage shocks *)
  Definition mean_worth (t e l ty a m : Z) (x : R) : R :=
    average (fun z => let s := z * shock_sd mp in worth t e l ty a m x s (rule t e l ty a m x s)) draws.

  (** discounted utility of the alternatives taken from a period on, with [n] periods to come,
      averaged over wage shocks, births and partners *)
  Fixpoint life (n : nat) (t e l ty a m : Z) (x : R) : R :=
    average (fun z =>
      let s := z * shock_sd mp in
      let c := rule t e l ty a m x s in
      sim_flow sp mp t e l ty a m x s c
      + delta mp * match n with
                   | O => 0
                   | S n' => exact_next sp mp false p_child p_partner (life n') t e ty a m c x
                   end) draws.

  (** the same from the next period on *)
  Definition life_after (n : nat) (t e ty a m c : Z) (x : R) : R :=
    match n with
    | O => 0
    | S n' => exact_next sp mp false p_child p_partner (life n') t e ty a m c x
    end.
End Life.

(** [K] is the solution's table, and what every run of the simulation reports and acts upon *)
Definition acted_upon (sp : model_spec R) (mp : model_params R) (zs ws : list R) (pc : list (list R))
    (pp : list (list (list (R * R)))) (sol : solution R) (K : Z -> Z -> Z -> Z -> Z -> Z -> R -> R) : Prop :=
  (forall t e l ty a m g c v, in_space sp t e l ty a m -> (g < List.length (exp_grid sp))%nat -> (0 <= c < 3)%Z ->
     solver_cell sp mp false zs ws pc pp t e l ty a m g c = Ok v -> K t e ty a m c (nth g (exp_grid sp) 0) = v) /\
  (forall rg ip data, sim_setting rg sp sol -> simulation rg mp sp sol ip pc pp data ->
   forall r, In r data -> exists f z, let a := o_state r in
     o_full r = Some f /\ shock_of sp mp r (z * shock_sd mp) /\
     (forall c, (0 <= c < 3)%Z -> at_ (f_cont f) c = K (a_period a) (a_educ a) (a_type a) (a_age a) (a_partner a) c (a_stock a)) /\
     o_choice r = rule sp mp K (a_period a) (a_educ a) (a_lagged a) (a_type a) (a_age a) (a_partner a) (a_stock a) (z * shock_sd mp)).

(** nobody's resources fall to the floor of consumption, whatever they choose *)
Definition floors_clear (sp : model_spec R) (mp : model_params R) (draws : list (R * R)) : Prop :=
  forall t e l ty a m x z w c, in_space sp t e l ty a m -> 0 <= x <= 1 -> In (z, w) draws -> (0 <= c < 3)%Z ->
  above_floor sp mp t e l a m x (z * shock_sd mp) c.

(** births as the simulation draws them *)
Definition drawn_births (sp : model_spec R) (pc : list (list R)) (t e : Z) : R :=
  if (t <=? last_child_bearing_period sp)%Z then child_fun pc (t + 1) e else 0.

(** error of a reported continuation value as expected utility, per unit of slope and mesh *)
Fixpoint life_error (d : R) (n : nat) : R :=
  match n with O => 0 | S n' => report_error d (S n') + d * (report_error d n' + life_error d n') end.

(** *** careers *)
(** by how much the value of the alternative taken in the next row exceeds what was reported
    for it the row before *)
Definition surprise (r r' : out_row R) (s : R) : Prop :=
  exists f v, o_full r = Some f /\ chosen_value r' v /\ s = v - at_ (f_cont f) (o_choice r).

Inductive surprises : list (out_row R) -> list R -> Prop :=
| sur_end r : surprises [r] []
| sur_step r r' rs s ss : surprise r r' s -> surprises (r' :: rs) ss -> surprises (r :: r' :: rs) (s :: ss).
