From Verif Require Import Base Num M_Params M_Experience M_Sim L_Num S_Experience L_Experience.
Open Scope R_scope.

Lemma init_agent_years (mp : model_params R) (sp : model_spec R) b id entry e age m pt ft ty :
  (0 < init_exp_max sp)%Z -> (0 <= entry)%Z ->
  let p := get_pt_increment mp e age b in
  let a := init_agent mp sp b id entry e age m pt ft ty in
  years_of (a_stock a) (init_exp_max sp) (a_period a) p
  = (IZR pt * p + IZR ft) * (max_years (init_exp_max sp) entry p / IZR (init_exp_max sp)).
Proof.
  intros Hi He p a. unfold a, init_agent; cbn [a_stock a_period]. fold p.
  assert (Hi' : 0 < IZR (init_exp_max sp)) by (apply IZR_lt; assumption).
  assert (Hm : max_years (init_exp_max sp) 0 p = IZR (init_exp_max sp))
    by (unfold max_years; ring).
  rewrite exp_years_to_stock_R by (rewrite ?Hm; try lia; lra). rewrite Hm.
  unfold years_of. rn. field. lra.
Qed.

Lemma init_agent_years_0 (mp : model_params R) (sp : model_spec R) b id e age m pt ft ty :
  (0 < init_exp_max sp)%Z ->
  let p := get_pt_increment mp e age b in
  let a := init_agent mp sp b id 0 e age m pt ft ty in
  years_of (a_stock a) (init_exp_max sp) (a_period a) p = IZR pt * p + IZR ft.
Proof.
  intros Hi p a. unfold a. assert (Hi' : 0 < IZR (init_exp_max sp)) by (apply IZR_lt; assumption).
  rewrite init_agent_years by (try assumption; lia). fold p. unfold max_years. field. lra.
Qed.

Lemma init_agent_stock_unit (mp : model_params R) (sp : model_spec R) b id entry e age m pt ft ty :
  (0 < init_exp_max sp)%Z -> (0 <= pt)%Z -> (0 <= ft)%Z ->
  let p := get_pt_increment mp e age b in
  0 <= p ->
  (0 <= a_stock (init_agent mp sp b id entry e age m pt ft ty) <= 1
   <-> IZR pt * p + IZR ft <= IZR (init_exp_max sp)).
Proof.
  intros Hi Hpt Hft p Hp. unfold init_agent; cbn [a_stock]. fold p.
  assert (Hi' : 0 < IZR (init_exp_max sp)) by (apply IZR_lt; assumption).
  apply IZR_le in Hpt, Hft.
  assert (Hm : max_years (init_exp_max sp) 0 p = IZR (init_exp_max sp))
    by (unfold max_years; ring).
  rewrite exp_years_to_stock_R by (rewrite ?Hm; try lia; lra). rewrite Hm. rn.
  set (y := IZR pt * p + IZR ft). assert (0 <= y) by (unfold y; nra).
  assert (E : y / IZR (init_exp_max sp) * IZR (init_exp_max sp) = y) by (field; lra).
  split.
  - intros [_ H1]. nra.
  - intros H1. split.
    + apply Rmult_le_pos; [lra|]. left. apply Rinv_0_lt_compat. lra.
    + nra.
Qed.

(** zero initial maximum: only zero years can be drawn and the stock is 0 *)
Lemma init_agent_zero_max (mp : model_params R) (sp : model_spec R) b id entry e age m ty :
  init_exp_max sp = 0%Z -> a_stock (init_agent mp sp b id entry e age m 0 0 ty) = 0.
Proof.
  intros Hi. unfold init_agent; cbn [a_stock]. rewrite Hi. unfold exp_years_to_stock.
  rn. unfold Rdiv. rewrite Rmult_0_l, Rplus_0_l. apply Rmult_0_l.
Qed.
