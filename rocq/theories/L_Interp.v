From Verif Require Import Base Num M_Params M_Experience M_Sim L_Num S_Interp.
Open Scope R_scope.

Lemma increasing_tail x g : increasing (x :: g) -> increasing g.
Proof. intros H i j Hij. apply (H (S i) (S j)). simpl; lia. Qed.

Lemma increasing_head x g y : increasing (x :: g) -> In y g -> x < y.
Proof.
  intros H Hy. apply In_nth with (d := 0) in Hy. destruct Hy as (k & Hk & <-).
  apply (H 0%nat (S k)). simpl; lia.
Qed.

Definition count_le (g : list R) (x : R) : nat := List.length (filter (fun y => Rleb y x) g).

Lemma searchsorted_R (g : list R) (x : R) : searchsorted_right g x = Z.of_nat (count_le g x).
Proof. reflexivity. Qed.

Lemma count_le_length g x : (count_le g x <= List.length g)%nat.
Proof. unfold count_le. induction g as [|y g IH]; simpl; [lia|]. destruct (Rleb y x); simpl; lia. Qed.

Lemma count_le_spec g x k :
  increasing g -> (k < List.length g)%nat -> (nth k g 0 <= x <-> (k < count_le g x)%nat).
Proof.
  revert k; induction g as [|y g IH]; intros k Hinc Hk; [simpl in Hk; lia|].
  assert (Hg : increasing g) by (eapply increasing_tail; eauto).
  unfold count_le in *. cbn [filter]. destruct (Rleb_spec y x) as [Hyx|Hyx].
  - destruct k as [|k]; cbn [nth List.length]; [split; intros; [lia|assumption]|].
    simpl in Hk. rewrite (IH k Hg) by lia. lia.
  - assert (E : filter (fun z => Rleb z x) g = []).
    { clear IH Hk. assert (Hall : forall z, In z g -> y < z)
        by (intros z Hz; eapply increasing_head; eauto). clear Hinc Hg.
      induction g as [|z g IHg]; [reflexivity|]. simpl.
      assert (y < z) by (apply Hall; left; reflexivity).
      destruct (Rleb_spec z x); [lra|]. apply IHg. intros; apply Hall; right; assumption. }
    rewrite E. simpl. split; [|lia]. intros Hle. exfalso.
    destruct k as [|k]; simpl in Hle; [lra|].
    assert (y < nth k g 0) by (eapply increasing_head; eauto; apply nth_In; simpl in Hk; lia). lra.
Qed.

(** the interval used for query x *)
Definition seg (g : list R) (x : R) : nat :=
  (Nat.min (Nat.max (count_le g x) 1) (List.length g - 1) - 1)%nat.

Lemma aget_R (l : list R) (i : Z) : (0 <= i < zlen l)%Z -> aget l i = nth (Z.to_nat i) l 0.
Proof. intros H. unfold aget. rewrite jget_nth by assumption. reflexivity. Qed.

Lemma interp_seg (g v : list R) (x : R) :
  increasing g -> (2 <= List.length g)%nat -> List.length v = List.length g ->
  linear_interp_1d g v x = grid_chord g v (seg g x) x.
Proof.
  intros Hinc Hn Hv. unfold linear_interp_1d. rewrite searchsorted_R.
  set (hi := Z.min (Z.max (Z.of_nat (count_le g x)) 1) (zlen g - 1)).
  assert (Hhi : hi = Z.of_nat (S (seg g x)))
    by (unfold hi, seg, zlen; pose proof (count_le_length g x); lia).
  assert (Hk : (S (seg g x) < List.length g)%nat) by (unfold seg; lia).
  rewrite Hhi. unfold grid_chord, chord.
  rewrite !aget_R by (unfold zlen; lia).
  replace (Z.to_nat (Z.of_nat (S (seg g x)) - 1)) with (seg g x) by lia.
  rewrite !Nat2Z.id. rn.
  destruct (Rltb_spec 0 (nth (S (seg g x)) g 0 - nth (seg g x) g 0)) as [_|Hbad]; [reflexivity|].
  assert (nth (seg g x) g 0 < nth (S (seg g x)) g 0) by (apply Hinc; lia). lra.
Qed.

Lemma interp_single (y v0 x : R) : linear_interp_1d [y] [v0] x = v0.
Proof.
  unfold linear_interp_1d. rewrite searchsorted_R.
  assert (E : Z.min (Z.max (Z.of_nat (count_le [y] x)) 1) (zlen [y] - 1) = 0%Z)
    by (unfold zlen; simpl; lia).
  rewrite E. simpl. unfold aget, jget, zlen; simpl.
  destruct (Rltb_spec 0 (y - y)); [lra|]. lra.
Qed.

Lemma seg_bound g x : (2 <= List.length g)%nat -> (S (seg g x) < List.length g)%nat.
Proof. intros. unfold seg. lia. Qed.

Lemma seg_low g x : increasing g -> (2 <= List.length g)%nat ->
  seg g x = 0%nat \/ nth (seg g x) g 0 <= x.
Proof.
  intros Hinc Hn. destruct (Nat.eq_dec (seg g x) 0) as [E|E]; [left; assumption|right].
  apply count_le_spec; [assumption| |]; unfold seg in *; lia.
Qed.

Lemma seg_high g x : increasing g -> (2 <= List.length g)%nat ->
  seg g x = (List.length g - 2)%nat \/ x < nth (S (seg g x)) g 0.
Proof.
  intros Hinc Hn. destruct (Nat.eq_dec (seg g x) (List.length g - 2)) as [E|E]; [left; assumption|right].
  apply Rnot_le_lt. intros Hle. apply count_le_spec in Hle; [|assumption|unfold seg; lia].
  unfold seg in *. lia.
Qed.

Lemma chord_left x0 x1 v0 v1 : chord x0 x1 v0 v1 x0 = v0.
Proof. unfold chord. unfold Rdiv. rewrite Rminus_diag_eq by reflexivity. ring. Qed.
Lemma chord_right x0 x1 v0 v1 : x0 < x1 -> chord x0 x1 v0 v1 x1 = v1.
Proof. intros. unfold chord. field. lra. Qed.

(** C12: chord between neighbouring grid points (end points included) *)
Lemma interp_between (g v : list R) (k : nat) (x : R) :
  increasing g -> List.length v = List.length g -> (S k < List.length g)%nat ->
  nth k g 0 <= x <= nth (S k) g 0 ->
  linear_interp_1d g v x = grid_chord g v k x.
Proof.
  intros Hinc Hv Hk [Hlo Hhi].
  rewrite interp_seg by (try assumption; lia).
  pose proof (seg_bound g x ltac:(lia)) as Hb.
  destruct (Nat.lt_trichotomy (seg g x) k) as [Hlt|[->|Hgt]]; [|reflexivity|].
  - exfalso. destruct (seg_high g x Hinc ltac:(lia)) as [E|E]; [lia|].
    assert (nth (S (seg g x)) g 0 <= nth k g 0).
    { destruct (Nat.eq_dec (S (seg g x)) k) as [->|]; [lra|]. left. apply Hinc. lia. }
    lra.
  - destruct (seg_low g x Hinc ltac:(lia)) as [E|E]; [lia|].
    assert (nth (S k) g 0 <= nth (seg g x) g 0).
    { destruct (Nat.eq_dec (S k) (seg g x)) as [->|]; [lra|]. left. apply Hinc. lia. }
    assert (Es : seg g x = S k).
    { destruct (Nat.eq_dec (seg g x) (S k)); [assumption|exfalso].
      assert (nth (S k) g 0 < nth (seg g x) g 0) by (apply Hinc; lia). lra. }
    rewrite Es in *. assert (x = nth (S k) g 0) as -> by lra.
    unfold grid_chord. rewrite chord_left, chord_right; [reflexivity|]. apply Hinc. lia.
Qed.

Lemma interp_at_grid (g v : list R) (k : nat) :
  increasing g -> List.length v = List.length g -> (k < List.length g)%nat ->
  linear_interp_1d g v (nth k g 0) = nth k v 0.
Proof.
  intros Hinc Hv Hk. destruct (Nat.eq_dec (S k) (List.length g)) as [E|E].
  - destruct k as [|k].
    + destruct g as [|y [|? ?]]; simpl in E; try lia.
      destruct v as [|v0 [|? ?]]; simpl in Hv; try lia. apply interp_single.
    + rewrite (interp_between g v k) by (first [assumption | lia | (split; [left; apply Hinc; lia | lra])]).
      unfold grid_chord. apply chord_right. apply Hinc. lia.
  - rewrite (interp_between g v k) by (first [assumption | lia | (split; [lra | left; apply Hinc; lia])]).
    unfold grid_chord. apply chord_left.
Qed.

(** ** interpolation as a weighted average with weights depending on grid and query *)
Definition weight (g : list R) (x : R) : R :=
  if Nat.leb (List.length g) 1 then 0
  else (x - nth (seg g x) g 0) / (nth (S (seg g x)) g 0 - nth (seg g x) g 0).

Lemma interp_weighted (g v : list R) (x : R) :
  increasing g -> (1 <= List.length g)%nat -> List.length v = List.length g ->
  linear_interp_1d g v x
  = (1 - weight g x) * nth (seg g x) v 0 + weight g x * nth (S (seg g x)) v 0.
Proof.
  intros Hinc Hn Hv. unfold weight. destruct (Nat.leb_spec (List.length g) 1).
  - destruct g as [|y [|? ?]]; cbn [List.length] in *; try lia.
    destruct v as [|v0 [|? ?]]; cbn [List.length] in Hv; try lia. rewrite interp_single.
    assert (E : seg [y] x = 0%nat) by (unfold seg; cbn [List.length]; lia). rewrite E. cbn [nth]. lra.
  - rewrite interp_seg by (try assumption; lia). unfold grid_chord, chord. ring.
Qed.

Definition in_grid (g : list R) (x : R) : Prop :=
  (List.length g = 1)%nat \/ nth 0 g 0 <= x <= nth (List.length g - 1) g 0.

Lemma weight_unit (g : list R) (x : R) :
  increasing g -> (1 <= List.length g)%nat -> in_grid g x -> 0 <= weight g x <= 1.
Proof.
  intros Hinc Hn Hin. unfold weight. destruct (Nat.leb_spec (List.length g) 1); [lra|].
  destruct Hin as [|[H0 H1]]; [lia|].
  assert (Hlt : nth (seg g x) g 0 < nth (S (seg g x)) g 0)
    by (apply Hinc; pose proof (seg_bound g x); lia).
  assert (Hlo : nth (seg g x) g 0 <= x).
  { destruct (seg_low g x Hinc ltac:(lia)) as [->|]; assumption. }
  assert (Hhi : x <= nth (S (seg g x)) g 0).
  { destruct (seg_high g x Hinc ltac:(lia)) as [E|E]; [|lra].
    replace (S (seg g x)) with (List.length g - 1)%nat by lia. assumption. }
  assert (E : (x - nth (seg g x) g 0) / (nth (S (seg g x)) g 0 - nth (seg g x) g 0)
              * (nth (S (seg g x)) g 0 - nth (seg g x) g 0) = x - nth (seg g x) g 0) by (field; lra).
  split; nra.
Qed.

Lemma seg_lt g x : (1 <= List.length g)%nat -> (seg g x < List.length g)%nat.
Proof. intros. unfold seg. lia. Qed.

Lemma weight_single g x : (List.length g <= 1)%nat -> weight g x = 0.
Proof. intros. unfold weight. destruct (Nat.leb_spec (List.length g) 1); [reflexivity|lia]. Qed.

(** values everywhere in [lo, hi] -> interpolant in [lo, hi] *)
Lemma interp_bounds (g v : list R) (x lo hi : R) :
  increasing g -> (1 <= List.length g)%nat -> List.length v = List.length g -> in_grid g x ->
  (forall y, In y v -> lo <= y <= hi) -> lo <= linear_interp_1d g v x <= hi.
Proof.
  intros Hinc Hn Hv Hin Hb. rewrite interp_weighted by assumption.
  pose proof (weight_unit g x Hinc Hn Hin) as Hw.
  assert (H0 : lo <= nth (seg g x) v 0 <= hi) by (apply Hb, nth_In; rewrite Hv; apply seg_lt; assumption).
  destruct (le_lt_dec (List.length g) 1) as [H1|H1].
  - rewrite weight_single by assumption. lra.
  - assert (lo <= nth (S (seg g x)) v 0 <= hi)
      by (apply Hb, nth_In; rewrite Hv; apply seg_bound; lia). nra.
Qed.

(** pointwise larger values -> larger interpolant *)
Lemma interp_mono_values (g v v' : list R) (x : R) :
  increasing g -> (1 <= List.length g)%nat ->
  List.length v = List.length g -> List.length v' = List.length g -> in_grid g x ->
  (forall k, (k < List.length g)%nat -> nth k v 0 <= nth k v' 0) ->
  linear_interp_1d g v x <= linear_interp_1d g v' x.
Proof.
  intros Hinc Hn Hv Hv' Hin Hle. rewrite !interp_weighted by assumption.
  pose proof (weight_unit g x Hinc Hn Hin) as Hw.
  pose proof (Hle (seg g x) (seg_lt g x Hn)).
  destruct (le_lt_dec (List.length g) 1) as [H1|H1].
  - rewrite weight_single by assumption. lra.
  - pose proof (Hle (S (seg g x)) (seg_bound g x H1)). nra.
Qed.

Lemma interp_linear_values (g : list R) (x a b : R) (v v' w : list R) :
  increasing g -> (1 <= List.length g)%nat ->
  List.length v = List.length g -> List.length v' = List.length g ->
  List.length w = List.length g ->
  (forall k, (k < List.length g)%nat -> nth k w 0 = a * nth k v 0 + b * nth k v' 0) ->
  linear_interp_1d g w x = a * linear_interp_1d g v x + b * linear_interp_1d g v' x.
Proof.
  intros Hinc Hn Hv Hv' Hw H. rewrite !interp_weighted by assumption.
  rewrite (H (seg g x) (seg_lt g x Hn)).
  destruct (le_lt_dec (List.length g) 1) as [H1|H1].
  - rewrite weight_single by assumption. ring.
  - rewrite (H (S (seg g x)) (seg_bound g x H1)). ring.
Qed.

(** monotone in the query for non-decreasing values (also when extrapolating) *)
Lemma count_le_mono g x y : x <= y -> (count_le g x <= count_le g y)%nat.
Proof.
  intros H. unfold count_le. induction g as [|z g IH]; simpl; [lia|].
  destruct (Rleb_spec z x); destruct (Rleb_spec z y); simpl; try lia; lra.
Qed.
Lemma seg_mono g x y : x <= y -> (seg g x <= seg g y)%nat.
Proof. intros H. unfold seg. pose proof (count_le_mono g x y H). lia. Qed.

Lemma chord_le_right x0 x1 v0 v1 x : x0 < x1 -> v0 <= v1 -> x <= x1 -> chord x0 x1 v0 v1 x <= v1.
Proof.
  intros H0 Hv Hx. unfold chord.
  assert (E : (x - x0) / (x1 - x0) * (x1 - x0) = x - x0) by (field; lra).
  assert ((x - x0) / (x1 - x0) <= 1) by nra. nra.
Qed.
Lemma chord_ge_left x0 x1 v0 v1 x : x0 < x1 -> v0 <= v1 -> x0 <= x -> v0 <= chord x0 x1 v0 v1 x.
Proof.
  intros H0 Hv Hx. unfold chord.
  assert (0 <= (x - x0) / (x1 - x0)).
  { apply Rmult_le_pos; [lra|]. left. apply Rinv_0_lt_compat. lra. }
  nra.
Qed.
Lemma chord_mono x0 x1 v0 v1 x y : x0 < x1 -> v0 <= v1 -> x <= y ->
  chord x0 x1 v0 v1 x <= chord x0 x1 v0 v1 y.
Proof.
  intros H0 Hv Hx. unfold chord. apply Rplus_le_compat_l, Rmult_le_compat_r; [lra|].
  apply Rmult_le_compat_r; [left; apply Rinv_0_lt_compat; lra|lra].
Qed.

Lemma interp_mono_query (g v : list R) (x y : R) :
  increasing g -> (1 <= List.length g)%nat -> List.length v = List.length g ->
  nondecreasing v -> x <= y ->
  linear_interp_1d g v x <= linear_interp_1d g v y.
Proof.
  intros Hinc Hn Hv Hnd Hxy. destruct (le_lt_dec (List.length g) 1) as [H1|H1].
  - rewrite !interp_weighted by assumption. rewrite !weight_single by assumption.
    unfold seg. replace (List.length g - 1)%nat with 0%nat by lia. rewrite !Nat.min_0_r. lra.
  - rewrite !interp_seg by (try assumption; lia). unfold grid_chord.
    pose proof (seg_mono g x y Hxy) as Hs. pose proof (seg_bound g x H1). pose proof (seg_bound g y H1).
    assert (Hg : forall k, (S k < List.length g)%nat -> nth k g 0 < nth (S k) g 0)
      by (intros; apply Hinc; lia).
    assert (Hvv : forall k, (S k < List.length g)%nat -> nth k v 0 <= nth (S k) v 0)
      by (intros; apply Hnd; lia).
    destruct (Nat.eq_dec (seg g x) (seg g y)) as [<-|Hne].
    + apply chord_mono; auto.
    + apply Rle_trans with (nth (S (seg g x)) v 0).
      * apply chord_le_right; auto.
        destruct (seg_high g x Hinc H1) as [E|E]; [lia|lra].
      * apply Rle_trans with (nth (seg g y) v 0); [apply Hnd; lia|].
        apply chord_ge_left; auto.
        destruct (seg_low g y Hinc H1) as [E|E]; [lia|lra].
Qed.

Lemma interp_neighbour_range (g v : list R) (k : nat) (x : R) :
  increasing g -> List.length v = List.length g -> (S k < List.length g)%nat ->
  nth k g 0 <= x <= nth (S k) g 0 ->
  Rmin (nth k v 0) (nth (S k) v 0) <= linear_interp_1d g v x <= Rmax (nth k v 0) (nth (S k) v 0).
Proof.
  intros Hinc Hv Hk Hx. rewrite (interp_between g v k) by assumption. unfold grid_chord, chord.
  assert (Hlt : nth k g 0 < nth (S k) g 0) by (apply Hinc; lia).
  set (w := (x - nth k g 0) / (nth (S k) g 0 - nth k g 0)).
  assert (E : w * (nth (S k) g 0 - nth k g 0) = x - nth k g 0) by (unfold w; field; lra).
  assert (0 <= w <= 1) by (split; nra). rmm; nra.
Qed.

(** ** C13 *)
Lemma uniform_grid_length n : List.length (uniform_grid n) = n.
Proof. unfold uniform_grid. rewrite map_length, seq_length. reflexivity. Qed.
Lemma uniform_grid_nth n k : (k < n)%nat -> nth k (uniform_grid n) 0 = INR k / INR (n - 1).
Proof.
  intros H. unfold uniform_grid.
  rewrite nth_indep with (d' := INR 0 / INR (n - 1)) by (rewrite map_length, seq_length; assumption).
  rewrite map_nth with (f := fun k => INR k / INR (n - 1)), seq_nth by assumption. reflexivity.
Qed.
Lemma uniform_increasing n : increasing (uniform_grid n).
Proof.
  intros i j Hij. rewrite uniform_grid_length in Hij. rewrite !uniform_grid_nth by lia.
  apply Rmult_lt_compat_r; [|apply lt_INR; lia].
  apply Rinv_0_lt_compat. change 0 with (INR 0). apply lt_INR. lia.
Qed.

Lemma Int_part_spec u k : IZR k <= u < IZR k + 1 -> Int_part u = k.
Proof.
  intros H. unfold Int_part. assert ((k + 1)%Z = up u).
  { apply tech_up; rewrite plus_IZR; lra. } lia.
Qed.

Lemma interp_uniform_eq (v : list R) (s : R) :
  (2 <= List.length v)%nat -> 0 <= s <= 1 ->
  interp_uniform_grid v s = Ok (linear_interp_1d (uniform_grid (List.length v)) v s).
Proof.
  intros Hn Hs. set (n := List.length v) in *. unfold interp_uniform_grid.
  assert (Hz : zlen v = Z.of_nat n) by reflexivity. rewrite Hz.
  rewrite nclip_R. rn. replace (Rmin (Rmax s 0) 1) with s by (rmm; lra).
  assert (Hm : IZR (Z.of_nat n - 1) = INR (n - 1)).
  { rewrite INR_IZR_INZ. f_equal. lia. }
  rewrite Hm. set (N := INR (n - 1)) in *.
  assert (HN : 1 <= N) by (unfold N; change 1 with (INR 1); apply le_INR; lia).
  set (u := s * N). assert (Hu : 0 <= u <= N) by (unfold u; nra).
  destruct (Req_dec s 1) as [->|Hs1].
  - (* last grid point *)
    assert (Eu : Int_part u = Z.of_nat (n - 1)).
    { apply Int_part_spec. unfold u, N. rewrite INR_IZR_INZ. lra. }
    rewrite Eu. replace (Z.min (Z.of_nat (n - 1) + 1) (Z.of_nat n - 1)) with (Z.of_nat (n - 1)) by lia.
    rewrite (np_get_nth 0) by (rewrite Hz; lia). cbn [bind].
    rewrite Nat2Z.id. f_equal.
    replace 1 with (nth (n - 1) (uniform_grid n) 0).
    2:{ rewrite uniform_grid_nth by lia. fold N. field. lra. }
    rewrite interp_at_grid by (try apply uniform_increasing; rewrite ?uniform_grid_length; lia).
    ring.
  - assert (HuN : u < N) by (unfold u; nra).
    pose proof (base_Int_part u) as [Hb1 Hb2].
    set (lo := Int_part u) in *.
    assert (Hlo0 : (0 <= lo)%Z). { apply Z.lt_succ_r. apply lt_IZR. rewrite succ_IZR. lra. }
    assert (Hlo1 : (lo < Z.of_nat n - 1)%Z). { apply lt_IZR. rewrite Hm. fold N. lra. }
    replace (Z.min (lo + 1) (Z.of_nat n - 1)) with (lo + 1)%Z by lia.
    rewrite !(np_get_nth 0) by (rewrite Hz; lia). cbn [bind]. f_equal.
    set (k := Z.to_nat lo).
    assert (Ek : lo = Z.of_nat k) by (unfold k; lia).
    replace (Z.to_nat (lo + 1)) with (S k) by (unfold k; lia).
    assert (Eklo : IZR lo = INR k) by (rewrite Ek, <- INR_IZR_INZ; reflexivity).
    assert (Hgk : nth k (uniform_grid n) 0 = INR k / N) by (rewrite uniform_grid_nth by (unfold k; lia); reflexivity).
    assert (HgSk : nth (S k) (uniform_grid n) 0 = (INR k + 1) / N)
      by (rewrite uniform_grid_nth by (unfold k; lia); rewrite S_INR; reflexivity).
    assert (Es : s = u / N) by (unfold u; field; lra).
    rewrite (interp_between (uniform_grid n) v k).
    + unfold grid_chord, chord. rewrite Hgk, HgSk, Eklo. rewrite Es at 1. field. lra.
    + apply uniform_increasing.
    + rewrite uniform_grid_length. reflexivity.
    + rewrite uniform_grid_length. unfold k; lia.
    + rewrite Hgk, HgSk, Es. assert (0 < / N) by (apply Rinv_0_lt_compat; lra).
      unfold Rdiv. split; apply Rmult_le_compat_r; lra.
Qed.

(** outside [0,1] the simulator clips *)
Lemma interp_uniform_clip (v : list R) (s : R) :
  interp_uniform_grid v s = interp_uniform_grid v (Rmin (Rmax s 0) 1).
Proof.
  unfold interp_uniform_grid. rewrite !nclip_R. rn.
  replace (Rmin (Rmax (Rmin (Rmax s 0) 1) 0) 1) with (Rmin (Rmax s 0) 1) by (rmm; lra). reflexivity.
Qed.

(** single grid point *)
Lemma interp_uniform_single (v0 s : R) : interp_uniform_grid [v0] s = Ok v0.
Proof.
  unfold interp_uniform_grid. rn. change (zlen [v0] - 1)%Z with 0%Z.
  rewrite Rmult_0_r. rewrite (Int_part_spec 0 0) by lra. cbn. f_equal. lra.
Qed.

Lemma interp_both_single (v0 g0 s : R) :
  interp_uniform_grid [v0] s = Ok v0 /\ linear_interp_1d [g0] [v0] s = v0.
Proof. split; [apply interp_uniform_single | apply interp_single]. Qed.

Lemma interp_below (g v : list R) (x : R) :
  increasing g -> (2 <= List.length g)%nat -> List.length v = List.length g -> x < nth 0 g 0 ->
  linear_interp_1d g v x = grid_chord g v 0 x.
Proof.
  intros Hinc Hn Hv Hx. rewrite interp_seg by (try assumption; lia).
  destruct (seg_low g x Hinc Hn) as [E|E]; [rewrite E; reflexivity|exfalso].
  destruct (Nat.eq_dec (seg g x) 0) as [E0|E0]; [rewrite E0 in E; lra|].
  assert (nth 0 g 0 < nth (seg g x) g 0) by (apply Hinc; pose proof (seg_bound g x Hn); lia). lra.
Qed.

Lemma interp_above (g v : list R) (x : R) :
  increasing g -> (2 <= List.length g)%nat -> List.length v = List.length g ->
  nth (List.length g - 1) g 0 < x ->
  linear_interp_1d g v x = grid_chord g v (List.length g - 2) x.
Proof.
  intros Hinc Hn Hv Hx. rewrite interp_seg by (try assumption; lia).
  destruct (seg_high g x Hinc Hn) as [E|E]; [rewrite E; reflexivity|exfalso].
  pose proof (seg_bound g x Hn).
  assert (nth (S (seg g x)) g 0 <= nth (List.length g - 1) g 0).
  { destruct (Nat.eq_dec (S (seg g x)) (List.length g - 1)) as [->|]; [lra|]. left. apply Hinc. lia. }
  lra.
Qed.

Lemma uniform_ends n : (2 <= n)%nat ->
  nth 0 (uniform_grid n) 0 = 0 /\ nth (n - 1) (uniform_grid n) 0 = 1.
Proof.
  intros H. rewrite !uniform_grid_nth by lia. simpl (INR 0).
  assert (INR (n - 1) <> 0) by (apply not_0_INR; lia). split; field; assumption.
Qed.

Lemma interp_uniform_outside (v : list R) (s : R) : (2 <= List.length v)%nat ->
  (1 <= s -> interp_uniform_grid v s = Ok (nth (List.length v - 1) v 0)) /\
  (s <= 0 -> interp_uniform_grid v s = Ok (nth 0 v 0)).
Proof.
  intros Hn. destruct (uniform_ends _ Hn) as [E0 E1].
  split; intros Hs; rewrite interp_uniform_clip.
  - replace (Rmin (Rmax s 0) 1) with 1 by (rmm; lra).
    rewrite interp_uniform_eq by (try assumption; lra). f_equal. replace 1 with (nth (List.length v - 1) (uniform_grid (List.length v)) 0) by assumption.
    apply interp_at_grid; rewrite ?uniform_grid_length; try lia. apply uniform_increasing.
  - replace (Rmin (Rmax s 0) 1) with 0 by (rmm; lra).
    rewrite interp_uniform_eq by (try assumption; lra). f_equal. transitivity (linear_interp_1d (uniform_grid (List.length v)) v (nth 0 (uniform_grid (List.length v)) 0)); [rewrite E0; reflexivity|].
    apply interp_at_grid; rewrite ?uniform_grid_length; try lia. apply uniform_increasing.
Qed.

Lemma interp_uniform_instance : interp_uniform_grid [1; 2; 4] (3/4) = Ok 3.
Proof.
  rewrite interp_uniform_eq by (simpl; try lia; lra). f_equal.
  rewrite (interp_between _ _ 1); try apply uniform_increasing; simpl; try lia; try lra.
  unfold grid_chord, chord. simpl. lra.
Qed.

Lemma interp_nonuniform_differs :
  ~ (forall (g v : list R) (s : R),
      increasing g -> List.length v = List.length g -> (2 <= List.length g)%nat ->
      nth 0 g 0 = 0 -> nth (List.length g - 1) g 0 = 1 -> 0 <= s <= 1 ->
      interp_uniform_grid v s = Ok (linear_interp_1d g v s)).
Proof.
  intros H.
  assert (Hg : increasing [0; 1/4; 1]).
  { intros i j [H1 H2]. simpl in H2.
    destruct i as [|[|[|?]]]; destruct j as [|[|[|?]]]; simpl; try lia; lra. }
  specialize (H [0; 1/4; 1] [1; 2; 4] (3/4) Hg eq_refl ltac:(simpl; lia) eq_refl eq_refl ltac:(lra)).
  rewrite interp_uniform_instance in H.
  rewrite (interp_between _ _ 1) in H; try assumption; simpl; try lia; try lra.
  apply (f_equal (fun r => match r with Ok x => x | Err _ => 0 end)) in H. cbv beta iota in H.
  unfold grid_chord, chord in H. simpl in H. lra.
Qed.
