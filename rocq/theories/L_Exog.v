(** Lemmas about the exogenous inputs. *)
From Coq Require Import Reals Lra Lia ZArith List.
From Verif Require Import Base Num M_Params M_Exog S_Exog L_Num L_Trace.
Import ListNotations.
Open Scope R_scope.

Lemma total_Rsum l : total l = Rsum l.
Proof. induction l as [|x l IH]; [reflexivity|]. unfold total in *. cbn [fold_right Rsum]. rewrite IH. reflexivity. Qed.

Lemma range_nth n k : nth_error (range n) k = if (Z.of_nat k <? n)%Z then Some (Z.of_nat k) else None.
Proof.
  unfold range, range2. rewrite Z.sub_0_r.
  destruct (Z.of_nat k <? n)%Z eqn:E; [apply Z.ltb_lt in E|apply Z.ltb_ge in E].
  - rewrite (map_nth_error _ k (seq 0 (Z.to_nat n)) (d := k)).
    + f_equal.
    + rewrite (nth_error_nth' _ 0%nat) by (rewrite seq_length; lia). rewrite seq_nth by lia. reflexivity.
  - apply nth_error_None. rewrite map_length, seq_length. lia.
Qed.

Lemma range_length n : List.length (range n) = Z.to_nat n.
Proof. unfold range, range2. rewrite map_length, seq_length, Z.sub_0_r. reflexivity. Qed.

(** *** reshape *)
Lemma chunks_concat {A} (n : nat) (blocks : list (list A)) :
  (forall b, In b blocks -> List.length b = n) -> chunks (List.length blocks) n (List.concat blocks) = blocks.
Proof.
  induction blocks as [|b bs IH]; intros H; [reflexivity|]. cbn [List.length chunks List.concat].
  assert (Hb : List.length b = n) by (apply H; left; reflexivity).
  rewrite firstn_app, <- Hb, Nat.sub_diag, firstn_all. cbn [firstn]. rewrite app_nil_r.
  rewrite skipn_app, Nat.sub_diag, skipn_all. cbn [skipn app]. rewrite Hb. f_equal. apply IH. intros. apply H. right. assumption.
Qed.

Lemma concat_length_const {A} (n : nat) (blocks : list (list A)) :
  (forall b, In b blocks -> List.length b = n) -> List.length (List.concat blocks) = (List.length blocks * n)%nat.
Proof.
  induction blocks as [|b bs IH]; intros H; [reflexivity|]. cbn [List.concat List.length]. rewrite app_length, IH.
  - rewrite (H b) by (left; reflexivity). lia.
  - intros. apply H. right. assumption.
Qed.

Lemma reshape2_blocks {T} {NT : Num T} a b (blocks : list (list T)) : (0 <= b)%Z -> zlen blocks = a ->
  (forall r, In r blocks -> zlen r = b) -> reshape2 a b (List.concat blocks) = Ok blocks.
Proof.
  intros Hb Ha Hr. unfold reshape2.
  assert (Hr' : forall r, In r blocks -> List.length r = Z.to_nat b) by (intros r Hi; specialize (Hr r Hi); unfold zlen in Hr; lia).
  unfold zlen in *. rewrite (concat_length_const (Z.to_nat b)) by assumption.
  replace (Z.of_nat (List.length blocks * Z.to_nat b)) with (a * b)%Z by lia. rewrite Z.eqb_refl.
  f_equal. subst a. rewrite Nat2Z.id. apply chunks_concat. assumption.
Qed.

Lemma chunks_length {A} k n (l : list A) : List.length (chunks k n l) = k.
Proof. revert l; induction k as [|k IH]; intros l; [reflexivity|]. cbn [chunks List.length]. rewrite IH. reflexivity. Qed.

Lemma chunks_rows {A} k n (l : list A) : List.length l = (k * n)%nat -> forall r, In r (chunks k n l) -> List.length r = n.
Proof.
  revert l; induction k as [|k IH]; intros l Hl r Hr; [destruct Hr|]. cbn [chunks] in Hr. destruct Hr as [<-|Hr].
  - rewrite firstn_length. nia.
  - apply (IH (skipn n l)); [rewrite skipn_length; nia|exact Hr].
Qed.

Lemma reshape2_shape {T} {NT : Num T} a b (l : list T) m : (0 <= a)%Z -> (0 <= b)%Z -> reshape2 a b l = Ok m ->
  zlen m = a /\ (forall r, In r m -> zlen r = b).
Proof.
  intros Ha Hb H. unfold reshape2 in H. destruct (zlen l =? a * b)%Z eqn:E; [|discriminate]. apply Z.eqb_eq in E.
  injection H as <-. unfold zlen in *. rewrite chunks_length. split; [lia|]. intros r Hr.
  rewrite (chunks_rows (Z.to_nat a) (Z.to_nat b) l) by (try assumption; nia). lia.
Qed.

(** *** files sorted by period: taking the first P periods *)
Lemma filter_blocks {A} (f : Z * A -> bool) (P : Z) (blocks : list (list (Z * A))) k :
  (forall t b, nth_error blocks t = Some b -> forall r, In r b -> f r = (Z.of_nat (k + t) <? P)%Z) ->
  filter f (List.concat blocks) = List.concat (firstn (Z.to_nat P - k) blocks).
Proof.
  revert k; induction blocks as [|b bs IH]; intros k H; [rewrite firstn_nil; reflexivity|].
  cbn [List.concat]. rewrite filter_app. assert (IH' := IH (S k)). rewrite IH'.
  2:{ intros t b' Ht r Hr. rewrite (H (S t) b' Ht r Hr). f_equal. lia. }
  assert (Hb : forall r, In r b -> f r = (Z.of_nat k <? P)%Z) by (intros r Hr; rewrite (H 0%nat b eq_refl r Hr); f_equal; lia).
  destruct (Z.of_nat k <? P)%Z eqn:E; [apply Z.ltb_lt in E|apply Z.ltb_ge in E].
  - replace (Z.to_nat P - k)%nat with (S (Z.to_nat P - S k)) by lia. cbn [firstn List.concat]. f_equal.
    clear - Hb. induction b as [|r b IH]; [reflexivity|]. cbn [filter]. rewrite (Hb r) by (left; reflexivity).
    f_equal. apply IH. intros. apply Hb. right. assumption.
  - replace (Z.to_nat P - k)%nat with 0%nat by lia. replace (Z.to_nat P - S k)%nat with 0%nat by lia. cbn [firstn List.concat].
    rewrite app_nil_r. clear - Hb. induction b as [|r b IH]; [reflexivity|]. cbn [filter]. rewrite (Hb r) by (left; reflexivity).
    apply IH. intros. apply Hb. right. assumption.
Qed.

Lemma flat_map_blocks {A B} (g : A -> list B) (blocks : list (list A)) :
  flat_map g (List.concat blocks) = List.concat (map (flat_map g) blocks).
Proof. induction blocks as [|b bs IH]; [reflexivity|]. cbn [List.concat map]. rewrite flat_map_app, IH. reflexivity. Qed.

Lemma flat_map_concat_map {A B} (g : A -> list B) l : flat_map g l = List.concat (map g l).
Proof. induction l as [|x l IH]; [reflexivity|]. cbn. rewrite IH. reflexivity. Qed.

(** *** birth probabilities *)
Lemma child_vector_any (sp : model_spec R) p n df last :
  (0 <= num_periods sp <= n)%Z ->
  ((-1 <= last_child_bearing_period sp)%Z /\ last = last_child_bearing_period sp \/
   (last_child_bearing_period sp < -1)%Z /\ last = (num_periods sp + last_child_bearing_period sp)%Z) -> lists_periods p 3 n df ->
  gen_prob_child_vector sp df
  = Ok (map (fun t => map (fun e => if (t <=? last)%Z then p t e else 0) (range 3)) (range (num_periods sp))).
Proof.
  intros HP HL (blocks & -> & Hn & Hb). unfold gen_prob_child_vector.
  rewrite (filter_blocks _ (num_periods sp) blocks 0).
  2:{ intros t b Ht r Hr. destruct (Hb t b Ht) as [H _]. rewrite (H r Hr). reflexivity. }
  rewrite flat_map_blocks, Nat.sub_0_r.
  set (vals := map (flat_map snd) (firstn (Z.to_nat (num_periods sp)) blocks)).
  assert (Hlen : zlen vals = num_periods sp).
  { unfold vals, zlen in *. rewrite map_length, firstn_length. lia. }
  assert (Hv : forall t, (Z.of_nat t < num_periods sp)%Z -> nth_error vals t = Some (map (p (Z.of_nat t)) (range 3))).
  { intros t Ht. unfold vals. assert (Hx : exists b, nth_error blocks t = Some b).
    { destruct (nth_error blocks t) eqn:E; [eexists; reflexivity|]. apply nth_error_None in E. unfold zlen in Hn. lia. }
    destruct Hx as [b Hx]. erewrite map_nth_error.
    2:{ rewrite L_Trace.nth_error_firstn by lia. exact Hx. }
    destruct (Hb t b Hx) as [_ H]. rewrite flat_map_concat_map, H. reflexivity. }
  rewrite reshape2_blocks; [|lia|exact Hlen|].
  2:{ intros r Hr. apply In_nth_error in Hr. destruct Hr as [t Ht].
      assert (Htl : (Z.of_nat t < num_periods sp)%Z).
      { rewrite <- Hlen. unfold zlen. apply Nat2Z.inj_lt. apply nth_error_Some. congruence. }
      rewrite Hv in Ht by assumption. injection Ht as <-. reflexivity. }
  cbn [bind]. f_equal. apply map_ext_in. intros t Ht. apply in_map_iff in Ht. destruct Ht as (k & <- & Hk).
  apply in_seq in Hk. assert (Hslice : (0 + Z.of_nat k <? slice_to (num_periods sp) (Z.min (last_child_bearing_period sp + 1) (num_periods sp)))%Z
                                = (0 + Z.of_nat k <=? last)%Z).
  { apply Bool.eq_iff_eq_true. rewrite Z.ltb_lt, Z.leb_le. unfold slice_to. destruct (_ <? 0)%Z eqn:E; [apply Z.ltb_lt in E|apply Z.ltb_ge in E]; lia. }
  rewrite Hslice. destruct (0 + Z.of_nat k <=? last)%Z.
  - replace (Z.to_nat (0 + Z.of_nat k)) with k by lia. rewrite (nth_error_nth _ _ [] (Hv k ltac:(lia))).
    rewrite map_map. apply map_ext. intros e. rn. rewrite Rplus_0_l. f_equal; lia.
  - reflexivity.
Qed.
Lemma child_vector (sp : model_spec R) p n df :
  (0 <= num_periods sp <= n)%Z -> (-1 <= last_child_bearing_period sp)%Z -> lists_periods p 3 n df ->
  gen_prob_child_vector sp df
  = Ok (map (fun t => map (fun e => if (t <=? last_child_bearing_period sp)%Z then p t e else 0) (range 3))
            (range (num_periods sp))).
Proof. intros HP HL H. apply (child_vector_any sp p n); [exact HP|left; split; [exact HL|reflexivity]|exact H]. Qed.

(** *** partner transitions *)
Lemma map2_map {A B C D} (f : B -> C -> D) (g : A -> B) (h : A -> C) l : map2 f (map g l) (map h l) = map (fun x => f (g x) (h x)) l.
Proof. induction l as [|x l IH]; [reflexivity|]. cbn. rewrite IH. reflexivity. Qed.

Lemma filter_period {A} (f : Z -> list A) t l : NoDup l -> In t l ->
  filter (fun r => fst r =? t)%Z (List.concat (map (fun u => map (fun x => (u, x)) (f u)) l)) = map (fun x => (t, x)) (f t).
Proof.
  assert (Hb : forall u m, filter (fun r => fst r =? t)%Z (map (fun x => (u, x)) m) = if (u =? t)%Z then map (fun x : A => (u, x)) m else []).
  { intros u m. induction m as [|x m IH]; cbn [map filter]; [destruct (u =? t)%Z; reflexivity|]. cbn [fst]. rewrite IH. destruct (u =? t)%Z; reflexivity. }
  assert (Hn : forall l, ~ In t l -> filter (fun r => fst r =? t)%Z (List.concat (map (fun u => map (fun x => (u, x)) (f u)) l)) = []).
  { induction l0 as [|u l0 IH]; intros H; [reflexivity|]. cbn [map List.concat]. rewrite filter_app, Hb, IH by (intros Q; apply H; right; exact Q).
    destruct (Z.eqb_spec u t) as [->|]; [exfalso; apply H; left; reflexivity|reflexivity]. }
  induction l as [|u l IH]; intros Hd Hin; [destruct Hin|]. inversion Hd as [|? ? N1 N2]; subst. cbn [map List.concat]. rewrite filter_app, Hb.
  destruct Hin as [->|Hin].
  - rewrite Z.eqb_refl, Hn by exact N1. apply app_nil_r.
  - destruct (Z.eqb_spec u t) as [->|]; [contradiction|]. apply IH; assumption.
Qed.

Lemma range_NoDup n : NoDup (range n).
Proof.
  unfold range, range2. apply FinFun.Injective_map_NoDup; [|apply seq_NoDup]. intros a b H. lia.
Qed.

Lemma partner_values (sp : model_spec R) p n df :
  (0 <= num_periods sp <= n)%Z -> (0 <= num_educ_levels sp)%Z -> lists_values p (num_educ_levels sp) n df ->
  reshape2 (num_periods sp) (num_educ_levels sp)
    (flat_map (fun t => map snd (filter (fun r => fst r =? t)%Z df)) (range (num_periods sp)))
  = Ok (map (fun t => map (p t) (range (num_educ_levels sp))) (range (num_periods sp))).
Proof.
  intros HP HE ->.
  assert (E : flat_map (fun t => map snd (filter (fun r => fst r =? t)%Z
        (List.concat (map (fun t => map (fun e => (t, p t e)) (range (num_educ_levels sp))) (range n))))) (range (num_periods sp))
      = List.concat (map (fun t => map (p t) (range (num_educ_levels sp))) (range (num_periods sp)))).
  { rewrite flat_map_concat_map. f_equal. apply map_ext_in. intros t Ht. apply in_map_iff in Ht. destruct Ht as (k & <- & Hk). apply in_seq in Hk.
    rewrite (map_ext (fun t => map (fun e => (t, p t e)) (range (num_educ_levels sp)))
               (fun u => map (fun x => (u, x)) (map (p u) (range (num_educ_levels sp))))) by (intros u; rewrite map_map; reflexivity).
    rewrite (filter_period (fun u => map (p u) (range (num_educ_levels sp)))).
    - rewrite !map_map. reflexivity.
    - apply range_NoDup.
    - unfold range, range2. apply in_map_iff. exists k. split; [reflexivity|]. apply in_seq. lia. }
  rewrite E. apply reshape2_blocks; [lia| |].
  - unfold zlen. rewrite map_length, range_length. lia.
  - intros r Hr. apply in_map_iff in Hr. destruct Hr as (t & <- & _). unfold zlen. rewrite map_length, range_length. lia.
Qed.

Lemma partner_table (sp : model_spec R) a s na ns fa fs :
  (0 <= num_periods sp <= na)%Z -> (num_periods sp <= ns)%Z -> (0 <= num_educ_levels sp)%Z ->
  lists_values a (num_educ_levels sp) na fa -> lists_values s (num_educ_levels sp) ns fs ->
  gen_prob_partner sp fa fs
  = Ok (map (fun t => map (fun e => [(1 - a t e, a t e); (s t e, 1 - s t e)]) (range (num_educ_levels sp)))
            (range (num_periods sp))).
Proof.
  intros Ha Hs HE Fa Fs. unfold gen_prob_partner.
  rewrite (partner_values sp a na fa) by assumption. cbn [bind].
  rewrite (partner_values sp s ns fs) by (try assumption; lia). cbn [bind].
  rewrite map2_map. f_equal. apply map_ext. intros t. rewrite map2_map. reflexivity.
Qed.

Lemma partner_rows (sp : model_spec R) fa fs tab : gen_prob_partner sp fa fs = Ok tab ->
  forall r, In r tab -> forall q, In q r -> zlen q = 2%Z /\ forall pr, In pr q -> fst pr + snd pr = 1.
Proof.
  unfold gen_prob_partner. destruct (reshape2 _ _ _) as [A|]; [|discriminate]. cbn [bind].
  destruct (reshape2 _ _ _) as [S|]; [|discriminate]. cbn [bind]. intros H. injection H as <-.
  revert S; induction A as [|x A IH]; intros [|y S] r Hr; try destruct Hr.
  - subst r. clear IH. revert y; induction x as [|u x IHx]; intros [|v y] q Hq; try destruct Hq.
    + subst q. split; [reflexivity|]. intros pr [<-|[<-|[]]]; cbn [fst snd]; rn; ring.
    + eapply IHx; eassumption.
  - eapply IH; eassumption.
Qed.

(** *** shares *)
Lemma fix_first_sum (l l' : list R) : fix_first l = Ok l' -> total l' = 1 /\ tl l' = tl l /\ List.length l' = List.length l.
Proof.
  destruct l as [|x l]; [discriminate|]. intros H. injection H as <-. rewrite total_Rsum. cbn [Rsum tl List.length].
  rewrite nsum_R. rn. split; [ring|]. split; reflexivity.
Qed.

Lemma mapM_ok_forall {A B} (f : A -> result B) l : (forall x, In x l -> exists y, f x = Ok y) -> exists ys, mapM f l = Ok ys.
Proof.
  induction l as [|x l IH]; intros H; [eexists; reflexivity|]. cbn [mapM]. destruct (H x) as [y ->]; [left; reflexivity|]. cbn [bind].
  destruct IH as [ys ->]; [intros; apply H; right; assumption|]. eexists. reflexivity.
Qed.

Lemma mapM_nth_ok {A B} (f : A -> result B) l ys k x : mapM f l = Ok ys -> nth_error l k = Some x ->
  exists y, nth_error ys k = Some y /\ f x = Ok y.
Proof.
  revert ys k; induction l as [|u l IH]; intros ys k H Hk; [destruct k; discriminate|]. cbn [mapM] in H.
  destruct (f u) as [y|] eqn:E; [|discriminate]. cbn [bind] in H. destruct (mapM f l) as [ys'|] eqn:E2; [|discriminate].
  cbn [bind] in H. injection H as <-. destruct k as [|k].
  - cbn in Hk. injection Hk as <-. exists y. split; [reflexivity|exact E].
  - apply (IH ys' k eq_refl Hk).
Qed.

Lemma mapM_len {A B} (f : A -> result B) l ys : mapM f l = Ok ys -> List.length ys = List.length l.
Proof.
  revert ys; induction l as [|u l IH]; intros ys H; cbn [mapM] in H; [injection H as <-; reflexivity|].
  destruct (f u); [|discriminate]. cbn [bind] in H. destruct (mapM f l) as [ys'|]; [|discriminate]. cbn [bind] in H.
  injection H as <-. cbn [List.length]. rewrite (IH ys'); reflexivity.
Qed.

Lemma shares_spec n (file : list (Z * R)) tab : (0 <= n)%Z -> shares_by_educ n file = Ok tab ->
  zlen tab = n /\ forall e, (0 <= e < n)%Z -> exists row, nth_error tab (Z.to_nat e) = Some row /\
    total row = 1 /\ tl row = tl (of_level e file) /\ List.length row = List.length (of_level e file).
Proof.
  intros Hn H. unfold shares_by_educ in H. split.
  - apply mapM_len in H. unfold zlen. rewrite H, range_length. lia.
  - intros e He. destruct (mapM_nth_ok _ _ _ (Z.to_nat e) e H) as (row & Hr & Hf).
    { rewrite range_nth. rewrite Z2Nat.id by lia. destruct (e <? n)%Z eqn:E; [reflexivity|apply Z.ltb_ge in E; lia]. }
    exists row. split; [exact Hr|]. apply fix_first_sum. exact Hf.
Qed.

Lemma shares_total n (file : list (Z * R)) : (forall e, (0 <= e < n)%Z -> of_level e file <> []) ->
  exists tab, shares_by_educ n file = Ok tab.
Proof.
  intros H. apply mapM_ok_forall. intros e He. apply in_map_iff in He. destruct He as (k & <- & Hk). apply in_seq in Hk.
  specialize (H (0 + Z.of_nat k)%Z ltac:(lia)). unfold of_level in H.
  destruct (map snd _) as [|x l]; [contradiction|]. eexists. reflexivity.
Qed.

Lemma total_nonneg l : (forall x, In x l -> 0 <= x) -> 0 <= total l.
Proof.
  induction l as [|x l IH]; intros H; [apply Rle_refl|]. unfold total in *. cbn [fold_right].
  pose proof (H x (or_introl eq_refl)). specialize (IH (fun y Hy => H y (or_intror Hy))). lra.
Qed.

Lemma share_nonneg row l : total row = 1 -> tl row = tl l -> List.length row = List.length l ->
  (forall x, In x (tl l) -> 0 <= x) -> total (tl l) <= 1 -> forall x, In x row -> 0 <= x.
Proof.
  intros H1 H2 H3 H4 H5 x Hx. destruct row as [|y row]; [destruct Hx|]. cbn [tl] in H2. destruct Hx as [<-|Hx].
  - unfold total in *. cbn [fold_right] in H1. rewrite H2 in H1. lra.
  - apply H4. rewrite <- H2. exact Hx.
Qed.

(** *** convolution *)
Lemma Rsum_ext_in {A} (f g : A -> R) l : (forall x, In x l -> f x = g x) -> Rsum (map f l) = Rsum (map g l).
Proof. intros H. f_equal. apply map_ext_in. exact H. Qed.

Lemma Rsum_zero {A} (f : A -> R) l : (forall x, In x l -> f x = 0) -> Rsum (map f l) = 0.
Proof.
  induction l as [|x l IH]; intros H; [reflexivity|]. cbn [map Rsum]. rewrite (H x (or_introl eq_refl)), IH; [ring|].
  intros; apply H; right; assumption.
Qed.

Lemma Rsum_single f n k : (k < n)%nat -> Rsum (map (fun j => if Nat.eqb j k then f j else 0) (seq 0 n)) = f k.
Proof.
  intros Hk. replace n with (k + S (n - S k))%nat by lia. rewrite seq_app, map_app, Rsum_app. cbn [seq map Rsum Nat.add].
  rewrite Nat.eqb_refl. rewrite !Rsum_zero; [ring| |].
  - intros x Hx. apply in_seq in Hx. replace (Nat.eqb x k) with false by (symmetry; apply Nat.eqb_neq; lia). reflexivity.
  - intros x Hx. apply in_seq in Hx. replace (Nat.eqb x k) with false by (symmetry; apply Nat.eqb_neq; lia). reflexivity.
Qed.

Lemma law_inner (b : list R) i k c :
  Rsum (map (fun j => if Nat.eqb (i + j) k then c * nth j b 0 else 0) (seq 0 (List.length b)))
  = c * (if Nat.leb i k then nth (k - i) b 0 else 0).
Proof.
  destruct (Nat.leb i k) eqn:E; [apply Nat.leb_le in E|apply Nat.leb_gt in E].
  - rewrite (Rsum_ext_in _ (fun j => if Nat.eqb j (k - i) then c * nth j b 0 else 0)).
    2:{ intros j _. destruct (Nat.eqb (i + j) k) eqn:E1; [apply Nat.eqb_eq in E1|apply Nat.eqb_neq in E1].
        - replace (Nat.eqb j (k - i)) with true by (symmetry; apply Nat.eqb_eq; lia). reflexivity.
        - replace (Nat.eqb j (k - i)) with false by (symmetry; apply Nat.eqb_neq; lia). reflexivity. }
    destruct (Nat.lt_ge_cases (k - i) (List.length b)) as [Hl|Hl].
    + rewrite (Rsum_single (fun j => c * nth j b 0)) by assumption. reflexivity.
    + rewrite nth_overflow by assumption. rewrite Rmult_0_r. apply Rsum_zero. intros j Hj. apply in_seq in Hj.
      replace (Nat.eqb j (k - i)) with false by (symmetry; apply Nat.eqb_neq; lia). reflexivity.
  - rewrite Rmult_0_r. apply Rsum_zero. intros j _. replace (Nat.eqb (i + j) k) with false by (symmetry; apply Nat.eqb_neq; lia). reflexivity.
Qed.

Lemma convolve_law (a b : list R) : convolve a b = map (law_of_sum a b) (seq 0 (List.length a + List.length b - 1)).
Proof.
  unfold convolve. apply map_ext. intros k. rewrite nsum_R. unfold law_of_sum. change total with Rsum. apply Rsum_ext_in. intros i _.
  rewrite law_inner. rn. reflexivity.
Qed.

Lemma law_nonneg a b k : (forall x, In x a -> 0 <= x) -> (forall x, In x b -> 0 <= x) -> 0 <= law_of_sum a b k.
Proof.
  intros Ha Hb. unfold law_of_sum. apply total_nonneg. intros x Hx. apply in_map_iff in Hx. destruct Hx as (i & <- & Hi).
  apply in_seq in Hi. apply total_nonneg. intros x Hx. apply in_map_iff in Hx. destruct Hx as (j & <- & Hj). apply in_seq in Hj.
  destruct (Nat.eqb _ _); [|apply Rle_refl]. apply Rmult_le_pos; [apply Ha|apply Hb]; apply nth_In; lia.
Qed.

Lemma Rsum_swap {A B} (f : A -> B -> R) l m :
  Rsum (map (fun x => Rsum (map (f x) m)) l) = Rsum (map (fun y => Rsum (map (fun x => f x y) l)) m).
Proof.
  induction l as [|x l IH]; cbn [map Rsum].
  - symmetry. apply Rsum_zero. reflexivity.
  - rewrite IH. rewrite <- Rsum_map_plus. reflexivity.
Qed.

Lemma Rsum_nth (l : list R) : Rsum (map (fun i => nth i l 0) (seq 0 (List.length l))) = Rsum l.
Proof.
  induction l as [|x l IH]; [reflexivity|]. cbn [List.length seq map Rsum nth]. f_equal. rewrite <- seq_shift, map_map. exact IH.
Qed.

Lemma law_total a b : (0 < List.length a)%nat -> (0 < List.length b)%nat ->
  Rsum (map (law_of_sum a b) (seq 0 (List.length a + List.length b - 1))) = Rsum a * Rsum b.
Proof.
  intros Ha Hb. rewrite (Rsum_ext_in _ (fun k => Rsum (map (fun i => Rsum (map (fun j => if Nat.eqb (i + j) k then nth i a 0 * nth j b 0 else 0)
                                  (seq 0 (List.length b)))) (seq 0 (List.length a))))).
  2:{ intros k _. reflexivity. }
  rewrite Rsum_swap. rewrite (Rsum_ext_in _ (fun i => nth i a 0 * Rsum b)).
  - rewrite Rsum_map_mult, Rsum_nth. reflexivity.
  - intros i Hi. apply in_seq in Hi. rewrite Rsum_swap.
    rewrite (Rsum_ext_in _ (fun j => nth j b 0 * nth i a 0)).
    + rewrite Rsum_map_mult, Rsum_nth. ring.
    + intros j Hj. apply in_seq in Hj.
      rewrite (Rsum_ext_in _ (fun k => if Nat.eqb k (i + j) then nth i a 0 * nth j b 0 else 0)).
      2:{ intros k _. rewrite Nat.eqb_sym. reflexivity. }
      rewrite (Rsum_single (fun _ => nth i a 0 * nth j b 0)) by lia. ring.
Qed.

Lemma exp_years_spec (sp : model_spec R) fft fpt tab : (0 <= num_educ_levels sp)%Z -> (0 <= init_exp_max sp)%Z ->
  gen_prob_init_exp_years_vector sp fft fpt = Ok tab ->
  exists ft pt, shares_by_educ (num_educ_levels sp) fft = Ok ft /\ shares_by_educ (num_educ_levels sp) fpt = Ok pt /\
    zlen tab = num_educ_levels sp /\
    forall e, (0 <= e < num_educ_levels sp)%Z -> exists a b row,
      nth_error ft (Z.to_nat e) = Some a /\ nth_error pt (Z.to_nat e) = Some b /\ nth_error tab (Z.to_nat e) = Some row /\
      let n := Nat.min (List.length a + List.length b - 1) (Z.to_nat (2 * init_exp_max sp + 1)) in
      row = map (fun k => law_of_sum a b k / Rsum (map (law_of_sum a b) (seq 0 n))) (seq 0 n).
Proof.
  intros HE HI H. unfold gen_prob_init_exp_years_vector, gen_prob_init_exp_component_vector in H.
  destruct (shares_by_educ _ fft) as [ft|] eqn:E1; [|discriminate]. cbn [bind] in H.
  destruct (shares_by_educ _ fpt) as [pt|] eqn:E2; [|discriminate]. cbn [bind] in H.
  exists ft, pt. split; [reflexivity|]. split; [reflexivity|]. split.
  - apply mapM_len in H. unfold zlen. rewrite H, range_length. lia.
  - intros e He. destruct (mapM_nth_ok _ _ _ (Z.to_nat e) e H) as (row & Hr & Hf).
    { rewrite range_nth. rewrite Z2Nat.id by lia. destruct (e <? _)%Z eqn:E; [reflexivity|apply Z.ltb_ge in E; lia]. }
    destruct (np_get ft e) as [a|] eqn:Ea; [|discriminate]. cbn [bind] in Hf.
    destruct (np_get pt e) as [b|] eqn:Eb; [|discriminate]. cbn [bind] in Hf.
    match type of Hf with Ok ?x = Ok ?y => assert (Hf' : x = y) by congruence end. clear Hf. rename Hf' into Hf.
    exists a, b, row.
    assert (Hget : forall {A} (l : list A) x, np_get l e = Ok x -> nth_error l (Z.to_nat e) = Some x).
    { intros A l x Hx. unfold np_get, np_norm in Hx. destruct ((0 <=? e) && (e <? zlen l))%Z eqn:Eq.
      - destruct (nth_error l (Z.to_nat e)); [injection Hx as ->; reflexivity|discriminate].
      - replace ((- zlen l <=? e) && (e <? 0))%Z with false in Hx; [discriminate|].
        symmetry. apply andb_false_iff. right. apply Z.ltb_ge. lia. }
    split; [apply Hget; exact Ea|]. split; [apply Hget; exact Eb|]. split; [exact Hr|]. cbv zeta.
    rewrite <- Hf. rewrite nsum_R. rewrite convolve_law.
    assert (Hn : Z.to_nat (slice_to (zlen (map (law_of_sum a b) (seq 0 (List.length a + List.length b - 1)))) (2 * init_exp_max sp + 1))
                 = Nat.min (List.length a + List.length b - 1) (Z.to_nat (2 * init_exp_max sp + 1))).
    { unfold slice_to, zlen. rewrite map_length, seq_length. replace (_ <? 0)%Z with false by (symmetry; apply Z.ltb_ge; lia). lia. }
    rewrite Hn. set (N := (List.length a + List.length b - 1)%nat). set (m := Z.to_nat (2 * init_exp_max sp + 1)).
    assert (Hfs : firstn (Nat.min N m) (map (law_of_sum a b) (seq 0 N)) = map (law_of_sum a b) (seq 0 (Nat.min N m))).
    { rewrite firstn_map. f_equal. replace N with (Nat.min N m + (N - Nat.min N m))%nat at 2 by lia.
      rewrite seq_app, firstn_app, seq_length, Nat.sub_diag. cbn [firstn]. rewrite app_nil_r.
      apply firstn_all2. rewrite seq_length. lia. }
    rewrite Hfs. rewrite map_map. rn. reflexivity.
Qed.

Lemma Rsum_scaled {A} (f : A -> R) c l : Rsum (map (fun x => f x / c) l) = Rsum (map f l) / c.
Proof. unfold Rdiv. apply Rsum_map_mult. Qed.
