(** Convergence along a filter, and arithmetic of finite precision along it (used for C84). *)
From Coq Require Import Reals Lra Lia ZArith List FunctionalExtensionality.
From Verif Require Import Base Num M_Params M_Experience L_Num S_Precise.
Import ListNotations.
Open Scope R_scope.

Section Conv.
  Context {I : Type}.

  Record filter (F : (I -> Prop) -> Prop) : Prop := {
    f_all : forall P : I -> Prop, (forall i, P i) -> F P;
    f_imp : forall P Q : I -> Prop, (forall i, P i -> Q i) -> F P -> F Q;
    f_and : forall P Q : I -> Prop, F P -> F Q -> F (fun i => P i /\ Q i) }.

  Definition conv (F : (I -> Prop) -> Prop) (x : I -> R) (l : R) : Prop :=
    forall eps, 0 < eps -> F (fun i => Rabs (x i - l) < eps).

  (** the filter on a subset of the indices *)
  Definition on (F : (I -> Prop) -> Prop) (S : I -> Prop) : (I -> Prop) -> Prop :=
    fun P => F (fun i => S i -> P i).

  Section Filter.
    Variable F : (I -> Prop) -> Prop.
    Hypothesis HF : filter F.

    Lemma f_imp2 (P Q S : I -> Prop) : F P -> F Q -> (forall i, P i -> Q i -> S i) -> F S.
    Proof. intros HP HQ H. apply (f_imp F HF (fun i => P i /\ Q i)); [intros i []; auto|]. apply (f_and F HF); assumption. Qed.
    Lemma f_imp3 (P Q S T : I -> Prop) : F P -> F Q -> F S -> (forall i, P i -> Q i -> S i -> T i) -> F T.
    Proof. intros HP HQ HS H. eapply f_imp2; [exact HP|apply (f_and F HF _ _ HQ HS)|]. intros i Hp []. auto. Qed.
    Lemma filter_on S : filter (on F S).
    Proof.
      split; unfold on.
      - intros P H. apply (f_all F HF). auto.
      - intros P Q H. apply (f_imp F HF). auto.
      - intros P Q H1 H2. eapply f_imp2; [exact H1|exact H2|]. auto.
    Qed.
    Lemma on_in S : on F S S.
    Proof. apply (f_all F HF). auto. Qed.
    Lemma on_of S P : F P -> on F S P.
    Proof. apply (f_imp F HF). auto. Qed.

    Lemma conv_on S x l : conv F x l -> conv (on F S) x l.
    Proof. intros H eps He. apply on_of, H, He. Qed.
    Lemma conv_void x l : F (fun _ => False) -> conv F x l.
    Proof. intros H eps He. eapply (f_imp F HF); [|exact H]. intros i []. Qed.
    Lemma conv_to x l m : conv F x l -> l = m -> conv F x m.
    Proof. intros H <-. exact H. Qed.
    Lemma conv_const c : conv F (fun _ => c) c.
    Proof. intros eps He. apply (f_all F HF). intros i. rewrite Rminus_diag_eq, Rabs_R0 by reflexivity. lra. Qed.
    Lemma conv_event x y l : F (fun i => x i = y i) -> conv F x l -> conv F y l.
    Proof. intros E H eps He. eapply f_imp2; [exact E|exact (H eps He)|]. cbv beta. intros i E0 Hi. rewrite <- E0. exact Hi. Qed.
    Lemma conv_ext x y l : (forall i, x i = y i) -> conv F x l -> conv F y l.
    Proof. intros E. apply conv_event. apply (f_all F HF). assumption. Qed.
    Lemma conv_bool (b : I -> bool) (y : bool -> I -> R) l :
      conv (on F (fun i => b i = true)) (y true) l -> conv (on F (fun i => b i = false)) (y false) l ->
      conv F (fun i => y (b i) i) l.
    Proof.
      intros H1 H2 eps He. eapply f_imp2; [exact (H1 eps He)|exact (H2 eps He)|].
      cbv beta. intros i A B. destruct (b i); auto.
    Qed.
    Lemma conv_nat (k : I -> nat) (y : nat -> I -> R) l n :
      F (fun i => (k i < n)%nat) -> (forall j, (j < n)%nat -> conv (on F (fun i => k i = j)) (y j) l) ->
      conv F (fun i => y (k i) i) l.
    Proof.
      intros Hk H eps He.
      assert (A : F (fun i => (k i < n)%nat -> Rabs (y (k i) i - l) < eps)).
      { clear Hk. induction n as [|n IH]; [apply (f_all F HF); lia|].
        eapply f_imp2; [apply IH; intros j Hj; apply H; lia|exact (H n ltac:(lia) eps He)|].
        cbv beta. intros i A B Hi. destruct (Nat.eq_dec (k i) n) as [E|]; [rewrite E; auto|]. apply A. lia. }
      eapply f_imp2; [exact Hk|exact A|]. auto.
    Qed.
    Lemma conv_lt x y l m : conv F x l -> conv F y m -> l < m -> F (fun i => x i < y i).
    Proof.
      intros Hx Hy Hlt. eapply f_imp2; [exact (Hx ((m - l) / 2) ltac:(lra))|exact (Hy ((m - l) / 2) ltac:(lra))|].
      cbv beta. intros i A B. apply Rabs_def2 in A. apply Rabs_def2 in B. lra.
    Qed.
    Lemma conv_pos x l : conv F x l -> 0 < l -> F (fun i => 0 < x i).
    Proof. intros H Hl. apply (conv_lt (fun _ => 0) x 0 l); try assumption. apply conv_const. Qed.
    Lemma conv_le x y l m : conv F x l -> conv F y m -> F (fun i => x i <= y i) -> l <= m \/ F (fun _ => False).
    Proof.
      intros Hx Hy H. destruct (Rle_dec l m) as [|N]; [left; assumption|right].
      eapply f_imp2; [exact H|exact (conv_lt y x m l Hy Hx ltac:(lra))|]. cbv beta. intros i A B. lra.
    Qed.

    Lemma conv_plus x y l m : conv F x l -> conv F y m -> conv F (fun i => x i + y i) (l + m).
    Proof.
      intros Hx Hy eps He. eapply f_imp2; [exact (Hx (eps / 2) ltac:(lra))|exact (Hy (eps / 2) ltac:(lra))|].
      cbv beta. intros i A B. apply Rabs_def2 in A. apply Rabs_def2 in B. apply Rabs_def1; lra.
    Qed.
    Lemma conv_minus x y l m : conv F x l -> conv F y m -> conv F (fun i => x i - y i) (l - m).
    Proof.
      intros Hx Hy eps He. eapply f_imp2; [exact (Hx (eps / 2) ltac:(lra))|exact (Hy (eps / 2) ltac:(lra))|].
      cbv beta. intros i A B. apply Rabs_def2 in A. apply Rabs_def2 in B. apply Rabs_def1; lra.
    Qed.
    Lemma conv_mult x y l m : conv F x l -> conv F y m -> conv F (fun i => x i * y i) (l * m).
    Proof.
      intros Hx Hy eps He. pose proof (Rabs_pos l). pose proof (Rabs_pos m).
      set (k := 2 + Rabs l + Rabs m). assert (Hk : 0 < k) by (unfold k; lra).
      assert (Hd : 0 < Rmin 1 (eps / k)) by (apply Rmin_glb_lt; [lra|apply Rdiv_lt_0_compat; assumption]).
      set (d := Rmin 1 (eps / k)) in *.
      assert (d <= 1) by apply Rmin_l. assert (d <= eps / k) by apply Rmin_r.
      assert (Hdk : d * k <= eps). { apply Rmult_le_compat_r with (r := k) in H2; [|lra]. unfold Rdiv in H2. rewrite Rmult_assoc, Rinv_l in H2 by lra. lra. }
      eapply f_imp2; [exact (Hx d Hd)|exact (Hy d Hd)|]. cbv beta. intros i A B.
      replace (x i * y i - l * m) with ((x i - l) * (y i - m) + l * (y i - m) + m * (x i - l)) by ring.
      eapply Rle_lt_trans; [eapply Rle_trans; [apply Rabs_triang|]; apply Rplus_le_compat_r, Rabs_triang|].
      rewrite !Rabs_mult. pose proof (Rabs_pos (x i - l)). pose proof (Rabs_pos (y i - m)).
      set (a := Rabs (x i - l)) in *. set (b := Rabs (y i - m)) in *.
      assert (a * b <= d) by nra. assert (Rabs l * b <= Rabs l * d) by nra. assert (Rabs m * a <= Rabs m * d) by nra.
      unfold k in Hdk. nra.
    Qed.
    Lemma conv_f f x l : continuity_pt f l -> conv F x l -> conv F (fun i => f (x i)) (f l).
    Proof.
      intros Hf Hx eps He. destruct (Hf eps He) as (d & Hd & H).
      eapply (f_imp F HF); [|exact (Hx d Hd)]. cbv beta. intros i Hi.
      destruct (Req_dec (x i) l) as [-> | N]; [rewrite Rminus_diag_eq, Rabs_R0 by reflexivity; lra|].
      apply (H (x i)). split; [split; [constructor|auto]|exact Hi].
    Qed.
    Lemma conv_inv x l : conv F x l -> l <> 0 -> conv F (fun i => / x i) (/ l).
    Proof.
      intros Hx Hl. apply (conv_f (fun z => / z)); [|assumption].
      apply (continuity_pt_inv (fun z => z)); [|assumption]. apply derivable_continuous_pt, derivable_pt_id.
    Qed.
    Lemma conv_div x y l m : conv F x l -> conv F y m -> m <> 0 -> conv F (fun i => x i / y i) (l / m).
    Proof. intros Hx Hy Hm. unfold Rdiv. apply conv_mult; [assumption|]. apply conv_inv; assumption. Qed.
    Lemma conv_exp x l : conv F x l -> conv F (fun i => exp (x i)) (exp l).
    Proof. intros H. apply conv_f; [|assumption]. apply derivable_continuous_pt, derivable_pt_exp. Qed.
    Lemma conv_ln x l : conv F x l -> 0 < l -> conv F (fun i => ln (x i)) (ln l).
    Proof. intros H Hl. apply conv_f; [|assumption]. apply derivable_continuous_pt. exists (/ l). apply derivable_pt_lim_ln. assumption. Qed.
    Lemma conv_max x y l m : conv F x l -> conv F y m -> conv F (fun i => Rmax (x i) (y i)) (Rmax l m).
    Proof.
      intros Hx Hy eps He. eapply f_imp2; [exact (Hx eps He)|exact (Hy eps He)|]. cbv beta. intros i A B.
      apply Rabs_def2 in A. apply Rabs_def2 in B. apply Rabs_def1; rmm; lra.
    Qed.
    Lemma conv_min x y l m : conv F x l -> conv F y m -> conv F (fun i => Rmin (x i) (y i)) (Rmin l m).
    Proof.
      intros Hx Hy eps He. eapply f_imp2; [exact (Hx eps He)|exact (Hy eps He)|]. cbv beta. intros i A B.
      apply Rabs_def2 in A. apply Rabs_def2 in B. apply Rabs_def1; rmm; lra.
    Qed.
    Lemma conv_off x y l : conv F x l -> (forall u, 0 < u -> F (fun i => off u (x i) (y i))) -> conv F y l.
    Proof.
      intros Hx Hy eps He. pose proof (Rabs_pos l) as Hl.
      set (u := eps / (2 * (2 + Rabs l))).
      assert (Hu : 0 < u) by (apply Rdiv_lt_0_compat; lra).
      assert (Eu : u * (2 + Rabs l) = eps / 2) by (unfold u; field; lra).
      assert (Hd : 0 < Rmin 1 (eps / 2)) by (apply Rmin_glb_lt; lra).
      eapply f_imp2; [exact (Hx _ Hd)|exact (Hy u Hu)|]. cbv beta. unfold off. intros i A B.
      assert (A1 : Rabs (x i - l) < 1) by (eapply Rlt_le_trans; [exact A|apply Rmin_l]).
      assert (A2 : Rabs (x i - l) < eps / 2) by (eapply Rlt_le_trans; [exact A|apply Rmin_r]).
      assert (Rabs (x i) <= 1 + Rabs l).
      { replace (x i) with ((x i - l) + l) by ring. eapply Rle_trans; [apply Rabs_triang|]. lra. }
      replace (y i - l) with ((y i - x i) + (x i - l)) by ring.
      eapply Rle_lt_trans; [apply Rabs_triang|]. nra.
    Qed.
  End Filter.

  (** arithmetic whose precision goes to 0 along the filter *)
  Record arith (F : (I -> Prop) -> Prop) (N : I -> Num R) : Prop := {
    ar_filter : filter F;
    ar_precise : forall u, 0 < u -> F (fun i => precise u (N i));
    ar_leb : forall i x y, @nleb R (N i) x y = Rleb x y;
    ar_ltb : forall i x y, @nltb R (N i) x y = Rltb x y }.
  Lemma arith_on F N S : arith F N -> arith (on F S) N.
  Proof.
    intros [H1 H2 H3 H4]. split; [apply filter_on; assumption| |assumption|assumption].
    intros u Hu. apply on_of; auto.
  Qed.

  Section Arith.
    Variable F : (I -> Prop) -> Prop.
    Variable N : I -> Num R.
    Hypothesis A : arith F N.
    Let HF := ar_filter F N A.

    Lemma F_ofZ z : conv F (fun i => @nofZ R (N i) z) (@nofZ R RNum z).
    Proof.
      apply (conv_off F HF (fun _ => IZR z)); [apply conv_const, HF|]. intros u Hu.
      eapply (f_imp F HF); [|exact (ar_precise F N A u Hu)]. intros i H. apply H.
    Qed.
    Lemma F_add x y l m : conv F x l -> conv F y m -> conv F (fun i => @nadd R (N i) (x i) (y i)) (@nadd R RNum l m).
    Proof.
      intros Hx Hy. apply (conv_off F HF (fun i => x i + y i)); [apply conv_plus; assumption|]. intros u Hu.
      eapply (f_imp F HF); [|exact (ar_precise F N A u Hu)]. intros i H. apply H.
    Qed.
    Lemma F_sub x y l m : conv F x l -> conv F y m -> conv F (fun i => @nsub R (N i) (x i) (y i)) (@nsub R RNum l m).
    Proof.
      intros Hx Hy. apply (conv_off F HF (fun i => x i - y i)); [apply conv_minus; assumption|]. intros u Hu.
      eapply (f_imp F HF); [|exact (ar_precise F N A u Hu)]. intros i H. apply H.
    Qed.
    Lemma F_mul x y l m : conv F x l -> conv F y m -> conv F (fun i => @nmul R (N i) (x i) (y i)) (@nmul R RNum l m).
    Proof.
      intros Hx Hy. apply (conv_off F HF (fun i => x i * y i)); [apply conv_mult; assumption|]. intros u Hu.
      eapply (f_imp F HF); [|exact (ar_precise F N A u Hu)]. intros i H. apply H.
    Qed.
    Lemma conv_ne0 x l : conv F x l -> l <> 0 -> F (fun i => x i <> 0).
    Proof.
      intros H Hl. eapply (f_imp F HF); [|exact (H (Rabs l) (Rabs_pos_lt l Hl))]. cbv beta. intros i Hi E.
      rewrite E in Hi. replace (0 - l) with (- l) in Hi by ring. rewrite Rabs_Ropp in Hi. lra.
    Qed.
    Lemma F_div x y l m : conv F x l -> conv F y m -> m <> 0 -> conv F (fun i => @ndiv R (N i) (x i) (y i)) (@ndiv R RNum l m).
    Proof.
      intros Hx Hy Hm. apply (conv_off F HF (fun i => x i / y i)); [apply conv_div; assumption|]. intros u Hu.
      eapply (f_imp2 F HF); [exact (ar_precise F N A u Hu)|exact (conv_ne0 _ _ Hy Hm)|]. cbv beta. intros i H H0. apply H. assumption.
    Qed.
    Lemma F_exp x l : conv F x l -> conv F (fun i => @nexp R (N i) (x i)) (@nexp R RNum l).
    Proof.
      intros Hx. apply (conv_off F HF (fun i => exp (x i))); [apply conv_exp; assumption|]. intros u Hu.
      eapply (f_imp F HF); [|exact (ar_precise F N A u Hu)]. intros i H. apply H.
    Qed.
    Lemma F_ln x l : conv F x l -> 0 < l -> conv F (fun i => @nln R (N i) (x i)) (@nln R RNum l).
    Proof.
      intros Hx Hl. apply (conv_off F HF (fun i => ln (x i))); [apply conv_ln; assumption|]. intros u Hu.
      eapply (f_imp2 F HF); [exact (ar_precise F N A u Hu)|exact (conv_pos F HF _ _ Hx Hl)|]. cbv beta. intros i H H0. apply H. assumption.
    Qed.
    Lemma F_pow x y l m : conv F x l -> conv F y m -> 0 < l -> conv F (fun i => @npow R (N i) (x i) (y i)) (@npow R RNum l m).
    Proof.
      intros Hx Hy Hl. apply (conv_off F HF (fun i => Rpower (x i) (y i))).
      - change (@npow R RNum l m) with (Rpow l m). unfold Rpow. destruct (Rlt_dec 0 l); [|lra]. unfold Rpower.
        apply conv_exp; [assumption|]. apply conv_mult; [assumption|assumption|]. apply conv_ln; assumption.
      - intros u Hu. eapply (f_imp2 F HF); [exact (ar_precise F N A u Hu)|exact (conv_pos F HF _ _ Hx Hl)|]. cbv beta. intros i H H0. apply H. assumption.
    Qed.
    Lemma F_max x y l m : conv F x l -> conv F y m -> conv F (fun i => @nmax R (N i) (x i) (y i)) (@nmax R RNum l m).
    Proof.
      intros Hx Hy. rewrite nmax_R. apply (conv_ext F HF (fun i => Rmax (x i) (y i))); [|apply conv_max; assumption].
      intros i. unfold nmax. rewrite (ar_leb F N A). rewrite <- nmax_R. reflexivity.
    Qed.
    Lemma F_min x y l m : conv F x l -> conv F y m -> conv F (fun i => @nmin R (N i) (x i) (y i)) (@nmin R RNum l m).
    Proof.
      intros Hx Hy. rewrite nmin_R. apply (conv_ext F HF (fun i => Rmin (x i) (y i))); [|apply conv_min; assumption].
      intros i. unfold nmin. rewrite (ar_leb F N A). rewrite <- nmin_R. reflexivity.
    Qed.
    Lemma F_b2n b : conv F (fun i => @b2n R (N i) b) (@b2n R RNum b).
    Proof. unfold b2n. destruct b; apply F_ofZ. Qed.
    Lemma F_lit a b : IZR b <> 0 -> conv F (fun i => @nlit R (N i) a b) (@nlit R RNum a b).
    Proof. intros H. unfold nlit. apply F_div; [apply F_ofZ|apply F_ofZ|exact H]. Qed.
    Lemma F_sq x l : conv F x l -> conv F (fun i => @nsq R (N i) (x i)) (@nsq R RNum l).
    Proof. intros H. unfold nsq. apply F_mul; assumption. Qed.
    Lemma F_clip x y z l m n : conv F x l -> conv F y m -> conv F z n ->
      conv F (fun i => @nclip R (N i) (x i) (y i) (z i)) (@nclip R RNum l m n).
    Proof. intros. unfold nclip. apply F_min; [apply F_max|]; assumption. Qed.
    Lemma F_if (b : bool) x y l m : conv F x l -> conv F y m ->
      conv F (fun i => if b then x i else y i) (if b then l else m).
    Proof. destruct b; auto. Qed.
    Lemma F_hours j : conv F (fun i => @hours_of R (N i) j) (@hours_of R RNum j).
    Proof. apply F_ofZ. Qed.

  End Arith.

  (** *** arrays: one family of numbers for each position *)
  Definition Lim {X Y : Type} (P : (I -> X) -> Y -> Prop) (xs : I -> list X) (l : list Y) : Prop :=
    exists fs : list (I -> X), xs = (fun i => map (fun f => f i) fs) /\ Forall2 P fs l.

  Lemma lim_length {X Y} (P : (I -> X) -> Y -> Prop) xs l i : Lim P xs l -> List.length (xs i) = List.length l.
  Proof. intros (fs & -> & H). rewrite map_length. induction H; cbn [List.length]; congruence. Qed.
  Lemma lim_zlen {X Y} (P : (I -> X) -> Y -> Prop) xs l i : Lim P xs l -> zlen (xs i) = zlen l.
  Proof. intros H. unfold zlen. rewrite (lim_length P xs l i H). reflexivity. Qed.
  Lemma lim_nil {X Y} (P : (I -> X) -> Y -> Prop) : Lim P (fun _ => []) [].
  Proof. exists []. split; [reflexivity|constructor]. Qed.
  Lemma lim_cons {X Y} (P : (I -> X) -> Y -> Prop) x a xs l : P x a -> Lim P xs l -> Lim P (fun i => x i :: xs i) (a :: l).
  Proof. intros Hx (fs & -> & H). exists (x :: fs). split; [reflexivity|constructor; assumption]. Qed.
  Lemma lim_app {X Y} (P : (I -> X) -> Y -> Prop) xs l ys m : Lim P xs l -> Lim P ys m -> Lim P (fun i => xs i ++ ys i) (l ++ m).
  Proof.
    intros (fs & -> & H) (gs & -> & K). exists (fs ++ gs). split; [|apply Forall2_app; assumption].
    apply functional_extensionality. intros i. rewrite map_app. reflexivity.
  Qed.
  Lemma lim_nth {X Y} (P : (I -> X) -> Y -> Prop) xs l k ds d : Lim P xs l -> (k < List.length l)%nat ->
    P (fun i => nth k (xs i) (ds i)) (nth k l d).
  Proof.
    intros (fs & -> & H). revert k. induction H as [|f a fs l Hf Hfs IH]; intros [|k] Hk; cbn [List.length] in Hk; try lia.
    - exact Hf.
    - cbn [map nth]. apply IH. lia.
  Qed.
  Lemma lim_nth' {X Y} (P : (I -> X) -> Y -> Prop) xs l k ds d : Lim P xs l -> P ds d ->
    P (fun i => nth k (xs i) (ds i)) (nth k l d).
  Proof.
    intros (fs & -> & H) Hd. revert k. induction H as [|f a fs l Hf Hfs IH]; intros [|k]; cbn [map nth]; auto.
  Qed.
  Lemma lim_jget {X Y} (P : (I -> X) -> Y -> Prop) xs l z ds d : Lim P xs l -> P ds d ->
    P (fun i => jget (ds i) (xs i) z) (jget d l z).
  Proof.
    intros H Hd. unfold jget.
    replace (fun i => nth (Z.to_nat (Z.max 0 (Z.min (if (z <? 0)%Z then (z + zlen (xs i))%Z else z) (zlen (xs i) - 1)))) (xs i) (ds i))
      with (fun i => nth (Z.to_nat (Z.max 0 (Z.min (if (z <? 0)%Z then (z + zlen l)%Z else z) (zlen l - 1)))) (xs i) (ds i)).
    - apply lim_nth'; assumption.
    - apply functional_extensionality. intros i. rewrite (lim_zlen P xs l i H). reflexivity.
  Qed.
  Lemma lim_map {X Y X' Y'} (P : (I -> X) -> Y -> Prop) (Q : (I -> X') -> Y' -> Prop) f g xs l :
    Lim P xs l -> (forall x a, P x a -> Q (fun i => f i (x i)) (g a)) ->
    Lim Q (fun i => map (f i) (xs i)) (map g l).
  Proof.
    intros (fs & -> & H) Hf. exists (map (fun h => fun i => f i (h i)) fs). split.
    - apply functional_extensionality. intros i. rewrite !map_map. reflexivity.
    - induction H; cbn [map]; constructor; auto.
  Qed.
  (** same list of arguments *)
  Lemma lim_maps {Z0 X Y} (Q : (I -> X) -> Y -> Prop) (f : I -> Z0 -> X) (g : Z0 -> Y) l :
    (forall a, In a l -> Q (fun i => f i a) (g a)) -> Lim Q (fun i => map (f i) l) (map g l).
  Proof.
    intros H. induction l as [|a l IH]; cbn [map]; [apply lim_nil|].
    apply (lim_cons Q (fun i => f i a)); [apply H; left; reflexivity|]. apply IH. intros b Hb. apply H. right. assumption.
  Qed.
  Lemma lim_map2 {X Y X' Y' X'' Y''} (P : (I -> X) -> Y -> Prop) (P' : (I -> X') -> Y' -> Prop) (Q : (I -> X'') -> Y'' -> Prop)
      f g xs l ys m : Lim P xs l -> Lim P' ys m ->
    (forall x a y b, P x a -> P' y b -> Q (fun i => f i (x i) (y i)) (g a b)) ->
    Lim Q (fun i => map2 (f i) (xs i) (ys i)) (map2 g l m).
  Proof.
    intros (fs & -> & H) (gs & -> & K) Hf. revert gs m K. induction H as [|h a fs l Hh Hs IH]; intros gs m K.
    - cbn [map map2]. apply lim_nil.
    - destruct K as [|h' a' gs m Hh' Hs']; cbn [map map2]; [apply lim_nil|].
      apply (lim_cons Q (fun i => f i (h i) (h' i))); [apply Hf; assumption|apply IH; assumption].
  Qed.
  Lemma lim_repeat {X Y} (P : (I -> X) -> Y -> Prop) x a n : P x a -> Lim P (fun i => repeat (x i) n) (repeat a n).
  Proof. intros H. induction n as [|n IH]; cbn [repeat]; [apply lim_nil|]. apply (lim_cons P x); assumption. Qed.
  Lemma lim_concat {X Y} (P : (I -> X) -> Y -> Prop) xs l : Lim (Lim P) xs l -> Lim P (fun i => List.concat (xs i)) (List.concat l).
  Proof.
    intros (fs & -> & H). induction H as [|f a fs l Hf Hs IH]; cbn [map List.concat]; [apply lim_nil|].
    apply (lim_app P f); assumption.
  Qed.
  Lemma lim_of {X Y} (P : (I -> X) -> Y -> Prop) (xs : I -> list X) l dx dy : (forall i, List.length (xs i) = List.length l) ->
    (forall k, (k < List.length l)%nat -> P (fun i => nth k (xs i) dx) (nth k l dy)) -> Lim P xs l.
  Proof.
    intros E H. exists (map (fun k => fun i => nth k (xs i) dx) (seq 0 (List.length l))). split.
    - apply functional_extensionality. intros i. rewrite map_map, <- (E i). clear.
      induction (xs i) as [|a l IH] using rev_ind; [reflexivity|].
      rewrite app_length. cbn [List.length]. rewrite Nat.add_1_r, seq_S, map_app. cbn [map Nat.add].
      rewrite app_nth2, Nat.sub_diag by lia. cbn [nth]. f_equal. rewrite IH at 1.
      apply map_ext_in. intros k Hk. apply in_seq in Hk. rewrite app_nth1 by lia. reflexivity.
    - clear E. set (f := fun k i => nth k (xs i) dx). assert (H' : forall k, (k < List.length l)%nat -> P (f k) (nth k l dy)) by exact H.
      clearbody f. clear H. rename H' into H.
      assert (G : forall s, (forall k, (k < List.length l)%nat -> P (f (s + k)%nat) (nth k l dy)) -> Forall2 P (map f (seq s (List.length l))) l).
      { clear H. induction l as [|a l IH]; intros s H; cbn [List.length seq map]; constructor.
        - specialize (H 0%nat ltac:(cbn [List.length]; lia)). rewrite Nat.add_0_r in H. exact H.
        - apply IH. intros k Hk. specialize (H (S k) ltac:(cbn [List.length]; lia)).
          replace (S s + k)%nat with (s + S k)%nat by lia. exact H. }
      apply G. exact H.
  Qed.
  (** from eventual closeness *)
  Lemma lim_event {X Y} (P : (I -> X) -> Y -> Prop) (F : (I -> Prop) -> Prop) (C : Y -> X -> Prop) : filter F ->
    (forall x a, P x a -> F (fun i => C a (x i))) ->
    forall xs l, Lim P xs l -> F (fun i => Forall2 C l (xs i)).
  Proof.
    intros HF H xs l (fs & -> & Hf). induction Hf as [|f a fs l Hf Hs IH]; cbn [map].
    - apply (f_all F HF). constructor.
    - eapply (f_imp2 F HF); [exact (H f a Hf)|exact IH|]. cbv beta. intros. constructor; assumption.
  Qed.
End Conv.
