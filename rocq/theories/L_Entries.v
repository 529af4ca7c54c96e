(** Lemmas about the entries of a parameter frame. *)
From Coq Require Import Reals Lra Lia ZArith NArith List String Ascii Permutation Sorting.Sorted.
From Verif Require Import Base Num M_Params M_Tax M_Spec S_Spec S_Entries L_Num L_Spec L_Params.
Import ListNotations.
Local Open Scope string_scope.
Local Open Scope list_scope.
Open Scope R_scope.

Lemma kget_ok {A} (d : list (string * A)) k v : kget d k = Ok v <-> assoc_get k d = Some v.
Proof. unfold kget. destruct (assoc_get k d); split; intros H; congruence. Qed.

Lemma entry_of df d c rows k x : assoc_get c d = assoc_get c df -> kget d c = Ok rows -> kget rows k = Ok x -> entry df c k x.
Proof. intros E H1 H2. apply kget_ok in H1, H2. exists rows. split; congruence. Qed.

(** only the preference types are changed before grouping *)
Lemma expand_other df d der c : expand_model_params_dict df = Ok (d, der) -> c <> "hetrg_unobs" -> assoc_get c d = assoc_get c df.
Proof.
  unfold expand_model_params_dict. intros H Hc. apply bind_ok in H. destruct H as (r & _ & H). apply bind_ok in H. destruct H as (s & _ & H).
  destruct (assoc_get "shares" df) as [sh|]; apply bind_ok in H; destruct H as (het & _ & H).
  - assert (E : d = assoc_set "hetrg_unobs" (assoc_set "theta_f0" (#0)%num (assoc_set "theta_p0" (#0)%num het)) df) by congruence.
    rewrite E. apply get_set_other. congruence.
  - assert (E : d = assoc_set "hetrg_unobs" (assoc_set "theta_f0" (#0)%num (assoc_set "theta_p0" (#0)%num het)) (assoc_set "hetrg_unobs" [] df)) by congruence.
    rewrite E, !get_set_other by congruence. reflexivity.
Qed.
Lemma expand_sd df d sd sh nt : expand_model_params_dict df = Ok (d, (sd, sh, nt)) -> entry df "sd_wage_shock" "sigma" sd.
Proof.
  unfold expand_model_params_dict. intros H. apply bind_ok in H. destruct H as (r & Hr & H). apply bind_ok in H. destruct H as (s & Hs & H).
  assert (E : s = sd).
  { destruct (assoc_get "shares" df) as [l|]; apply bind_ok in H; destruct H as (het & _ & H); congruence. }
  subst s. eapply entry_of; [reflexivity|exact Hr|exact Hs].
Qed.

Lemma educ_ok (d : params_dict R) c p l : educ_param d c p = Ok l -> exists rows low mid high, kget d c = Ok rows /\
  kget rows (p ++ "_low")%string = Ok low /\ kget rows (p ++ "_middle")%string = Ok mid /\ kget rows (p ++ "_high")%string = Ok high /\
  l = low :: mid :: high :: repeat (#0)%num (List.length rows - 3).
Proof.
  unfold educ_param. intros H. apply bind_ok in H. destruct H as (rows & H0 & H). apply bind_ok in H. destruct H as (low & H1 & H).
  destruct (Z.ltb _ _); [discriminate|]. apply bind_ok in H. destruct H as (mid & H2 & H).
  destruct (Z.ltb _ _); [discriminate|]. apply bind_ok in H. destruct H as (high & H3 & H).
  destruct (Z.ltb _ _); [discriminate|]. exists rows, low, mid, high. split; [exact H0|]. split; [exact H1|]. split; [exact H2|]. split; [exact H3|]. congruence.
Qed.
Lemma kids_ok (rows : list (string * R)) p l : kids_param rows p = Ok l -> exists low mid high,
  kget rows (p ++ "_educ_low")%string = Ok low /\ kget rows (p ++ "_educ_middle")%string = Ok mid /\ kget rows (p ++ "_educ_high")%string = Ok high /\
  l = [low; mid; high].
Proof.
  unfold kids_param. cbn [mapM]. intros H.
  apply bind_ok in H. destruct H as (low & H1 & H). apply bind_ok in H. destruct H as (r & H' & H).
  apply bind_ok in H'. destruct H' as (mid & H2 & H'). apply bind_ok in H'. destruct H' as (r' & H'' & H').
  apply bind_ok in H''. destruct H'' as (high & H3 & H''). 
  assert (E0 : r' = [high]) by (cbn [bind] in H''; congruence). assert (E1 : r = mid :: r') by congruence. assert (E2 : l = low :: r) by congruence.
  exists low, mid, high. split; [exact H1|]. split; [exact H2|]. split; [exact H3|]. congruence.
Qed.

Lemma three_rows {A} (rows : list (string * A)) a b c : a <> b -> a <> c -> b <> c ->
  assoc_get a rows <> None -> assoc_get b rows <> None -> assoc_get c rows <> None -> (3 <= List.length rows)%nat.
Proof.
  intros H1 H2 H3 A1 A2 A3.
  assert (I : forall k, assoc_get k rows <> None -> In k (map fst rows)).
  { intros k Hk. destruct (in_dec string_dec k (map fst rows)) as [H|H]; [exact H|]. apply get_none in H. contradiction. }
  rewrite <- (map_length fst). apply (NoDup_incl_length (l := [a; b; c])).
  - repeat constructor; cbn [In]; intuition congruence.
  - intros k [<-|[<-|[<-|[]]]]; apply I; assumption.
Qed.

Section Same.
  Lemma in_get {A} k (v : A) d : NoDup (map fst d) -> In (k, v) d -> assoc_get k d = Some v.
  Proof.
    induction d as [|[k' v'] d IH]; intros Hn H; [destruct H|]. rewrite get_cons. cbn [map fst] in Hn. apply NoDup_cons_iff in Hn. destruct Hn as [Hn Hn'].
    destruct (String.eqb_spec k' k) as [->|Hk].
    - destruct H as [H|H]; [congruence|]. exfalso. apply Hn. apply (in_map fst) in H. exact H.
    - destruct H as [H|H]; [congruence|]. apply IH; assumption.
  Qed.
  Lemma perm_get {A} k (d d' : list (string * A)) : NoDup (map fst d) -> Permutation d d' -> assoc_get k d' = assoc_get k d.
  Proof.
    intros Hn Hp. destruct (assoc_get k d) as [v|] eqn:E.
    - apply in_get; [eapply Permutation_NoDup; [apply Permutation_map, Hp|exact Hn]|]. apply (Permutation_in _ Hp). apply get_in, E.
    - apply (perm_get_none _ _ d); [apply Permutation_sym, Hp|exact E].
  Qed.
  Lemma perm_set {A} k (v : A) d d' : NoDup (map fst d) -> Permutation d d' -> Permutation (assoc_set k v d) (assoc_set k v d').
  Proof.
    intros Hn Hp. assert (Hn' : NoDup (map fst d')) by (eapply Permutation_NoDup; [apply Permutation_map, Hp|exact Hn]).
    pose proof (set_nodup k v _ Hn) as N1. pose proof (set_nodup k v _ Hn') as N2.
    assert (G : forall j, assoc_get j (assoc_set k v d) = assoc_get j (assoc_set k v d')).
    { intros j. destruct (string_dec k j) as [<-|Hk]; [rewrite !get_set_same; reflexivity|]. rewrite !get_set_other by exact Hk. symmetry. apply perm_get; assumption. }
    apply NoDup_Permutation; [eapply NoDup_map_inv, N1|eapply NoDup_map_inv, N2|].
    intros [j w]. split; intros H; apply get_in; [rewrite <- G|rewrite G]; apply in_get; assumption.
  Qed.
  Lemma theta_perm (h h' : list (string * R)) i : NoDup (map fst h) -> Permutation h h' -> theta_param h' i = theta_param h i.
  Proof.
    intros Hn Hp. unfold theta_param. do 2 f_equal. symmetry. apply sorted_unique; [apply sorted_sorted|apply sorted_sorted| |].
    - eapply Permutation_NoDup; [apply Permutation_map, Permutation_sym, sorted_perm|exact Hn].
    - rewrite !sorted_perm. exact Hp.
  Qed.

  Lemma kget_same (df df' : params_dict R) c rows : same_rows df df' -> kget df c = Ok rows ->
    exists rows', kget df' c = Ok rows' /\ Permutation rows rows' /\ NoDup (map fst rows) /\ (forall k, kget rows' k = kget rows k).
  Proof.
    intros H E. specialize (H c). apply kget_ok in E. rewrite E in H. destruct (assoc_get c df') as [rows'|] eqn:E'; [|destruct H].
    destruct H as [Hp Hn]. exists rows'. split; [apply kget_ok; exact E'|]. split; [exact Hp|]. split; [exact Hn|].
    intros k. unfold kget. rewrite (perm_get k rows rows') by assumption. reflexivity.
  Qed.
  Lemma educ_same (df df' : params_dict R) c p l : same_rows df df' -> educ_param df c p = Ok l -> educ_param df' c p = Ok l.
  Proof.
    intros H E. unfold educ_param in *. apply bind_ok in E. destruct E as (rows & E0 & E).
    destruct (kget_same _ _ _ _ H E0) as (rows' & -> & Hp & Hn & Hk). cbn [bind]. rewrite !Hk.
    unfold zlen. rewrite <- (Permutation_length Hp). exact E.
  Qed.
  Lemma set_same (df df' : params_dict R) c rows rows' : same_rows df df' -> Permutation rows rows' -> NoDup (map fst rows) ->
    same_rows (assoc_set c rows df) (assoc_set c rows' df').
  Proof.
    intros H Hp Hn k. destruct (string_dec c k) as [<-|Hk]; [rewrite !get_set_same; split; assumption|].
    rewrite !get_set_other by exact Hk. apply H.
  Qed.
  Lemma expand_same (df df' : params_dict R) d der : same_rows df df' -> assoc_get "shares" df' = assoc_get "shares" df ->
    expand_model_params_dict df = Ok (d, der) -> exists d', expand_model_params_dict df' = Ok (d', der) /\ same_rows d d'.
  Proof.
    intros H Hs E. unfold expand_model_params_dict in *. rewrite Hs.
    apply bind_ok in E. destruct E as (r & E0 & E). destruct (kget_same _ _ _ _ H E0) as (r' & -> & _ & _ & Hk). cbn [bind]. rewrite Hk.
    apply bind_ok in E. destruct E as (sd & -> & E). cbn [bind].
    destruct (assoc_get "shares" df) as [sh|]; apply bind_ok in E; destruct E as (het & E1 & E).
    - destruct (kget_same _ _ _ _ H E1) as (het' & -> & Hp & Hn & _). cbn [bind]. eexists. split; [apply f_equal, f_equal2; [reflexivity|congruence]|].
      assert (Ed : d = assoc_set "hetrg_unobs" (assoc_set "theta_f0" (#0)%num (assoc_set "theta_p0" (#0)%num het)) df) by congruence. rewrite Ed.
      apply set_same; [exact H| |apply set_nodup, set_nodup, Hn]. apply perm_set; [apply set_nodup, Hn|]. apply perm_set; assumption.
    - unfold kget in *. rewrite !get_set_same in *. cbn [bind]. assert (Eh : het = []) by congruence. subst het.
      eexists. split; [apply f_equal, f_equal2; [reflexivity|congruence]|].
      assert (Ed : d = assoc_set "hetrg_unobs" (assoc_set "theta_f0" (#0)%num (assoc_set "theta_p0" (#0)%num [])) (assoc_set "hetrg_unobs" [] df)) by congruence. rewrite Ed.
      apply set_same; [apply set_same; [exact H|constructor|constructor]|reflexivity|]. apply set_nodup, set_nodup. constructor.
  Qed.
  Lemma group_same (df df' : params_dict R) der mp : same_rows df df' -> group_parameters df der = Ok mp -> group_parameters df' der = Ok mp.
  Proof.
    intros H E. unfold group_parameters in *. destruct der as [[sd sh] nt].
    do 3 (apply bind_ok in E; let x := fresh "x" in let E' := fresh "E" in destruct E as (x & E' & E); rewrite (educ_same _ _ _ _ _ H E'); cbn [bind]).
    apply bind_ok in E. destruct E as (m & E3 & E). destruct (kget_same _ _ _ _ H E3) as (m' & -> & _ & _ & Hm). cbn [bind]. rewrite Hm.
    apply bind_ok in E. destruct E as (gm & -> & E). cbn [bind].
    apply bind_ok in E. destruct E as (di & E4 & E). destruct (kget_same _ _ _ _ H E4) as (di' & -> & _ & _ & Hd). cbn [bind].
    assert (Hk : forall p, kids_param di' p = kids_param di p) by (intros p; unfold kids_param; cbn [mapM]; rewrite !Hd; reflexivity).
    rewrite !Hk, !Hd.
    do 4 (apply bind_ok in E; let x := fresh "x" in destruct E as (x & -> & E); cbn [bind]).
    apply bind_ok in E. destruct E as (dc & E5 & E). destruct (kget_same _ _ _ _ H E5) as (dc' & -> & _ & _ & Hc). cbn [bind]. rewrite Hc.
    apply bind_ok in E. destruct E as (de & -> & E). cbn [bind].
    apply bind_ok in E. destruct E as (ri & E6 & E). destruct (kget_same _ _ _ _ H E6) as (ri' & -> & _ & _ & Hr). cbn [bind]. rewrite Hr.
    apply bind_ok in E. destruct E as (mu_ & -> & E). cbn [bind].
    apply bind_ok in E. destruct E as (he & E7 & E). destruct (kget_same _ _ _ _ H E7) as (he' & -> & Hp & Hn & _). cbn [bind].
    rewrite !(theta_perm he he') by assumption. exact E.
  Qed.
End Same.

(** rows for all parameters are enough *)
Lemma complete_ok df : complete_frame df -> exists mp : model_params R, read_model_params_init (ParamsFrame df) = Ok (df, mp).
Proof.
  intros (Hs & He & Ht). 
  assert (K : forall c k f, In (c, k, f) single_entries -> exists rows x, kget df c = Ok rows /\ kget rows k = Ok x).
  { intros c k f Hi. destruct (Hs c k f Hi) as (x & rows & A & B). exists rows, x. split; apply kget_ok; assumption. }
  assert (Ka : forall c k f, In (c, k, f) education_entries -> exists rows x y z, kget df c = Ok rows /\
    kget rows (k ++ "low")%string = Ok x /\ kget rows (k ++ "middle")%string = Ok y /\ kget rows (k ++ "high")%string = Ok z).
  { intros c k f Hi. destruct (He c k f "low" Hi (or_introl eq_refl)) as (x & rows & A & B).
    destruct (He c k f "middle" Hi (or_intror (or_introl eq_refl))) as (y & r1 & A1 & B1).
    destruct (He c k f "high" Hi (or_intror (or_intror (or_introl eq_refl)))) as (z & r2 & A2 & B2).
    assert (r1 = rows) by congruence. assert (r2 = rows) by congruence. subst r1 r2. exists rows, x, y, z. rewrite !kget_ok. auto. }
  unfold read_model_params_init. cbn [bind].
  destruct (K "sd_wage_shock" "sigma" (@shock_sd R)) as (rsd & sd & Ksd & Kx); [cbn; intuition|].
  assert (X : exists d sh nt het, expand_model_params_dict df = Ok (d, (sd, sh, nt)) /\ assoc_get "hetrg_unobs" d = Some het).
  { unfold expand_model_params_dict. rewrite Ksd. cbn [bind]. rewrite Kx. cbn [bind].
    destruct (assoc_get "shares" df) as [sh|].
    - assert (Hh : assoc_get "hetrg_unobs" df <> None) by (apply Ht; discriminate). destruct (assoc_get "hetrg_unobs" df) as [het|] eqn:E; [|contradiction].
      apply kget_ok in E. rewrite E. cbn [bind]. eexists _, _, _, _. split; [reflexivity|]. apply get_set_same.
    - unfold kget. rewrite get_set_same. cbn [bind]. eexists _, _, _, _. split; [reflexivity|]. apply get_set_same. }
  destruct X as (d & sh & nt & het & EX & Hh). rewrite EX. cbn [bind].
  assert (D : forall c, c <> "hetrg_unobs" -> kget d c = kget df c).
  { intros c Hc. unfold kget. rewrite (expand_other _ _ _ c EX Hc). reflexivity. }
  assert (Ed : forall c p f, In (c, (p ++ "_")%string, f) education_entries -> c <> "hetrg_unobs" ->
     ((p ++ "_") ++ "low")%string = (p ++ "_low")%string -> ((p ++ "_") ++ "middle")%string = (p ++ "_middle")%string -> ((p ++ "_") ++ "high")%string = (p ++ "_high")%string ->
     (p ++ "_low")%string <> (p ++ "_middle")%string -> (p ++ "_low")%string <> (p ++ "_high")%string -> (p ++ "_middle")%string <> (p ++ "_high")%string ->
     exists l, educ_param d c p = Ok l).
  { intros c p f Hi Hc E1 E2 E3 N1 N2 N3. destruct (Ka _ _ _ Hi) as (rows & x & y & z & A & B1 & B2 & B3). rewrite E1 in B1. rewrite E2 in B2. rewrite E3 in B3.
    unfold educ_param. rewrite (D c Hc), A. cbn [bind]. rewrite B1. cbn [bind]. rewrite B2. cbn [bind]. rewrite B3. cbn [bind].
    apply kget_ok in B1, B2, B3.
    assert (L : (3 <= List.length rows)%nat) by (apply (three_rows rows _ _ _ N1 N2 N3); congruence).
    unfold zlen. rewrite !(proj2 (Z.ltb_ge _ _)) by lia. eexists. reflexivity. }
  destruct (Ed "const_wage_eq" "gamma_0" (@gamma_0 R)) as (g0 & G0); [cbn; tauto|discriminate|reflexivity|reflexivity|reflexivity|discriminate|discriminate|discriminate|].
  destruct (Ed "exp_return" "gamma_1" (@gamma_1 R)) as (g1 & G1); [cbn; tauto|discriminate|reflexivity|reflexivity|reflexivity|discriminate|discriminate|discriminate|].
  destruct (Ed "exp_increase_p" "gamma_p" (@gamma_p R)) as (gp & GP); [cbn; tauto|discriminate|reflexivity|reflexivity|reflexivity|discriminate|discriminate|discriminate|].
  destruct (K "exp_increase_p_mom" "gamma_p_mom" (@gamma_p_mom R)) as (rm & gm & Km & Kg); [cbn; tauto|].
  destruct (K "discount" "delta" (@delta R)) as (rd & de & Kd & Kde); [cbn; tauto|].
  destruct (K "risk" "mu" (@mu R)) as (rr & mu_ & Kr & Kmu); [cbn; tauto|].
  destruct (K "disutil_work" "child_0_2_f" (@child_0_2_f R)) as (dis & c1 & Kdi & K1); [cbn; tauto|].
  assert (C : forall k f, In ("disutil_work", k, f) single_entries -> exists x, kget dis k = Ok x).
  { intros k f Hi. destruct (K _ _ _ Hi) as (r & x & A & B). assert (r = dis) by congruence. subst r. exists x. exact B. }
  destruct (C "child_0_2_p" (@child_0_2_p R)) as (c2 & K2); [cbn; tauto|].
  destruct (C "child_3_5_f" (@child_3_5_f R)) as (c3 & K3); [cbn; tauto|].
  destruct (C "child_3_5_p" (@child_3_5_p R)) as (c4 & K4); [cbn; tauto|].
  destruct (C "child_6_10_f" (@child_6_10_f R)) as (c5 & K5); [cbn; tauto|].
  destruct (C "child_6_10_p" (@child_6_10_p R)) as (c6 & K6); [cbn; tauto|].
  assert (Kk : forall p f, In ("disutil_work", (p ++ "_educ_")%string, f) education_entries ->
     ((p ++ "_educ_") ++ "low")%string = (p ++ "_educ_low")%string -> ((p ++ "_educ_") ++ "middle")%string = (p ++ "_educ_middle")%string -> ((p ++ "_educ_") ++ "high")%string = (p ++ "_educ_high")%string ->
     exists l, kids_param dis p = Ok l).
  { intros p f Hi E1 E2 E3. destruct (Ka _ _ _ Hi) as (rows & x & y & z & A & B1 & B2 & B3). rewrite E1 in B1. rewrite E2 in B2. rewrite E3 in B3.
    assert (rows = dis) by congruence. subst rows. unfold kids_param. cbn [mapM].
    change (p ++ "_educ_" ++ "low")%string with (p ++ "_educ_low")%string. change (p ++ "_educ_" ++ "middle")%string with (p ++ "_educ_middle")%string.
    change (p ++ "_educ_" ++ "high")%string with (p ++ "_educ_high")%string. rewrite B1, B2, B3. eexists. reflexivity. }
  destruct (Kk "no_kids_f" (@no_kids_f R)) as (n1 & N1); [cbn; tauto|reflexivity|reflexivity|reflexivity|].
  destruct (Kk "no_kids_p" (@no_kids_p R)) as (n2 & N2); [cbn; tauto|reflexivity|reflexivity|reflexivity|].
  destruct (Kk "yes_kids_f" (@yes_kids_f R)) as (n3 & N3); [cbn; tauto|reflexivity|reflexivity|reflexivity|].
  destruct (Kk "yes_kids_p" (@yes_kids_p R)) as (n4 & N4); [cbn; tauto|reflexivity|reflexivity|reflexivity|].
  apply kget_ok in Hh. unfold group_parameters.
  rewrite G0. cbn [bind]. rewrite G1. cbn [bind]. rewrite GP. cbn [bind]. rewrite !D by discriminate.
  rewrite Km. cbn [bind]. rewrite Kg. cbn [bind]. rewrite Kdi. cbn [bind]. rewrite N1. cbn [bind]. rewrite N2. cbn [bind]. rewrite N3. cbn [bind].
  rewrite N4. cbn [bind]. rewrite Kd. cbn [bind]. rewrite Kde. cbn [bind]. rewrite Kr. cbn [bind]. rewrite Kmu. cbn [bind]. rewrite Hh. cbn [bind].
  rewrite K1. cbn [bind]. rewrite K2. cbn [bind]. rewrite K3. cbn [bind]. rewrite K4. cbn [bind]. rewrite K5. cbn [bind]. rewrite K6. cbn [bind].
  eexists. reflexivity.
Qed.

(** a successful reading took every parameter from its own rows *)
Lemma read_entries a df (mp : model_params R) : read_model_params_init a = Ok (df, mp) ->
  (forall c k f, In (c, k, f) single_entries -> entry df c k (f mp)) /\
  (forall c k f i level, In (c, k, f) education_entries -> nth_error education_names i = Some level ->
     exists x, entry df c (k ++ level) x /\ nth_error (f mp) i = Some x) /\
  (assoc_get "shares" df <> None -> assoc_get "hetrg_unobs" df <> None).
Proof.
  unfold read_model_params_init. intros H. apply bind_ok in H. destruct H as (df' & _ & H). apply bind_ok in H.
  destruct H as ((d & ((sd & sh) & nt)) & E & H). apply bind_ok in H. destruct H as (mp' & G & H).
  assert (df' = df) by congruence. assert (mp' = mp) by congruence. subst df' mp'. clear H.
  pose proof (expand_sd _ _ _ _ _ E) as Hsd.
  assert (D : forall c, c <> "hetrg_unobs" -> assoc_get c d = assoc_get c df) by (intros c Hc; exact (expand_other _ _ _ c E Hc)).
  assert (Hhet : assoc_get "shares" df <> None -> assoc_get "hetrg_unobs" df <> None).
  { intros Hs. unfold expand_model_params_dict in E. apply bind_ok in E. destruct E as (r & _ & E). apply bind_ok in E. destruct E as (s & _ & E).
    destruct (assoc_get "shares" df) as [l|]; [|contradiction]. apply bind_ok in E. destruct E as (het & E & _). apply kget_ok in E. congruence. }
  clear E. unfold group_parameters in G.
  repeat (apply bind_ok in G; let x := fresh "x" in let E' := fresh "G" in destruct G as (x & E' & G)).
  assert (Hm : mp = mkParams R x x0 x1 x3 (theta_param x13 "p") (theta_param x13 "f") x5 x6 x7 x8 x14 x15 x16 x17 x18 x19 sd x10 x12 sh) by congruence.
  subst mp. clear G. split; [|split; [|exact Hhet]].
  - intros c k f Hi. unfold single_entries in Hi.
    repeat (destruct Hi as [Hi|Hi]; [injection Hi as <- <- <-;
      first [exact Hsd|eapply entry_of; [apply D; discriminate|eassumption|eassumption]]|]). destruct Hi.
  - assert (Ee : forall c p l i level, educ_param d c p = Ok l -> c <> "hetrg_unobs" ->
      ((p ++ "_") ++ "low")%string = (p ++ "_low")%string -> ((p ++ "_") ++ "middle")%string = (p ++ "_middle")%string -> ((p ++ "_") ++ "high")%string = (p ++ "_high")%string ->
      nth_error education_names i = Some level -> exists x, entry df c ((p ++ "_") ++ level) x /\ nth_error l i = Some x).
    { intros c p l i level He Hc E1 E2 E3 Hl. apply educ_ok in He. destruct He as (rows & a1 & a2 & a3 & A & B1 & B2 & B3 & ->).
      destruct i as [|[|[|i]]]; [..|destruct i; discriminate]; cbn [nth_error education_names] in Hl; assert (El := f_equal (fun o => match o with Some s => s | None => "" end) Hl); cbn in El; subst level; cbn [nth_error].
      + exists a1. split; [|reflexivity]. rewrite E1. eapply entry_of; [apply D, Hc|exact A|exact B1].
      + exists a2. split; [|reflexivity]. rewrite E2. eapply entry_of; [apply D, Hc|exact A|exact B2].
      + exists a3. split; [|reflexivity]. rewrite E3. eapply entry_of; [apply D, Hc|exact A|exact B3]. }
    assert (Ek : forall p l i level, kids_param x4 p = Ok l ->
      ((p ++ "_educ_") ++ "low")%string = (p ++ "_educ_low")%string -> ((p ++ "_educ_") ++ "middle")%string = (p ++ "_educ_middle")%string -> ((p ++ "_educ_") ++ "high")%string = (p ++ "_educ_high")%string ->
      nth_error education_names i = Some level -> exists x, entry df "disutil_work" ((p ++ "_educ_") ++ level) x /\ nth_error l i = Some x).
    { intros p l i level He E1 E2 E3 Hl. apply kids_ok in He. destruct He as (a1 & a2 & a3 & B1 & B2 & B3 & ->).
      destruct i as [|[|[|i]]]; [..|destruct i; discriminate]; cbn [nth_error education_names] in Hl; assert (El := f_equal (fun o => match o with Some s => s | None => "" end) Hl); cbn in El; subst level; cbn [nth_error].
      + exists a1. split; [|reflexivity]. rewrite E1. eapply entry_of; [apply D; discriminate|eassumption|exact B1].
      + exists a2. split; [|reflexivity]. rewrite E2. eapply entry_of; [apply D; discriminate|eassumption|exact B2].
      + exists a3. split; [|reflexivity]. rewrite E3. eapply entry_of; [apply D; discriminate|eassumption|exact B3]. }
    intros c k f i level Hi Hl. unfold education_entries in Hi.
    destruct Hi as [Hi|[Hi|[Hi|[Hi|[Hi|[Hi|[Hi|[]]]]]]]]; injection Hi as <- <- <-; cbn [M_Params.gamma_0 M_Params.gamma_1 M_Params.gamma_p M_Params.no_kids_f M_Params.no_kids_p M_Params.yes_kids_f M_Params.yes_kids_p].
    + exact (Ee "const_wage_eq" "gamma_0" _ i level G0 ltac:(discriminate) eq_refl eq_refl eq_refl Hl).
    + exact (Ee "exp_return" "gamma_1" _ i level G1 ltac:(discriminate) eq_refl eq_refl eq_refl Hl).
    + exact (Ee "exp_increase_p" "gamma_p" _ i level G2 ltac:(discriminate) eq_refl eq_refl eq_refl Hl).
    + eapply (Ek "no_kids_f"); [eassumption|reflexivity|reflexivity|reflexivity|exact Hl].
    + eapply (Ek "no_kids_p"); [eassumption|reflexivity|reflexivity|reflexivity|exact Hl].
    + eapply (Ek "yes_kids_f"); [eassumption|reflexivity|reflexivity|reflexivity|exact Hl].
    + eapply (Ek "yes_kids_p"); [eassumption|reflexivity|reflexivity|reflexivity|exact Hl].
Qed.
