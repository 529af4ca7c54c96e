(** Property theorems C85: every parameter is read from its own rows of the parameter frame. *)
From Coq Require Import Reals Lra Lia ZArith List String Permutation.
From Verif Require Import Base Num M_Params M_Tax M_Spec S_Spec S_Entries L_Num L_Spec L_Params L_Entries X_Example X_Dict.
Import ListNotations.
Local Open Scope string_scope.
Local Open Scope list_scope.
Open Scope R_scope.

(** C85: each parameter is the value of the row of its category and name, each education level
    at its own position. *)
Theorem C85_own_entries :
  forall a df (mp : model_params R), read_model_params_init a = Ok (df, mp) ->
  (forall category name f, In (category, name, f) single_entries -> entry df category name (f mp)) /\
  (forall category name f i level, In (category, name, f) education_entries -> nth_error education_names i = Some level ->
     exists x, entry df category (name ++ level) x /\ nth_error (f mp) i = Some x).
Proof. intros a df mp H. destruct (read_entries a df mp H) as (H1 & H2 & _). split; assumption. Qed.
Print Assumptions C85_own_entries.

(** The parameters are read, from a data frame or from a file, if and only if all these rows are
    there. *)
Theorem C85_complete :
  forall df, ((exists mp : model_params R, read_model_params_init (ParamsFrame df) = Ok (df, mp)) <-> complete_frame df) /\
  @read_model_params_init R _ (ParamsPath df) = read_model_params_init (ParamsFrame df).
Proof.
  intros df. split; [|reflexivity]. split; [|apply complete_ok].
  intros (mp & H). destruct (read_entries _ df mp H) as (H1 & H2 & H3). split; [|split; [|exact H3]].
  - intros c k f Hi. eexists. apply (H1 c k f Hi).
  - intros c k f level Hi Hl. apply In_nth_error in Hl. destruct Hl as (i & Hl). destruct (H2 c k f i level Hi Hl) as (x & Hx & _). exists x. exact Hx.
Qed.
Print Assumptions C85_complete.

(** The types are counted twice, once for the parameters and once for the specification: the
    parameters have as many shares as they report types, one more than there are rows of category
    shares whose name contains "share". *)
Theorem C85_types_counted :
  forall (df d : params_dict R) sd shares n, expand_model_params_dict df = Ok (d, (sd, shares, n)) ->
  n = Z.of_nat (List.length shares) /\
  n = match assoc_get "shares" df with
      | None => 1%Z
      | Some rows => (1 + Z.of_nat (List.length (filter (fun r => str_contains "share" (fst r)) rows)))%Z
      end /\
  fold_right Rplus 0 shares = 1.
Proof.
  intros df d sd shares n H. unfold expand_model_params_dict in H. apply bind_ok in H. destruct H as (r & _ & H). apply bind_ok in H. destruct H as (s & _ & H).
  destruct (assoc_get "shares" df) as [rows|]; apply bind_ok in H; destruct H as (het & _ & H).
  - set (l := map snd (filter (fun kv => str_contains "share" (fst kv)) rows)) in *.
    assert (E1 : shares = (#1 - nsum l)%num :: l) by congruence. assert (E2 : n = (zlen l + 1)%Z) by congruence. subst shares n.
    split; [cbn [List.length]; unfold zlen; lia|]. split; [unfold zlen, l; rewrite map_length; lia|]. cbn [fold_right].
    rewrite nsum_R. replace (fold_right Rplus 0 l) with (Rsum l) by (clear; induction l as [|x l IH]; [reflexivity|cbn [Rsum fold_right]; rewrite IH; reflexivity]). rn. ring.
  - assert (E1 : shares = [(#1)%num]) by congruence. assert (E2 : n = 1%Z) by congruence. subst shares n. split; [reflexivity|]. split; [reflexivity|]. cbn [fold_right]. rn. ring.
Qed.
Print Assumptions C85_types_counted.

(** The order of the rows does not matter, except for the shares of the types ... *)
Theorem C85_order :
  forall df df' (mp : model_params R), same_rows df df' -> assoc_get "shares" df' = assoc_get "shares" df ->
  read_model_params_init (ParamsFrame df) = Ok (df, mp) -> read_model_params_init (ParamsFrame df') = Ok (df', mp).
Proof.
  intros df df' mp H Hs Hr. unfold read_model_params_init in *. cbn [bind] in *. apply bind_ok in Hr. destruct Hr as ((d & der) & E & Hr).
  destruct (expand_same df df' d der H Hs E) as (d' & -> & Hd). cbn [bind]. apply bind_ok in Hr. destruct Hr as (mp' & G & Hr).
  rewrite (group_same d d' der mp' Hd G). cbn [bind]. congruence.
Qed.
Print Assumptions C85_order.

(** ... whose names are not looked at: with the row of share_2 before that of share_1, the shares
    of types 1 and 2 are exchanged while their preferences are not. *)
Definition shares_given (l : list (string * R)) : params_dict R :=
  assoc_set "shares" l (ex_types 2 (fun i => INR i / 4) (fun i => - INR i) (fun i => - INR i)).

Theorem C85_share_order_refuted :
  exists df df' (mp mp' : model_params R), same_rows df df' /\
  read_model_params_init (ParamsFrame df) = Ok (df, mp) /\ read_model_params_init (ParamsFrame df') = Ok (df', mp') /\
  entry df "shares" "share_1" (1 / 4) /\ entry df' "shares" "share_1" (1 / 4) /\
  nth_error (type_shares mp) 1 = Some (1 / 4) /\ nth_error (type_shares mp') 1 = Some (1 / 2) /\
  theta_p mp' = theta_p mp /\ theta_f mp' = theta_f mp.
Proof.
  exists (shares_given [("share_1", 1 / 4); ("share_2", 1 / 2)]), (shares_given [("share_2", 1 / 2); ("share_1", 1 / 4)]).
  eexists. eexists. split.
  - apply set_same; [|apply perm_swap|].
    + intros c. destruct (assoc_get c _) as [rows|] eqn:E; [|exact I]. split; [reflexivity|].
      apply get_in in E. unfold ex_types in E. cbn [In] in E.
      repeat (destruct E as [E|E]; [injection E as <- <-; cbn; repeat constructor; cbn; intuition discriminate|]). destruct E.
    + repeat constructor; cbn; intuition discriminate.
  - split; [reflexivity|]. split; [reflexivity|]. split; [eexists; split; reflexivity|]. split; [eexists; split; reflexivity|].
    split; [reflexivity|]. split; [reflexivity|]. split; reflexivity.
Qed.
Print Assumptions C85_share_order_refuted.

(** A frame that is read, and the same rows in the reverse order of categories. *)
Example C85_case : forall n share p f, complete_frame (ex_types n share p f) /\
  exists mp, read_model_params_init (ParamsFrame (ex_types n share p f)) = Ok (ex_types n share p f, mp) /\
    nth_error (no_kids_p mp) 1 = Some (1 / 2) /\ nth_error (gamma_1 mp) 2 = Some (2 / 10) /\
    read_model_params_init (ParamsFrame (rev (ex_types n share p f))) = Ok (rev (ex_types n share p f), mp).
Proof.
  intros n share p f. split.
  - apply C85_complete. destruct (ex_types_read n share p f) as (mp & E). exists mp. exact E.
  - eexists. split; [reflexivity|]. split; [reflexivity|]. split; [reflexivity|]. reflexivity.
Qed.
