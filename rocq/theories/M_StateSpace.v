(** Model of soepy/solve/create_state_space.py, soepy/solve/covariates.py and
    define_child_age_update_rule (soepy/exogenous_processes/children.py). *)
From Verif Require Import Base Num M_Params.

(** *** The six-dimensional integer array [indexer] with numpy semantics *)
Definition key6 : Type := Z * Z * Z * Z * Z * Z.

Record indexer6 := mkIndexer { ix_shape : key6; ix_data : key6 -> Z }.

Definition key6_eqb (a b : key6) : bool :=
  let '(a0, a1, a2, a3, a4, a5) := a in
  let '(b0, b1, b2, b3, b4, b5) := b in
  (a0 =? b0) && (a1 =? b1) && (a2 =? b2) && (a3 =? b3) && (a4 =? b4) && (a5 =? b5).

(** numpy index normalisation on all six axes *)
Definition ix_norm (sh k : key6) : option key6 :=
  let '(s0, s1, s2, s3, s4, s5) := sh in
  let '(k0, k1, k2, k3, k4, k5) := k in
  match np_norm s0 k0, np_norm s1 k1, np_norm s2 k2,
        np_norm s3 k3, np_norm s4 k4, np_norm s5 k5 with
  | Some j0, Some j1, Some j2, Some j3, Some j4, Some j5 => Some (j0, j1, j2, j3, j4, j5)
  | _, _, _, _, _, _ => None
  end.

(** [indexer[k]] *)
Definition ix_get (ix : indexer6) (k : key6) : result Z :=
  match ix_norm (ix_shape ix) k with
  | Some j => Ok (ix_data ix j)
  | None => Err IndexError
  end.

(** [indexer[k] = v] *)
Definition ix_set (ix : indexer6) (k : key6) (v : Z) : result indexer6 :=
  match ix_norm (ix_shape ix) k with
  | Some j => Ok (mkIndexer (ix_shape ix)
                    (fun q => if key6_eqb q j then v else ix_data ix q))
  | None => Err IndexError
  end.

(** [indexer.shape[4]] *)
Definition ix_shape4 (ix : indexer6) : Z :=
  let '(_, _, _, _, s4, _) := ix_shape ix in s4.

(** create_state_space.py:201-208 *)
Definition kid_age_to_index (age_kid kids_ages_len : Z) : Z :=
  if age_kid =? -1 then kids_ages_len - 1 else age_kid.

(** Loop state of create_discrete_state_space: blocks appended so far
    (create_state_space.py:79, 100), the indexer, and the counter i (line 80). *)
Record ss_acc := mkAcc { acc_blocks : list (list row); acc_ix : indexer6; acc_i : Z }.

(** The loop body, create_state_space.py:87-111.  [lagged = arange(3)]; the three
    rows of the block and the three indexer cells are written together. *)
Definition ss_body (n_kids_ages period educ_level type_ partner age_kid : Z)
    (acc : ss_acc) : result ss_acc :=
  let age_idx := kid_age_to_index age_kid n_kids_ages in
  let lagged := range NUM_CHOICES in
  let n := zlen lagged in
  let block := map (fun l => [period; educ_level; l; type_; age_kid; partner]) lagged in
  let ids := range2 (acc_i acc) (acc_i acc + n) in
  do ix <- fold_left
      (fun rix li =>
         do ix <- rix;
         ix_set ix (period, educ_level, fst li, type_, age_idx, partner) (snd li))
      (combine lagged ids) (Ok (acc_ix acc));
  Ok (mkAcc (acc_blocks acc ++ [block]) ix (acc_i acc + n)).

(** python [for x in l: body]: the accumulator may become an exception. *)
Definition for_each {A S} (l : list A) (body : A -> S -> result S) (s : result S) : result S :=
  fold_left (fun rs a => do s <- rs; body a s) l s.

Section Model.
  Context {T : Type} {NT : Num T}.
  Local Open Scope num_scope.

  (** np.full, create_state_space.py:77: an array needs non-negative dimensions *)
  Definition np_full_shape (dims : list Z) : result unit :=
    if existsb (fun n => n <? 0)%Z dims then Err (ValueError "negative dimensions are not allowed") else Ok tt.

  (** create_state_space.py:52-119 *)
  Definition create_discrete_state_space (sp : model_spec T) : result (list row * indexer6) :=
    let kids_ages := range2 (-1) (child_age_max sp + 1)%Z in
    let n_kids_ages := zlen kids_ages in
    let ix0 := mkIndexer
      (num_periods sp, num_educ_levels sp, NUM_CHOICES, num_types sp, n_kids_ages, 2)
      (fun _ => MISSING_INT) in
    do _ <- np_full_shape [num_periods sp; num_educ_levels sp; NUM_CHOICES; num_types sp; n_kids_ages; 2%Z];
    do acc <-
      for_each (range (num_periods sp)) (fun period a0 =>
      for_each (range (num_educ_levels sp)) (fun educ_level a1 =>
      for_each (range (num_types sp)) (fun type_ a2 =>
      for_each (range 2) (fun partner a3 =>
      for_each kids_ages (fun age_kid a4 =>
        ss_body n_kids_ages period educ_level type_ partner age_kid a4)
      (Ok a3)) (Ok a2)) (Ok a1)) (Ok a0)) (Ok (mkAcc [] ix0 0));
    Ok (List.concat (acc_blocks acc), acc_ix acc).

  (** exogenous_processes/children.py:9-18, one state *)
  Definition child_age_update (sp : model_spec T) (state : row) : Z :=
    let has_kid := negb (col AGE_YOUNGEST_CHILD state =? -1)%Z in
    let upd := (if has_kid then col AGE_YOUNGEST_CHILD state + 1 else -1)%Z in
    if (child_age_max sp <? upd)%Z then (-1)%Z else upd.

  Definition define_child_age_update_rule (sp : model_spec T) (states : list row) : list Z :=
    map (child_age_update sp) states.

  (** create_state_space.py:122-198.  One entry of the output has shape
      (NUM_CHOICES, 2, 2): [choice][child arrives][partner next]. *)
  Definition missing_block : list (list (list Z)) :=
    map (fun _ => [[MISSING_INT; MISSING_INT]; [MISSING_INT; MISSING_INT]]) (range NUM_CHOICES).

  Definition child_indexes_row (sp : model_spec T) (indexer : indexer6)
      (child_age_update_rule : list Z) (state : row) : result (list (list (list Z))) :=
    let period := col PERIOD state in
    let educ := col EDUC_LEVEL state in
    let type_ := col TYPE state in
    let age_kid_val := col AGE_YOUNGEST_CHILD state in
    let n_kid_ages := ix_shape4 indexer in
    let age_idx := (if age_kid_val =? -1 then n_kid_ages - 1 else age_kid_val)%Z in
    if (period <? num_periods sp - 1)%Z then
      let next_period := (period + 1)%Z in
      do k_parent <- ix_get indexer (period, educ, col LAGGED_CHOICE state, type_, age_idx,
                                     col PARTNER state);
      do update_rule <- np_get child_age_update_rule k_parent;
      mapM (fun choice =>
        do i00 <- ix_get indexer (next_period, educ, choice, type_, update_rule, 0%Z);
        do i01 <- ix_get indexer (next_period, educ, choice, type_, update_rule, 1%Z);
        do i10 <- ix_get indexer (next_period, educ, choice, type_, 0%Z, 0%Z);
        do i11 <- ix_get indexer (next_period, educ, choice, type_, 0%Z, 1%Z);
        Ok [[i00; i01]; [i10; i11]]) (range NUM_CHOICES)
    else Ok missing_block.

  Definition create_child_indexes (states : list row) (indexer : indexer6)
      (sp : model_spec T) (child_age_update_rule : list Z)
      : result (list (list (list (list Z)))) :=
    mapM (child_indexes_row sp indexer child_age_update_rule) states.

  (** *** covariates.py *)

  (** pd.cut (right-closed bins) on integer data: the label of the bin (e_k, e_{k+1}]
      containing x; None is NaN. *)
  Fixpoint pd_cut (bins : list Z) (label : Z) (x : Z) : option Z :=
    match bins with
    | lo :: ((hi :: _) as rest) =>
        if ((lo <? x) && (x <=? hi))%Z then Some label else pd_cut rest (label + 1)%Z x
    | _ => None
    end.

  (** covariates.py:45-52; None is NaN (the assert at line 51). *)
  Definition create_equivalence_scale (no_child married : bool) : option T :=
    let e := if no_child && negb married then Some #1 else None in
    let e := if no_child && married then Some (nlit 15 10) else e in
    let e := if negb no_child && married then Some (nlit 18 10) else e in
    let e := if negb no_child && negb married then Some (nlit 13 10) else e in
    e.

  (** A covariate row: columns child bin, male wage, equivalence scale, child
      benefits (covariates.py:41).  The bin is kept as an integer. *)
  Record cov := mkCov { cov_bin : Z; cov_male_wage : T; cov_equiv : T; cov_child_ben : T }.

  (** covariates.py:11-42 for one row.  A NaN bin is reported as an error here
      (numpy would carry the NaN along); L_StateSpace proves it cannot occur. *)
  Definition construct_covariates_row (sp : model_spec T) (state : row) : result cov :=
    let married := (col PARTNER state =? 1)%Z in
    let no_child := (col AGE_YOUNGEST_CHILD state =? -1)%Z in
    let last_edge := Z.max (child_age_max sp) 11 in
    let bins := pd_cut [-2; -1; 2; 5; 10; last_edge]%Z 0 (col AGE_YOUNGEST_CHILD state) in
    let log_wages :=
      partner_cf_const sp
      + partner_cf_age sp * #(col PERIOD state)
      + partner_cf_age_sq sp * nsq #(col PERIOD state)
      + partner_cf_educ sp * #(col EDUC_LEVEL state) in
    let male_wages := if married then nexp log_wages * hours_of 2 else #0 in
    let child_benefits_ := if no_child then #0 else child_benefits sp in
    match create_equivalence_scale no_child married, bins with
    | None, _ => Err AssertionError
    | _, None => Err (ValueError "NaN child bin")
    | Some e, Some b => Ok (mkCov b male_wages e child_benefits_)
    end.

  Definition construct_covariates (states : list row) (sp : model_spec T) : result (list cov) :=
    mapM (construct_covariates_row sp) states.

  (** create_state_space.py:16-49 *)
  Record state_space := mkSS {
    ss_states : list row; ss_indexer : indexer6; ss_covariates : list cov;
    ss_child_age_update_rule : list Z; ss_child_state_indexes : list (list (list (list Z)))
  }.

  Definition create_state_space_objects (sp : model_spec T) : result state_space :=
    do (states, indexer) <- create_discrete_state_space sp;
    do covariates <- construct_covariates states sp;
    let rule := define_child_age_update_rule sp states in
    do child_state_indexes <- create_child_indexes states indexer sp rule;
    Ok (mkSS states indexer covariates rule child_state_indexes).
End Model.
Arguments cov T : clear implicits.
Arguments mkCov {T}.
Arguments state_space T : clear implicits.
