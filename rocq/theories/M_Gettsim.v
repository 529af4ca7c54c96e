(** Model of the reference tax function the unit tests compare with
    (soepy/test/resources/gettsim_tax_func.py) and of the inputs they give it
    (soepy/test/test_tax_and_transfer.py:25-41).  NaN is [None]. *)
From Coq Require Import String.
From Verif Require Import Base Num M_Params M_Experience M_Tax.

Open Scope string_scope.

Section Model.
  Context {T : Type} {NT : Num T}.
  Local Open Scope num_scope.

  (** thresholds may be -inf and inf *)
  Inductive ext := NegInf | Fin (x : T) | PosInf.
  Definition ext_le (b : ext) (x : T) : bool := match b with NegInf => true | Fin y => y <=? x | PosInf => false end.
  Definition ext_gt (b : ext) (x : T) : bool := match b with NegInf => false | Fin y => x <? y | PosInf => true end.
  Definition ext_lt (b c : ext) : bool :=
    match b, c with
    | NegInf, NegInf => false | NegInf, _ => true
    | Fin x, Fin y => x <? y | Fin _, PosInf => true | Fin _, NegInf => false
    | PosInf, _ => false
    end.

  (** pandas.cut (called at gettsim_tax_func.py:43-49): bin edges have to increase and be
      unique, otherwise ValueError *)
  Fixpoint strictly_up (bins : list ext) : bool :=
    match bins with
    | b :: ((c :: _) as rest) => ext_lt b c && strictly_up rest
    | _ => true
    end.
  (** the label of the bin [lower, upper) that [x] is in, counted from [k]; None outside *)
  Fixpoint bin_of (k : Z) (bins : list ext) (x : T) : option Z :=
    match bins with
    | b :: ((c :: _) as rest) => if ext_le b x && ext_gt c x then Some k else bin_of (k + 1)%Z rest x
    | _ => None
    end.

  (** gettsim_tax_func.py:57-66: 1 <= pol <= degree; increments to the power pol *)
  Fixpoint npow (x : T) (n : nat) : T := match n with O => #1 | S n' => x * npow x n' end.
  Definition add_powers (rates : list (list T)) (k : Z) (increment : T) (out : T) : T :=
    fold_left (fun out pol => out + aget (nth (pol - 1) rates []) k * npow increment pol)
      (seq 1 (List.length rates)) out.

  (** gettsim_tax_func.py:10-71 for one element: [replace] is a lookup of the bin's number;
      in bin 0 the increment is infinite and the value is set to the first intercept *)
  Definition piecewise_value (thresholds : list ext) (rates : list (list T)) (intercepts : list T) (x : T) : option T :=
    match bin_of 0%Z thresholds x with
    | None => None
    | Some k =>
        if (k =? 0)%Z then Some (aget intercepts 0)
        else match nth (Z.to_nat k) thresholds NegInf with
             | Fin t => Some (add_powers rates k (x - t) (aget intercepts k))
             | _ => None
             end
    end.
  Definition piecewise_polynomial (xs : list T) (thresholds : list ext) (rates : list (list T)) (intercepts : list T)
      : result (list (option T)) :=
    match xs with
    | [] => Ok []
    | _ => if strictly_up thresholds then Ok (map (piecewise_value thresholds rates intercepts) xs)
           else Err (ValueError "Bin edges must be unique")
    end.

  (** test_tax_and_transfer.py:29-40 *)
  Definition reference_thresholds (tp : tax_table T) : list ext := NegInf :: map Fin (tx_thresholds tp) ++ [PosInf].
  Definition reference_rates (tp : tax_table T) : list (list T) := [#0 :: tx_linear tp; #0 :: tx_quadratic tp].
  Definition reference_intercepts (tp : tax_table T) : list T := #0 :: tx_intercepts tp.

  (** gettsim_tax_func.py:74-83: (gettsim_tax, taxable_inc); soli_st = 1.05 in the tests *)
  Definition calc_gettsim_sol_individual (thresholds : list ext) (rates : list (list T)) (intercepts : list T)
      (deductions_spec : T * T) (income soli_st : T) : result (option T * T) :=
    let deductions_ssc := calculate_ssc_deductions_py deductions_spec income in
    let taxable_inc := income - deductions_ssc in
    do taxes <- piecewise_polynomial [taxable_inc] thresholds rates intercepts;
    match taxes with
    | [Some tax] => Ok (Some (tax * soli_st), taxable_inc)
    | _ => Ok (None, taxable_inc)
    end.
End Model.
