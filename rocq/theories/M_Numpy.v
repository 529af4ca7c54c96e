(** Model of the generator behind [np.random.seed], [np.random.choice],
    [np.random.binomial] and [np.random.normal] as soepy calls them
    (simulate/initial_states.py:22-82, simulate/simulate_auxiliary.py:41, 262-291,
    shared/numerical_integration.py:27-39).  numpy is not project code and its sources are
    not in the repository; the functions of numpy that are transcribed are named at each
    definition.  The transcription is tested against the project's regression vault
    (tools/vault.py runs the extracted model with this generator).

    M_Exog.v treats the generator as an abstract state machine and S_Rng.v states what is
    assumed about it; this file removes that assumption. *)
From Verif Require Import Base Num M_Exog.
From Coq Require Import ZArith List.
Import ListNotations.

(** ** The Mersenne twister (numpy/random/src/mt19937) *)

(** 32-bit words *)
Definition w32 (x : Z) : Z := Z.land x 4294967295.

(** [mt19937_seed]: the [n] words that follow [x] at positions [i], [i + 1], ... *)
Fixpoint mt_fill (n : nat) (i : Z) (x : Z) : list Z :=
  match n with
  | O => []
  | S n' => let y := w32 (1812433253 * (Z.lxor x (Z.shiftr x 30)) + i) in y :: mt_fill n' (i + 1) y
  end.
Definition mt_seed (s : Z) : list Z := w32 s :: mt_fill 623 1 (w32 s).

(** [mt19937_gen] word by word.  numpy overwrites the 624 words in place every 624 calls;
    the words come out in the same order when a window of 624 words slides over the
    sequence. *)
Definition mt_twist (w : list Z) : Z :=
  let y := Z.lor (Z.land (nth 0 w 0) 2147483648) (Z.land (nth 1 w 0) 2147483647) in
  Z.lxor (nth 397 w 0) (Z.lxor (Z.shiftr y 1) (if Z.odd y then 2567483615 else 0)).
Definition mt_temper (y : Z) : Z :=
  let y := Z.lxor y (Z.shiftr y 11) in
  let y := Z.lxor y (Z.land (Z.shiftl y 7) 2636928640) in
  let y := Z.lxor y (Z.land (Z.shiftl y 15) 4022730752) in
  w32 (Z.lxor y (Z.shiftr y 18)).
(** [mt19937_next] *)
Definition mt_next (w : list Z) : Z * list Z :=
  let x := mt_twist w in (mt_temper x, tl w ++ [x]).

Section Model.
  Context {T : Type} {NT : Num T}.
  Local Open Scope num_scope.

  (** A source of uniform numbers: what [choice], [binomial] and [normal] draw from. *)
  Record random_source := mkSource {
    src_state : Type;
    src_seed : Z -> src_state;
    src_next : src_state -> T * src_state
  }.

  (** [mt19937_next_double]: 53 random bits over 2^53 *)
  Definition mt_double (w : list Z) : T * list Z :=
    let (a, w) := mt_next w in
    let (b, w) := mt_next w in
    ((#(Z.shiftr a 5) * #67108864 + #(Z.shiftr b 6)) / #9007199254740992, w).
  Definition mt_source : random_source := {| src_state := list Z; src_seed := mt_seed; src_next := mt_double |}.

  (** ** The distributions *)
  Section Distributions.
    Context (src : random_source) (tsqrt : T -> T).

    (** [random_sample(n)] *)
    Fixpoint uniforms (n : nat) (g : src_state src) : list T * src_state src :=
      match n with
      | O => ([], g)
      | S n' => let (u, g) := src_next src g in let (l, g) := uniforms n' g in (u :: l, g)
      end.

    (** mtrand.pyx [kahan_sum] *)
    Definition kahan_sum (p : list T) : T :=
      match p with
      | [] => #0
      | x :: xs => fst (fold_left (fun '(sum, c) x =>
                     let y := x - c in let t := sum + y in (t, (t - sum) - y)) xs (x, #0))
      end.

    (** [p.cumsum()] *)
    Fixpoint cumsum_from (a : T) (p : list T) : list T :=
      match p with [] => [] | x :: xs => (a + x) :: cumsum_from (a + x) xs end.
    Definition cumsum (p : list T) : list T :=
      match p with [] => [] | x :: xs => x :: cumsum_from x xs end.

    (** [cdf.searchsorted(u, side="right")]: the number of entries before the first one
        that exceeds [u] (the entries are sorted) *)
    Fixpoint searchsorted_right (c : list T) (u : T) : Z :=
      match c with
      | [] => 0
      | x :: xs => if u <? x then 0 else 1 + searchsorted_right xs u
      end.

    (** mtrand.pyx [choice(a, size, replace=True, p)] *)
    Definition np_choice (g : src_state src) (vals : list Z) (n : nat) (p : list T)
        : result (list Z * src_state src) :=
      if (zlen vals =? 0)%Z && negb (Nat.eqb n 0)
        then Err (ValueError "'a' cannot be empty unless no samples are taken")
      else if negb (zlen p =? zlen vals)%Z then Err (ValueError "'a' and 'p' must have same size")
      else if existsb (fun x => x <? #0) p then Err (ValueError "probabilities are not non-negative")
      else if nlit 1 67108864 <? nabs (kahan_sum p - #1)
        then Err (ValueError "probabilities do not sum to 1")
      else
        let cdf := cumsum p in
        let cdf := map (fun c => c / last cdf #0) cdf in
        let (us, g) := uniforms n g in
        do idx <- mapM (fun u => np_get vals (searchsorted_right cdf u)) us;
        Ok (idx, g).

    (** src/distributions/distributions.c [random_binomial_inversion] with n = 1.  The
        rejection loop is bounded by [fuel]. *)
    Definition inv_bound (p : T) : Z :=
      let q := #1 - p in
      let x := p + #10 * tsqrt (p * q + #1) in
      ntrunc (if #1 <? x then #1 else x).
    Fixpoint inv_loop (fuel : nat) (p : T) (X : Z) (U px : T) (g : src_state src)
        : result (Z * src_state src) :=
      let q := #1 - p in
      if px <? U then
        match fuel with
        | O => Err AssertionError
        | S fuel' =>
            let X := (X + 1)%Z in
            if (inv_bound p <? X)%Z
            then let (U, g) := src_next src g in
                 inv_loop fuel' p 0 U (nexp (#1 * nln q)) g
            else inv_loop fuel' p X (U - px) ((#(1 - X + 1) * p * px) / (#X * q)) g
        end
      else Ok (X, g).
    Definition inversion_fuel : nat := 64.
    Definition random_binomial_inversion (p : T) (g : src_state src) : result (Z * src_state src) :=
      let q := #1 - p in
      let (U, g) := src_next src g in
      inv_loop inversion_fuel p 0 U (nexp (#1 * nln q)) g.

    (** distributions.c [random_binomial] with n = 1 (so that p * n <= 30 in both branches) *)
    Definition random_binomial (p : T) (g : src_state src) : result (Z * src_state src) :=
      if (p <=? #0) && (#0 <=? p) then Ok (0%Z, g)
      else if p <=? nlit 1 2 then random_binomial_inversion p g
      else do r <- random_binomial_inversion (#1 - p) g;
           Ok ((1 - fst r)%Z, snd r).

    (** mtrand.pyx [binomial(n=1, p)], one outcome per probability, left to right *)
    Fixpoint binomials (g : src_state src) (ps : list T) : result (list Z * src_state src) :=
      match ps with
      | [] => Ok ([], g)
      | p :: ps =>
          do r <- random_binomial p g;
          do rs <- binomials (snd r) ps;
          Ok (fst r :: fst rs, snd rs)
      end.
    Definition np_binomial (g : src_state src) (ps : list T) : result (list Z * src_state src) :=
      if existsb (fun p => negb ((#0 <=? p) && (p <=? #1))) ps
      then Err (ValueError "p < 0, p > 1 or p contains NaNs")
      else binomials g ps.

    (** legacy-distributions.c [legacy_gauss]: a pair of numbers at a time, the second one
        is kept.  The rejection loop is bounded by [fuel]; 0 is returned when it runs out. *)
    Fixpoint gauss_pair (fuel : nat) (g : src_state src) : (T * T) * src_state src :=
      match fuel with
      | O => ((#0, #0), g)
      | S fuel' =>
          let (u1, g) := src_next src g in
          let x1 := #2 * u1 - #1 in
          let (u2, g) := src_next src g in
          let x2 := #2 * u2 - #1 in
          let r2 := x1 * x1 + x2 * x2 in
          if (#1 <=? r2) || ((r2 <=? #0) && (#0 <=? r2)) then gauss_pair fuel' g
          else let f := tsqrt (nneg #2 * nln r2 / r2) in ((f * x2, f * x1), g)
      end.
    Definition gauss_fuel : nat := 256.

    (** the state of the generator: the source and the number kept by [legacy_gauss] *)
    Definition np_state : Type := src_state src * option T.

    Definition legacy_gauss (g : np_state) : T * np_state :=
      match g with
      | (s, Some x) => (x, (s, None))
      | (s, None) => let '((x, y), s) := gauss_pair gauss_fuel s in (x, (s, Some y))
      end.

    (** mtrand.pyx [normal(0, 1, (rows, columns))], filled row by row *)
    Fixpoint gausses (n : nat) (g : np_state) : list T * np_state :=
      match n with
      | O => ([], g)
      | S n' => let (x, g) := legacy_gauss g in let (l, g) := gausses n' g in
                (#0 + #1 * x :: l, g)
      end.
    Definition np_normal (g : np_state) (n m : nat) : list (list T) * np_state :=
      let (l, g) := gausses (n * m) g in (chunks n m l, g).

    (** The generator.  [np.random.seed] also forgets the kept normal number
        ([_legacy_seeding], [_reset_gauss]). *)
    Definition numpy_rng : rng T := {|
      rng_state := np_state;
      rng_seed := fun s => (src_seed src s, None);
      rng_choice := fun g vals n p =>
        do r <- np_choice (fst g) vals n p; Ok (fst r, (snd r, snd g));
      rng_binomial := fun g ps =>
        do r <- np_binomial (fst g) ps; Ok (fst r, (snd r, snd g));
      rng_normal := np_normal
    |}.
  End Distributions.
End Model.
Arguments random_source : clear implicits.
