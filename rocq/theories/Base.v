(** Base vocabulary: python exceptions as values, [range], numpy and jax indexing.
    No project code is modelled here; this is the semantics of the host language
    constructs that the modelled functions use. *)
From Coq Require Export ZArith List String Bool Lia.
Export ListNotations.
Open Scope Z_scope.

(** Python exceptions that the modelled code can raise. *)
Inductive error : Type :=
| ValueError (msg : string)
| KeyError (key : string)
| IndexError
| TypeError
| NotImplementedError
| AssertionError
| ZeroDivisionError.

Inductive result (A : Type) : Type :=
| Ok (a : A)
| Err (e : error).
Arguments Ok {A} a.
Arguments Err {A} e.

Definition bind {A B} (r : result A) (f : A -> result B) : result B :=
  match r with Ok a => f a | Err e => Err e end.

Notation "'do' x <- e ; f" := (bind e (fun x => f))
  (at level 200, x pattern, e at level 100, f at level 200, right associativity).

(** Run a computation that may raise for each element, left to right. *)
Fixpoint mapM {A B} (f : A -> result B) (l : list A) : result (list B) :=
  match l with
  | [] => Ok []
  | x :: xs => do y <- f x; do ys <- mapM f xs; Ok (y :: ys)
  end.

(** python [range(lo, hi)] and [range(n)]. *)
Definition range2 (lo hi : Z) : list Z :=
  map (fun k => lo + Z.of_nat k) (seq 0 (Z.to_nat (hi - lo))).
Definition range (n : Z) : list Z := range2 0 n.

Definition zlen {A} (l : list A) : Z := Z.of_nat (List.length l).

(** numpy index normalisation for an axis of length [n]: negative indices count
    from the end, anything else out of range raises IndexError. *)
Definition np_norm (n i : Z) : option Z :=
  if (0 <=? i) && (i <? n) then Some i
  else if (- n <=? i) && (i <? 0) then Some (i + n)
  else None.

(** numpy [a[i]] on the first axis. *)
Definition np_get {A} (l : list A) (i : Z) : result A :=
  match np_norm (zlen l) i with
  | Some j => match nth_error l (Z.to_nat j) with
              | Some a => Ok a
              | None => Err IndexError
              end
  | None => Err IndexError
  end.

(** jax [a[i]] on the first axis: negative indices count from the end, then the
    index is clamped into the array (jax never raises on gathers).  [d] is only
    returned for an array of length 0. *)
Definition jget {A} (d : A) (l : list A) (i : Z) : A :=
  let n := zlen l in
  let j := if i <? 0 then i + n else i in
  nth (Z.to_nat (Z.max 0 (Z.min j (n - 1)))) l d.

(** python [sum]-like left fold over a list of integers. *)
Definition sumZ (l : list Z) : Z := fold_left Z.add l 0.

(** split a list into [k] consecutive chunks of length [n]: numpy
    [reshape(k, n, ...)] on the first axis. *)
Fixpoint chunks {A} (k : nat) (n : nat) (l : list A) : list (list A) :=
  match k with
  | O => []
  | S k' => firstn n l :: chunks k' n (skipn n l)
  end.

(** [zip]/[vmap] over several arrays. *)
Fixpoint map2 {A B C} (f : A -> B -> C) (l : list A) (m : list B) : list C :=
  match l, m with
  | a :: l', b :: m' => f a b :: map2 f l' m'
  | _, _ => []
  end.

Definition assoc_get {A} (k : string) (d : list (string * A)) : option A :=
  match find (fun kv => String.eqb (fst kv) k) d with
  | Some kv => Some (snd kv)
  | None => None
  end.

(** python [d[k] = v]: overwrite in place if present, append otherwise. *)
Fixpoint assoc_set {A} (k : string) (v : A) (d : list (string * A)) : list (string * A) :=
  match d with
  | [] => [(k, v)]
  | (k', v') :: d' =>
      if String.eqb k' k then (k', v) :: d' else (k', v') :: assoc_set k v d'
  end.

Definition assoc_mem {A} (k : string) (d : list (string * A)) : bool :=
  existsb (fun kv => String.eqb (fst kv) k) d.
