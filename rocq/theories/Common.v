(** Shared vocabulary of the models: Python exceptions as values, Python
    style indexing, and the numpy search primitives the code relies on.
    Nothing here is specific to one source file; where a numpy routine is
    transcribed, the comment says which. *)
From Coq Require Export List Arith ZArith QArith Bool Lia.
From Coq Require Import Lqa.
Export ListNotations.
Open Scope nat_scope.

(** Exceptions raised by the modelled code. *)
Inductive err : Type :=
| ValueError | TypeError | IndexError | AttributeError | KeyError
| OutOfTimeRangeError | TimeSeriesError | UnboundLocalError
| NotImplementedError | ZeroDivision | AssertionError | FuelExhausted
| RuntimeError | NameError.

Inductive result (A : Type) : Type :=
| Ok : A -> result A
| Err : err -> result A.
Arguments Ok {A} _.
Arguments Err {A} _.

Definition bind {A B} (r : result A) (k : A -> result B) : result B :=
  match r with Ok a => k a | Err e => Err e end.
Notation "'do' x <- r ; k" := (bind r (fun x => k))
  (at level 200, x name, r at level 100, k at level 200).

Definition is_ok {A} (r : result A) : bool :=
  match r with Ok _ => true | Err _ => false end.

(** Python sequence indexing: [-1] is the last element; out of range raises
    IndexError. *)
Definition py_index (n : nat) (i : Z) : option nat :=
  if (0 <=? i)%Z then
    if (i <? Z.of_nat n)%Z then Some (Z.to_nat i) else None
  else
    if (0 <=? i + Z.of_nat n)%Z then Some (Z.to_nat (i + Z.of_nat n)) else None.

Definition py_get {A} (l : list A) (i : Z) : result A :=
  match py_index (length l) i with
  | Some k => match nth_error l k with Some a => Ok a | None => Err IndexError end
  | None => Err IndexError
  end.

Section Search.
  Context {A B : Type}.
  (** numpy's binary search (npy_binsearch): on the half-open index range
      [lo, hi) narrow while non-empty; [p x] says "x lies before the insertion
      point".  [np.searchsorted(a, v, side='left')] uses [p x := x < v] and
      side='right' uses [p x := x <= v].  The fuel is the length of the
      range; out of fuel cannot happen (the range at least halves). *)
  Fixpoint bsearch (p : A -> bool) (a : list A) (fuel lo hi : nat) : nat :=
    match fuel with
    | O => lo
    | S f =>
        if lo <? hi then
          let mid := lo + (hi - lo) / 2 in
          match nth_error a mid with
          | Some x => if p x then bsearch p a f (S mid) hi
                      else bsearch p a f lo mid
          | None => lo
          end
        else lo
    end.
  Definition searchsorted (p : A -> bool) (a : list A) : nat :=
    bsearch p a (length a) 0 (length a).
End Search.

(** numpy.digitize on rational bins: monotonicity check
    (numpy/lib/_function_base_impl.py, [_monotonicity]): 1 for non-decreasing, -1 for
    non-increasing, otherwise ValueError; decreasing bins are searched
    reversed and the answer inverted.  side is 'left' if right else 'right'. *)
Fixpoint nondecreasingb (l : list Q) : bool :=
  match l with
  | x :: ((y :: _) as r) => Qle_bool x y && nondecreasingb r
  | _ => true
  end.
Fixpoint nonincreasingb (l : list Q) : bool :=
  match l with
  | x :: ((y :: _) as r) => Qle_bool y x && nonincreasingb r
  | _ => true
  end.
Definition Qlt_bool (x y : Q) : bool := negb (Qle_bool y x).

Definition searchsortedQ (right_side : bool) (bins : list Q) (x : Q) : nat :=
  searchsorted (fun b => if right_side then Qle_bool b x else Qlt_bool b x) bins.

Definition digitize (x : Q) (bins : list Q) (right : bool) : result nat :=
  if nondecreasingb bins then Ok (searchsortedQ (negb right) bins x)
  else if nonincreasingb bins then
    Ok (length bins - searchsortedQ (negb right) (rev bins) x)
  else Err ValueError.
