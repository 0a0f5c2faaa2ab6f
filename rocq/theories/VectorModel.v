(** Model of gridded/pysgrid/processing_2d.py and of the averaging of cell data to
    the nodes in gridded/depth.py:511-545.
    Entries are exact reals (rotation) or rationals (averages) in place of binary64;
    [None] is a masked entry.  Arrays to be combined have the same shape, as the
    docstring demands; broadcasting is not modelled. *)
From Coq Require Import Reals.
From Verif Require Import Common SGridModel.

Definition entry := option R.
Definition op1 (f : R -> R) (a : entry) : entry := match a with Some x => Some (f x) | None => None end.
Definition op2 {A} (f : A -> A -> A) (a b : option A) : option A :=
  match a, b with Some x, Some y => Some (f x y) | _, _ => None end.

(** processing_2d.py:11-24, one entry.  ma.sqrt masks negative arguments; a sum of
    squares is never negative. *)
Definition sq (a : entry) : entry := op1 (fun x => (x * x)%R) a.
Definition vector_sum (x y : entry) : entry := op1 sqrt (op2 Rplus (sq x) (sq y)).
(** processing_2d.py:27-47, one entry. *)
Definition rotate_vectors (x y angle : entry) : entry * entry :=
  (op2 Rminus (op2 Rmult x (op1 cos angle)) (op2 Rmult y (op1 sin angle)),
   op2 Rplus (op2 Rmult x (op1 sin angle)) (op2 Rmult y (op1 cos angle))).

(** processing_2d.py:50-75 on a two-dimensional array. *)
Definition transpose {A} (a : arr A) : arr A := mkArr (a_c a) (a_r a) (fun i j => a_at a j i).
Definition half_sum (a b : option Q) : option Q :=
  match op2 Qplus a b with Some s => Some ((1 # 2) * s)%Q | None => None end.
Definition avg_to_cell_center (a : arr (option Q)) (avg_dim : Z) : arr (option Q) :=
  let da := if (avg_dim =? 0)%Z then transpose a else a in
  let low := slice2 da ((None, None), (Some 1%Z, None)) in
  let high := slice2 da ((None, None), (None, Some (-1)%Z)) in
  let raw := mkArr (a_r low) (a_c low) (fun i j => half_sum (a_at low i j) (a_at high i j)) in
  if (avg_dim =? 0)%Z then transpose raw else raw.

(** depth.py:519-520 (and 543-544 for each time): cell data to nodes. *)
Definition mean2 (a b : option Q) : option Q :=
  match op2 Qplus a b with Some s => Some (s / 2)%Q | None => None end.
Definition zip_with (f : option Q -> option Q -> option Q) (a b : arr (option Q)) : arr (option Q) :=
  mkArr (a_r a) (a_c a) (fun i j => f (a_at a i j) (a_at b i j)).
Definition to_nodes (a : arr (option Q)) : arr (option Q) :=
  let h := zip_with mean2 (slice2 a ((Some 0%Z, Some (-1)%Z), (None, None)))
                          (slice2 a ((Some 1%Z, None), (None, None))) in
  zip_with mean2 (slice2 h ((None, None), (Some 0%Z, Some (-1)%Z))) (slice2 h ((None, None), (Some 1%Z, None))).

(** depth.py:513-527: which bathymetry is used, given what infer_location answers for
    the variable ([None]: ['node' in None] raises TypeError).  The answers are
    strings in which "node" occurs only for node data. *)
Definition node_bathymetry (loc : option sloc) (a : arr (option Q)) : result (arr (option Q)) :=
  match loc with
  | None => Err TypeError
  | Some SNode => Ok a
  | Some _ => Ok (to_nodes a)
  end.
