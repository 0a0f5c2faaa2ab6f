(** What the point-layout properties mean. *)
From Verif Require Import Common PointsModel.

(** [ix] is an index of an array of shape [s]. *)
Definition InRange (s ix : list nat) : Prop := Forall2 (fun d i => (i < d)%nat) s ix.
(** The same array: shape and all entries. *)
Definition Same {V} (a b : nd V) : Prop :=
  n_shape a = n_shape b /\ forall ix, InRange (n_shape a) ix -> n_at a ix = n_at b ix.
(** One row per point: [N] points of [K] coordinates, entry (i, j) is coordinate
    [j] of point [i]. *)
Definition Rows {V} (a : nd V) (N K : nat) (pt : nat -> nat -> V) : Prop :=
  n_shape a = [N; K] /\ forall i j, (i < N)%nat -> (j < K)%nat -> n_at a [i; j] = pt i j.
(** One column per point. *)
Definition Columns {V} (a : nd V) (N K : nat) (pt : nat -> nat -> V) : Prop :=
  n_shape a = [K; N] /\ forall i j, (i < N)%nat -> (j < K)%nat -> n_at a [j; i] = pt i j.
Definition Coords (K : nat) : Prop := K = 2%nat \/ K = 3%nat.
(** A single point in any layout with extra dimensions of length 1. *)
Definition OnePoint {V} (a : nd V) (K : nat) (c : nat -> V) : Prop :=
  exists pre post, n_shape a = repeat 1%nat pre ++ K :: repeat 1%nat post /\
    forall j, (j < K)%nat -> n_at a (repeat 0%nat pre ++ j :: repeat 0%nat post) = c j.
