(** Vocabulary of the theorems about nearest points. *)
From Coq Require Import String QArith.
From Verif Require Import Common SGridModel NearModel.
Open Scope nat_scope.

Definition dist2 (p q : Q * Q) : Q :=
  ((fst p - fst q) * (fst p - fst q) + (snd p - snd q) * (snd p - snd q))%Q.
(** A search tree finds a point that no other is closer than. *)
Definition Searches (query : list (Q * Q) -> Q * Q -> nat) : Prop :=
  forall tree p, tree <> [] -> exists q, nth_error tree (query tree p) = Some q /\ forall q', In q' tree -> (dist2 p q <= dist2 p q')%Q.
(** Row and column of a nearest point. *)
Definition NearestAt (a : arr (Q * Q)) (p : Q * Q) (ij : Z * Z) : Prop :=
  exists i j, ij = (Z.of_nat i, Z.of_nat j) /\ i < a_r a /\ j < a_c a /\
    forall i' j', i' < a_r a -> j' < a_c a -> (dist2 p (a_at a i j) <= dist2 p (a_at a i' j'))%Q.
(** An index that fits in 32 bits with room for what is added. *)
Definition Fits (z : Z) : Prop := (0 <= z < 4294967294)%Z.
Definition Within (s : Z * Z) (z : Z) : Prop := (fst s <= z < snd s)%Z.
(** How many points a cell index stands for, in each direction, at a location. *)
Definition Corners (location : string) (e : Z * Z) : Prop :=
  (In location ["edge1"; "u"]%string /\ e = (2, 1)%Z) \/
  (In location ["edge2"; "v"]%string /\ e = (1, 2)%Z) \/
  (In location ["node"; "nodes"; "psi"; "vertex"; "vertices"; "point"; "points"]%string /\ e = (2, 2)%Z) \/
  (In location ["center"; "centers"; "face"; "faces"; "cell"; "cells"]%string /\ e = (1, 1)%Z).
