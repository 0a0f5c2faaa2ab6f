(** Vocabulary for the Variable properties, independent of the model's loops. *)
From Verif Require Import Common.

(** [x] lies between [a] and [b], in either order. *)
Definition QBetween (a b x : Q) : Prop := (a <= x <= b)%Q \/ (b <= x <= a)%Q.

(** [x] is the first element of [l] with property [P]. *)
Definition FirstWith {A} (P : A -> Prop) (l : list A) (x : A) : Prop :=
  exists pre post, l = pre ++ x :: post /\ P x /\ forall y, In y pre -> ~ P y.
Definition NoneWith {A} (P : A -> Prop) (l : list A) : Prop :=
  forall y, In y l -> ~ P y.

(** [v] is what the history last stored under [k]. *)
Definition LatestStore {K V} (h : list (K * V)) (k : K) (v : V) : Prop :=
  exists h1 h2, h = h1 ++ (k, v) :: h2 /\ ~ In k (map fst h2).
