(** What the rectangular-grid properties mean. *)
From Coq Require Import String.
From Verif Require Import Common VariableModel DepthSpec.
Open Scope Q_scope.

(** Cell [i] of the axis holds [p]: half-open, closed at the entry listed
    first for an ascending axis and at the one listed last for a descending one. *)
Definition InCell (axis : list Q) (p : Q) (i : nat) : Prop :=
  exists a b, nth_error axis i = Some a /\ nth_error axis (S i) = Some b /\
    ((Ascending axis /\ a <= p < b) \/ (Descending axis /\ b <= p < a)).
Definition OnAxis (axis : list Q) (p : Q) : Prop := exists i, InCell axis p i.

(** [p] is the weighted mean of two neighbouring entries. *)
Definition Neighbours (axis : list Q) (p : Q) (i j : nat) (wi wj : Q) : Prop :=
  exists x y, nth_error axis i = Some x /\ nth_error axis j = Some y /\ (i = S j \/ j = S i) /\
    0 <= wi /\ 0 <= wj /\ wi + wj == 1 /\ p == wi * x + wj * y.
(** [p] between the ends of the axis, both included. *)
Definition Spans (axis : list Q) (p : Q) : Prop :=
  exists a b, First axis a /\ Last axis b /\ (a <= p <= b \/ b <= p <= a).

(** Entry (i, j) of a table of numbers. *)
Definition At (vals : list (list cell)) (i j : nat) (q : Q) : Prop :=
  exists r, nth_error vals i = Some r /\ nth_error r j = Some (CVal q).
Definition Table (vals : list (list cell)) (ny nx : nat) : Prop :=
  length vals = ny /\ Forall (fun r => length r = nx /\ Forall (fun c => exists q, c = CVal q) r) vals.

(** [q] interpolates the table at (py, px) in the cell around it. *)
Definition BilinearAt (y x : list Q) (vals : list (list cell)) (py px q : Q) : Prop :=
  exists i i' u u' j j' v v' a b c d,
    Neighbours y py i i' u u' /\ Neighbours x px j j' v v' /\
    At vals i j a /\ At vals i j' b /\ At vals i' j c /\ At vals i' j' d /\
    q == u * v * a + u * v' * b + u' * v * c + u' * v' * d.
