(** What the depth properties mean. *)
From Verif Require Import Common.
Open Scope Q_scope.

(** Levels listed from the surface down, or from the bottom up. *)
Definition Ascending (l : list Q) : Prop :=
  forall i j x y, (i < j)%nat -> nth_error l i = Some x -> nth_error l j = Some y -> x < y.
Definition Descending (l : list Q) : Prop :=
  forall i j x y, (i < j)%nat -> nth_error l i = Some x -> nth_error l j = Some y -> y < x.
Definition Monotone (l : list Q) : Prop := Ascending l \/ Descending l.

(** Depth [d] lies in the interval from entry [i] to entry [i+1], at fraction
    [a] of the way. *)
Definition Bracketed (l : list Q) (d : Q) (i : nat) (a : Q) : Prop :=
  exists x y, nth_error l i = Some x /\ nth_error l (S i) = Some y /\
              0 <= a <= 1 /\ d == x + a * (y - x).

Definition First (l : list Q) (x : Q) : Prop := nth_error l 0 = Some x.
Definition Last (l : list Q) (x : Q) : Prop := nth_error l (length l - 1) = Some x.
