(** What the Time properties mean, without any of the model's helpers. *)
From Verif Require Import Common.
Open Scope Z_scope.

(** Every earlier entry is strictly before every later one. *)
Definition StrictlyIncreasing (l : list Z) : Prop :=
  forall i j x y, (i < j)%nat ->
    nth_error l i = Some x -> nth_error l j = Some y -> x < y.

(** [n] entries are before [q], and they are the first [n]. *)
Definition EarlierCount (l : list Z) (q : Z) (n : nat) : Prop :=
  (n <= length l)%nat /\
  (forall i x, (i < n)%nat -> nth_error l i = Some x -> x < q) /\
  (forall i x, (n <= i)%nat -> nth_error l i = Some x -> q <= x).

(** [q] is between the first and the last entry. *)
Definition InRange (l : list Z) (q : Z) : Prop :=
  exists a b, nth_error l 0 = Some a /\ nth_error l (length l - 1) = Some b /\
              a <= q <= b.

(** All entries moved by the same amount. *)
Definition MovedBy (k : Z) (before after : list Z) : Prop :=
  length after = length before /\
  forall i x, nth_error before i = Some x -> nth_error after i = Some (x + k).

(** Fractional position of a query on the axis, from an index and an alpha:
    the first entry is position 0, entry [k] is position [k]. *)
Definition position (i : nat) (alpha : Q) : Q :=
  match i with
  | O => 0
  | S k => inject_Z (Z.of_nat k) + alpha
  end.

(** The move requested by the constructor arguments. *)
Definition requested_move (data : list Z) (tz new_tz origin disp : option Z) : Z :=
  (match origin, data with Some o, first :: _ => o - first | _, _ => 0 end) +
  (match tz, new_tz with Some o, Some n => n - o | _, _ => 0 end) +
  (match disp with Some d => d | None => 0 end).

(** First displacement of a history, if any. *)
Fixpoint first_some (h : list (option Z)) : option Z :=
  match h with
  | [] => None
  | Some d :: _ => Some d
  | None :: h' => first_some h'
  end.

(** Total move caused by relabelling through a history of offsets: only a
    change between two known offsets moves the clock readings. *)
Fixpoint relabel_move (cur : option Z) (h : list (option Z)) : Z :=
  match h with
  | [] => 0
  | o :: h' =>
      (match cur, o with Some a, Some b => b - a | _, _ => 0 end)
      + relabel_move o h'
  end.
