(** Polygons, their sides, and what lies inside. *)
From Coq Require Import Sorting.
From Verif Require Import Common UGridGeomModel.
Open Scope Q_scope.

(** Positive when [c] lies left of the line from [a] to [b], 0 on it. *)
Definition turn (a b c : pt) : Q :=
  (fst b - fst a) * (snd c - snd a) - (fst c - fst a) * (snd b - snd a).

(** Consecutive vertices, the last one followed by the first. *)
Definition PolySide (poly : list pt) (a b : pt) : Prop :=
  (exists l r, poly = l ++ a :: b :: r) \/ (exists r l, poly = b :: r /\ poly = l ++ [a]).

(** Vertices in convex position, listed counter-clockwise: any three of them, in
    the order of the list, make a left turn. *)
Fixpoint Convex (poly : list pt) : Prop :=
  match poly with
  | [] => True
  | a :: r => ForallOrdPairs (fun b c => 0 < turn a b c) r /\ Convex r
  end.

Definition Inside (p : pt) (poly : list pt) : Prop := forall a b, PolySide poly a b -> 0 < turn a b p.
Definition Outside (p : pt) (poly : list pt) : Prop := exists a b, PolySide poly a b /\ turn a b p < 0.

(** [p] is the weighted mean of the corners of a triangle. *)
Definition Mean (a b c p : pt) (u v w : Q) : Prop :=
  u + v + w == 1 /\ fst p == u * fst a + v * fst b + w * fst c /\ snd p == u * snd a + v * snd b + w * snd c.
Definition InTriangle (a b c p : pt) : Prop := exists u v w, Mean a b c p u v w /\ 0 < u /\ 0 < v /\ 0 < w.
(** The closed triangle. *)
Definition OnTriangle (a b c p : pt) : Prop := exists u v w, Mean a b c p u v w /\ 0 <= u /\ 0 <= v /\ 0 <= w.

(** The same polygon moved by [t] and enlarged [s] times. *)
Definition move (s : Q) (t v : pt) : pt := (s * fst v + fst t, s * snd v + snd t).

(** The triangles between the first vertex and each side away from it. *)
Fixpoint fan (v : pt) (l : list pt) : list (list pt) :=
  match l with
  | a :: ((b :: _) as r) => [v; a; b] :: fan v r
  | _ => []
  end.
