(** Loops and chains as sets of segments. *)
From Coq Require Import Permutation.
From Verif Require Import Common ChainModel.
Open Scope Z_scope.

(** The segments between consecutive points of an open chain ... *)
Fixpoint steps (l : list Z) : list seg :=
  match l with
  | a :: ((b :: _) as r) => (a, b) :: steps r
  | _ => []
  end.
(** ... and of a closed loop. *)
Definition loop_steps (l : list Z) : list seg :=
  match l with [] => [] | a :: _ => steps (l ++ [a]) end.

(** A segment without its direction. *)
Definition undirected (s : seg) : seg := if fst s <=? snd s then s else (snd s, fst s).

(** All segments run the same way round: no point starts two or ends two. *)
Definition OneWay (segs : list seg) : Prop := NoDup (map fst segs) /\ NoDup (map snd segs).
(** The segments form closed loops: each point that ends a segment starts one. *)
Definition Loops (segs : list seg) : Prop :=
  OneWay segs /\ Permutation (map fst segs) (map snd segs) /\ forall a b, In (a, b) segs -> a <> b.
(** How many segment ends lie at point [x]. *)
Fixpoint ends_at (x : Z) (segs : list seg) : nat :=
  match segs with
  | [] => 0
  | (a, b) :: r => (if (a =? x)%Z then 1 else 0) + (if (b =? x)%Z then 1 else 0) + ends_at x r
  end%nat.
(** Closed boundaries in any direction: an even number of ends at every point. *)
Definition Closed (segs : list seg) : Prop := forall x, Nat.even (ends_at x segs) = true.
