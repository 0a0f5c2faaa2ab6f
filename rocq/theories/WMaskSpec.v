(** Data with missing values: which samples an answer is made of, and what it
    means that the missing ones show. *)
From Coq Require Import String.
From Verif Require Import Common TimeSpec VariableModel DepthModel DepthSpec UGridGeomSpec RGridSpec WholeSpec.
Open Scope list_scope.
Open Scope Q_scope.

(** Missing when [m], else the number [x]. *)
Definition Sees (m : Prop) (x : Q) (c : cell) : Prop := (m /\ c = CMasked) \/ (~ m /\ Shows x c).

(** The samples in time that an answer at [q] is made of: the first or last
    one at or beyond it, the only one, else the two around [q], of which the
    later may be at [q] itself. *)
Definition TimeUsed (ts : list Z) (ex : bool) (q u : Z) : Prop :=
  (length ts = 1%nat /\ nth_error ts 0 = Some u) \/
  (nth_error ts 0 = Some u /\ (q = u \/ ex = true /\ (q < u)%Z)) \/
  (nth_error ts (length ts - 1) = Some u /\ (q = u \/ ex = true /\ (u < q)%Z)) \/
  (exists k t0 t1, nth_error ts k = Some t0 /\ nth_error ts (S k) = Some t1 /\ (t0 < q <= t1)%Z /\
     nth_error ts (length ts - 1) <> Some q /\ (u = t0 \/ u = t1)).
(** The levels that an answer at depth [z] is made of: the two around [z], of
    which the one listed first may be at [z] itself; beyond the level listed
    first, that one and the one listed last. *)
Definition DepthUsed (ls : list Q) (z d : Q) : Prop :=
  (exists k x y, nth_error ls k = Some x /\ nth_error ls (S k) = Some y /\ (x <= z < y \/ y < z <= x) /\ (d = x \/ d = y)) \/
  (exists a b, First ls a /\ Last ls b /\ (Ascending ls /\ z < a \/ Descending ls /\ a < z) /\ (d = a \/ d = b)).
Definition UsesTime (ts : option (list Z)) (ex : bool) (q q' u : Z) : Prop :=
  match ts with Some l => TimeUsed l ex q u | None => u = q' end.
Definition UsesDepth (ls : option (list Q)) (z z' d : Q) : Prop :=
  match ls with Some l => DepthUsed l z d | None => d = z' end.
(** Some sample in use is missing. *)
Definition Missing (ts : option (list Z)) (ls : option (list Q)) (ex : bool) (q q' : Z) (z z' : Q) (m : Z -> Q -> bool) : Prop :=
  exists u d, UsesTime ts ex q q' u /\ UsesDepth ls z z' d /\ m u d = true.

(** One value per node (or face): missing where [m], else [f]. *)
Definition MaskedSamples (n : nat) (m : nat -> bool) (f : nat -> Q) (data : list cell) : Prop :=
  length data = n /\ forall k c, nth_error data k = Some c -> Sees (m k = true) (f k) c.
(** The face whose values are looked up for the answer [i] of the search: the
    last one when there is none. *)
Definition FaceAsked (n : nat) (i : Z) (k : nat) : Prop := i = Z.of_nat k \/ (i = (-1)%Z /\ k = (n - 1)%nat).
(** The same with the values of a field. *)
Definition FieldAt (nodes : list point) (f : point -> Q) (k : nat) : Q := match nth_error nodes k with Some p => f p | None => 0 end.
(** A table over two axes, rows by [y]. *)
Definition MaskedTable (y x : list Q) (m : nat -> nat -> bool) (f : Q -> Q -> Q) (vals : list (list cell)) : Prop :=
  length vals = length y /\ (forall i row, nth_error vals i = Some row -> length row = length x) /\
  forall i j row c a b, nth_error vals i = Some row -> nth_error row j = Some c -> nth_error y i = Some a -> nth_error x j = Some b ->
    Sees (m i j = true) (f a b) c.
(** No missing entry among the neighbours of the place. *)
Definition ClearAt (y x : list Q) (m : nat -> nat -> bool) (py px : Q) : Prop :=
  forall i i' u u' j j' v v', Neighbours y py i i' u u' -> Neighbours x px j j' v v' -> m i j = false /\ m i j' = false /\ m i' j = false /\ m i' j' = false.
