(** What it means for a variable to hold samples of a field and to answer with it. *)
From Coq Require Import String.
From Verif Require Import Common TimeSpec VariableModel DepthModel DepthSpec UGridGeomSpec RGridSpec.
Open Scope list_scope.
Open Scope Q_scope.

(** A quantity over time, depth and place. *)
Definition quantity := Z -> Q -> point -> Q.
(** The number [x], whichever way it is written. *)
Definition Shows (x : Q) (c : cell) : Prop := exists v, c = CVal v /\ v == x.

(** Between neighbouring samples the quantity changes at a constant rate. *)
Definition LinearInTime (ts : list Z) (f : Z -> Q) : Prop :=
  forall k t0 t1 q, nth_error ts k = Some t0 -> nth_error ts (S k) = Some t1 -> (t0 <= q <= t1)%Z ->
  (f q - f t0) * (inject_Z t1 - inject_Z t0) == (f t1 - f t0) * (inject_Z q - inject_Z t0).
Definition LinearInDepth (ls : list Q) (f : Q -> Q) : Prop :=
  forall k a b s, nth_error ls k = Some a -> nth_error ls (S k) = Some b -> 0 <= s <= 1 ->
  forall z, z == a + s * (b - a) -> f z == f a + s * (f b - f a).
(** Linear over each triangle of a mesh. *)
Definition LinearOverFaces (nodes : list point) (faces : list (list Z)) (f : point -> Q) : Prop :=
  forall a b c A B C, In [Z.of_nat a; Z.of_nat b; Z.of_nat c] faces ->
  nth_error nodes a = Some A -> nth_error nodes b = Some B -> nth_error nodes c = Some C ->
  exists k kx ky, forall p, InTriangle A B C p -> f p == k + kx * fst p + ky * snd p.
(** Bilinear over each cell of two axes: between neighbouring entries the
    weights of the place are those of the values. *)
Definition BilinearOverCells (lon lat : list Q) (f : point -> Q) : Prop :=
  forall p i i' u u' j j' v v' a a' b b', Neighbours lon (fst p) i i' u u' -> Neighbours lat (snd p) j j' v v' ->
  nth_error lon i = Some a -> nth_error lon i' = Some a' -> nth_error lat j = Some b -> nth_error lat j' = Some b' ->
  f p == u * v * f (a, b) + u * v' * f (a, b') + u' * v * f (a', b) + u' * v' * f (a', b').
(** What the cell tree is expected to answer, point by point: -1, or the number
    of a face that holds the point. *)
Definition FindsFaces (nodes : list point) (faces : list (list Z)) (find : point -> Z) : Prop :=
  forall p, find p = (-1)%Z \/ exists k a b c A B C, find p = Z.of_nat k /\ nth_error faces k = Some [Z.of_nat a; Z.of_nat b; Z.of_nat c] /\
    nth_error nodes a = Some A /\ nth_error nodes b = Some B /\ nth_error nodes c = Some C /\ InTriangle A B C p.

(** The time whose field the answer is: [q] itself when covered; the first or
    last sample when extrapolating; the only sample. *)
Definition TimeAsked (ts : list Z) (ex : bool) (q q' : Z) : Prop :=
  (InRange ts q /\ q' = q) \/
  (exists a, ex = true /\ nth_error ts 0 = Some a /\ (q < a)%Z /\ q' = a) \/
  (exists b, ex = true /\ nth_error ts (length ts - 1) = Some b /\ (b < q)%Z /\ q' = b) \/
  (length ts = 1%nat /\ nth_error ts 0 = Some q').
(** The depth: [z] itself between the levels (the one listed last excluded), or
    the level listed first beyond it. *)
Definition DepthAsked (ls : list Q) (sbc bbc : bcond) (z z' : Q) : Prop :=
  exists a b, First ls a /\ Last ls b /\
   ((Ascending ls /\ a <= z < b /\ z' = z) \/ (Descending ls /\ b < z <= a /\ z' = z) \/
    (Ascending ls /\ z < a /\ bmask sbc = false /\ z' = a) \/ (Descending ls /\ a < z /\ bmask bbc = false /\ z' = a)).

(** Leading indices of the samples at time [t] and depth [z]; without an axis
    the samples are those of every time or depth. *)
Definition SampleAt (ts : option (list Z)) (ls : option (list Q)) (ix : list nat) (t : Z) (z : Q) : Prop :=
  match ts, ls with
  | Some ts, Some ls => exists i j, ix = [i; j] /\ nth_error ts i = Some t /\ nth_error ls j = Some z
  | Some ts, None => exists i, ix = [i] /\ nth_error ts i = Some t
  | None, Some ls => exists j, ix = [j] /\ nth_error ls j = Some z
  | None, None => ix = []
  end.
(** Values at the nodes of a mesh; values over two axes, rows by [y]. *)
Definition NodeSamples (nodes : list point) (f : point -> Q) (data : list cell) : Prop :=
  Forall2 (fun n c => Shows (f n) c) nodes data.
Definition TableSamples (y x : list Q) (f : Q -> Q -> Q) (vals : list (list cell)) : Prop :=
  Forall2 (fun a row => Forall2 (fun b c => Shows (f a b) c) x row) y vals.

(** The whole question: the time and the depth of the answer. *)
Definition TimeOk (ts : option (list Z)) (ex : bool) (q q' : Z) : Prop :=
  forall l, ts = Some l -> StrictlyIncreasing l /\ l <> [] /\ TimeAsked l ex q q'.
Definition DepthOk (ls : option (list Q)) (sbc bbc : bcond) (z z' : Q) : Prop :=
  forall l, ls = Some l -> DepthAsked l sbc bbc z z'.
Definition LevelsOk (ls : option (list Q)) : Prop := forall l, ls = Some l -> (2 <= length l)%nat /\ Monotone l.
Definition Changes (ts : option (list Z)) (ls : option (list Q)) {P} (f : Z -> Q -> P -> Q) : Prop :=
  (forall l, ts = Some l -> forall z p, LinearInTime l (fun t => f t z p)) /\
  (forall l, ls = Some l -> forall t p, LinearInDepth l (fun z => f t z p)).
