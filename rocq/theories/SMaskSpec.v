(** Data with missing values on staggered grids: which samples an answer is made
    of, and how. *)
From Coq Require Import Reals String.
From Verif Require Import Common TimeSpec VariableModel DepthModel DepthSpec MaskModel SGridModel SGridInterpModel SWholeModel SWholeSpec.
Open Scope list_scope.
Open Scope R_scope.

(** The variable stores the array [d t j] for the time [t] and the level [j],
    whatever is missing in it. *)
Definition Stores (v : nvar) (ts : option (list Z)) (n : option nat) (nr nc : nat) (d : Z -> nat -> arr rd) : Prop :=
  nv_lead v = match ts with Some l => [length l] | None => [] end ++ match n with Some k => [k] | None => [] end /\
  forall ix t j, SlotAt ts n ix t j -> nv_at v ix = d t j /\ a_r (d t j) = nr /\ a_c (d t j) = nc.

(** Missing when one of two is, else the share [s] of the second. *)
Definition Blend (x y : rcell) (s : R) (c : rcell) : Prop :=
  ((x = RMask \/ y = RMask) /\ c = RMask) \/ exists a b, x = RVal a /\ y = RVal b /\ c = RVal ((1 - s) * a + s * b).
(** The sample that an answer at [q] is made of alone: the only one, the first
    or last one at or beyond it. *)
Definition Alone (ts : list Z) (ex : bool) (q u : Z) : Prop :=
  (length ts = 1%nat /\ nth_error ts 0 = Some u) \/
  (nth_error ts 0 = Some u /\ (q = u \/ ex = true /\ (q < u)%Z)) \/
  (nth_error ts (length ts - 1) = Some u /\ (q = u \/ ex = true /\ (u < q)%Z)).
(** The two samples around [q], of which the later may be at [q]. *)
Definition Around (ts : list Z) (q t0 t1 : Z) : Prop :=
  exists k, nth_error ts k = Some t0 /\ nth_error ts (S k) = Some t1 /\ (t0 < q <= t1)%Z /\ nth_error ts (length ts - 1) <> Some q.
(** [e u]: what the sample at [u] would answer; [c]: the answer at [q]. *)
Definition OverTime (ts : option (list Z)) (ex : bool) (q : Z) (e : Z -> rcell) (c : rcell) : Prop :=
  match ts with
  | None => c = e q
  | Some l => (exists u, Alone l ex q u /\ c = e u) \/
      exists t0 t1, Around l q t0 t1 /\ Blend (e t0) (e t1) ((IZR q - IZR t0) / (IZR t1 - IZR t0)) c
  end.
(** [e j]: what the level [j] would answer; beyond the level listed first that
    one, unless the one listed last is missing. *)
Definition OverDepth (ls : list Q) (z : Q) (e : nat -> rcell) (c : rcell) : Prop :=
  (exists k x y, nth_error ls k = Some x /\ nth_error ls (S k) = Some y /\ (x <= z < y \/ y < z <= x)%Q /\
     Blend (e k) (e (S k)) ((Q2R z - Q2R x) / (Q2R y - Q2R x)) c) \/
  (exists a, First ls a /\ (Ascending ls /\ z < a \/ Descending ls /\ a < z)%Q /\ Blend (e (length ls - 1)%nat) (e 0%nat) 1 c).
(** A sample that takes part. *)
Definition TakesPart (ts : list Z) (ex : bool) (q u : Z) : Prop :=
  Alone ts ex q u \/ (exists t, Around ts q u t) \/ (exists t, Around ts q t u).
