(** What a variable on a staggered grid should answer. *)
From Coq Require Import Reals String.
From Verif Require Import Common TimeSpec VariableModel DepthModel DepthSpec MaskModel GridTypeModel SGridModel SGridSpec SGridInterpModel SGridInterpSpec.
Open Scope list_scope.
Open Scope R_scope.

(** The data of one time and one level: the numbers and the land mask. *)
Definition snap (nr nc : nat) (f : nat -> nat -> R) (m : nat -> nat -> bool) : arr rd :=
  mkArr nr nc (fun i j => mkRd (f i j) (m i j)).
(** [var] stores these numbers (anything under the mask). *)
Definition Reads (var : arr rd) (nr nc : nat) (f : nat -> nat -> R) (m : nat -> nat -> bool) : Prop :=
  a_r var = nr /\ a_c var = nc /\ forall i j, d_mask (a_at var i j) = m i j /\ (m i j = false -> d_val (a_at var i j) = f i j).

(** Where the values of a variable sit, the size of its arrays, and what the grid
    answers for a located point (the meaning of these is in SGridInterpSpec).  The
    flag: one value per cell. *)
Inductive Sits (g : sg) (loc : string) (nr nc : nat) : bool -> (arr rd -> located -> rcell) -> Prop :=
| OnNodes : isin loc node_names = true -> node_padding (g_pads g) = (PadNone, PadNone) ->
    nr = a_r (g_lon g) -> nc = a_c (g_lon g) -> Sits g loc nr nc false node_expected
| OnEdges1 p cp : isin loc edge1_names = true -> edge1_padding (g_pads g) = Ok p -> known2 p ->
    face_padding (g_pads g) = Ok cp -> known2 cp -> MaskCovers g cp ->
    (nr >= low_extra (fst p) + (a_r (g_lon g) - 1))%nat -> (nc >= low_extra (snd p) + a_c (g_lon g))%nat ->
    g_behavior g = BZero -> Sits g loc nr nc false (fun var => edge1_expected g var p cp)
| OnEdges2 p cp : isin loc edge2_names = true -> edge2_padding (g_pads g) = Ok p -> known2 p ->
    face_padding (g_pads g) = Ok cp -> known2 cp -> MaskCovers g cp ->
    (nr >= low_extra (fst p) + a_r (g_lon g))%nat -> (nc >= low_extra (snd p) + (a_c (g_lon g) - 1))%nat ->
    g_behavior g = BZero -> Sits g loc nr nc false (fun var => edge2_expected g var p cp)
| OnCenters p : isin loc center_names = true -> face_padding (g_pads g) = Ok p -> known2 p ->
    (nr >= low_extra (fst p) + (a_r (g_lon g) - 1))%nat -> (nc >= low_extra (snd p) + (a_c (g_lon g) - 1))%nat ->
    Sits g loc nr nc true (fun var => center_expected var p).

(** Between neighbouring samples a number changes at a constant rate. *)
Definition RLinearInTime (ts : list Z) (f : Z -> R) : Prop :=
  forall k t0 t1 q, nth_error ts k = Some t0 -> nth_error ts (S k) = Some t1 -> (t0 <= q <= t1)%Z ->
  (f q - f t0) * (IZR t1 - IZR t0) = (f t1 - f t0) * (IZR q - IZR t0).
Definition RLinearInDepth (ls : list Q) (f : Q -> R) : Prop :=
  forall k a b s, nth_error ls k = Some a -> nth_error ls (S k) = Some b -> (0 <= s <= 1)%Q ->
  forall z, (z == a + s * (b - a))%Q -> f z = f a + Q2R s * (f b - f a).
(** Bilinear over the cells of a curvilinear grid. *)
Definition BilinearInCells (g : sg) (f : R * R -> R) : Prop :=
  forall r c l m, IsCell (a_r (g_lon g)) (a_c (g_lon g)) r c -> Unit l m ->
  let q := cell_quad g r c in f (place q l m) = bilin (f (q00 q)) (f (q01 q)) (f (q10 q)) (f (q11 q)) l m.

(** Leading indices of the samples at time [t] and level (or layer) [j] of [n]. *)
Definition SlotAt (ts : option (list Z)) (n : option nat) (ix : list nat) (t : Z) (j : nat) : Prop :=
  match ts, n with
  | Some ts, Some n => exists i, ix = [i; j] /\ nth_error ts i = Some t /\ (j < n)%nat
  | Some ts, None => exists i, ix = [i] /\ nth_error ts i = Some t
  | None, Some n => ix = [j] /\ (j < n)%nat
  | None, None => ix = []
  end.
(** The variable holds the snapshots [f t j] with land masks [m j], changing
    linearly between the times. *)
Definition Holds (v : nvar) (ts : option (list Z)) (n : option nat) (nr nc : nat) (f : Z -> nat -> nat -> nat -> R) (m : nat -> nat -> nat -> bool) : Prop :=
  nv_lead v = match ts with Some l => [length l] | None => [] end ++ match n with Some k => [k] | None => [] end /\
  (forall ix t j, SlotAt ts n ix t j -> Reads (nv_at v ix) nr nc (f t j) (m j)) /\
  (forall l i j k, ts = Some l -> m k i j = false -> RLinearInTime l (fun t => f t k i j)).
(** The layer (between two neighbouring levels) of a depth. *)
Definition InLayer (ls : list Q) (z : Q) (j : nat) : Prop :=
  exists a b, nth_error ls j = Some a /\ nth_error ls (S j) = Some b /\ ((Ascending ls /\ a <= z < b) \/ (Descending ls /\ b < z <= a))%Q.
(** The cell tree: the points that it finds are where it says. *)
Definition Finds (g : sg) (find : R * R -> option (Z * Z)) (place_of : R * R -> option (nat * nat * (R * R))) (ps : list (R * R)) : Prop :=
  forall p, In p ps -> find p = where_ (p, place_of p) /\ WellPlaced g (p, place_of p).
