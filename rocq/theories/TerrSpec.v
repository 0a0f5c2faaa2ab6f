(** What a variable on terrain-following levels should answer. *)
From Verif Require Import Common TimeModel TimeSpec VariableModel DepthModel DepthSpec UGridGeomSpec UGridGeomModel WholeModel WholeSpec TerrModel.
Open Scope list_scope.
Open Scope Q_scope.

(** The depths of the levels in the water column over [p] at time [t], [n] of
    them: bathymetry plus free surface, times minus sigma. *)
Definition level_depth (h : point -> Q) (zeta : Z -> point -> Q) (sigma : nat -> point -> Q) (t : Z) (k : nat) (p : point) : Q :=
  - ((zeta t p + h p) * sigma k p).
Definition column (n : nat) (g : nat -> Q) : list Q := map g (seq 0 n).
(** [x] lies between neighbouring values as [d] does between their depths. *)
Definition Interpolated (zs us : list Q) (d x : Q) : Prop :=
  exists k a b u v s, nth_error zs k = Some a /\ nth_error zs (S k) = Some b /\ nth_error us k = Some u /\ nth_error us (S k) = Some v /\
    0 <= s <= 1 /\ d == a + s * (b - a) /\ x == u + s * (v - u).

(** The tables of the depth object sample the bathymetry, the free surface (at
    its own times) and the sigmas. *)
Definition Sampled (nodes : list point) (faces : list (list Z)) (f : point -> Q) (data : list cell) : Prop :=
  NodeSamples nodes f data /\ LinearOverFaces nodes faces f.
Definition SigmaSamples (nodes : list point) (faces : list (list Z)) (sigma : nat -> point -> Q) (rows : list (list Q)) : Prop :=
  forall k row, nth_error rows k = Some row -> Sampled nodes faces (sigma k) (map CVal row).
(** The points that the constant free surface covers. *)
Definition OnEarth (p : point) : Prop := -360 <= fst p <= 360 /\ - (8995 # 100) <= snd p <= (8995 # 100).
(** A field of time over levels or layers [k]. *)
Definition FieldSamples (nodes : list point) (faces : list (list Z)) (n : nat) (ts : option (list Z)) (f : Z -> nat -> point -> Q)
  (data : list nat -> list cell) : Prop :=
  forall k, (k < n)%nat -> match ts with
    | Some l => forall i t, nth_error l i = Some t -> Sampled nodes faces (f t k) (data [i; k])
    | None => forall t, Sampled nodes faces (f t k) (data [k])
    end.
Definition Steady (ts : option (list Z)) (f : Z -> nat -> point -> Q) : Prop :=
  match ts with
  | Some l => forall k p, LinearInTime l (fun t => f t k p)
  | None => forall t t' k p, f t k p == f t' k p
  end.

(** The depth object: [n] levels from the surface down, fewer or more layers. *)
Definition TerrainOf (nodes : list point) (faces : list (list Z)) (te : terrain) (n : nat) (h : point -> Q) (sigma : nat -> point -> Q) : Prop :=
  Sampled nodes faces h (te_h te) /\ SigmaSamples nodes faces sigma (te_siglev te) /\
  length (te_siglev te) = n /\ (2 <= n)%nat /\ length (te_siglay te) <> n /\ (te_plain te = true -> te_zeta te = None) /\
  forall p, nth_error nodes 0 = Some p -> forall j k, (j < k < n)%nat -> sigma k p < sigma j p.
(** [qz] is the time of the free surface used for [q]. *)
Definition SurfaceOf (nodes : list point) (faces : list (list Z)) (te : terrain) (zeta : Z -> point -> Q) (ex : bool) (q qz : Z) (places : list point) : Prop :=
  match te_zeta te with
  | Some (t, data) => StrictlyIncreasing (t_data t) /\ t_data t <> [] /\ TimeAsked (t_data t) ex q qz /\
      (forall p, LinearInTime (t_data t) (fun u => zeta u p)) /\
      forall i u, nth_error (t_data t) i = Some u -> Sampled nodes faces (zeta u) (data [i])
  | None => (forall p, zeta qz p == 0) /\ Forall OnEarth places
  end.
(** What a point at depth [d] shows in a column with levels [z] and values [u]:
    above the surface level its value when [surface] allows it. *)
Definition ColumnAnswer (n : nat) (z u : nat -> Q) (surface : bool) (d : Q) (c : cell) : Prop :=
  (d < z 0%nat -> if surface then Shows (u 0%nat) c else c = CMasked) /\ (z (n - 1)%nat <= d -> c = CMasked) /\
  (z 0%nat <= d < z (n - 1)%nat -> exists x, Interpolated (column n z) (column n u) d x /\ Shows x c).
Definition OutsideAnswer (surface : bool) (d : Q) (c : cell) : Prop := (d < 0 -> if surface then Shows 0 c else c = CMasked) /\ (0 <= d -> c = CMasked).
Definition LayerAnswer (n : nat) (z u : nat -> Q) (d : Q) (c : cell) : Prop :=
  (d < z 0%nat \/ z (n - 1)%nat <= d -> c = CMasked) /\ forall k, (S k < n)%nat -> z k <= d < z (S k) -> Shows (u k) c.
