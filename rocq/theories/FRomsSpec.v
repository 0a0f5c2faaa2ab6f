(** What is in a file of ROMS, without the helpers of the model. *)
From Coq Require Import Reals String.
From Verif Require Import Common TimeModel TimeSpec VariableSpec GridTypeModel GridTypeSpec DepthModel DepthSpec MaskModel SGridModel SGridSpec TFileModel LoadModel LoadSpec
  SGridInterpModel SGridInterpSpec FMeshModel FMeshSpec FRectSpec SWholeModel SWholeSpec RTerrModel RTerrSpec FStagModel FStagSpec.
Open Scope string_scope.
Open Scope list_scope.
Open Scope nat_scope.

(** ** The levels *)
(** The variable of this name, which alone may have one of the labels. *)
Definition labels_at : list string := ["long_name"; "standard_name"].
Definition Labelled (f : file) (name : string) (labels : list string) (w : mvar) : Prop :=
  In (name, w) (fi_vars f) /\ forall n v a l, In (n, v) (fi_vars f) -> In a labels_at -> Attr v a l -> In l labels -> n = name.
Definition Numbers (f : file) (name label : string) (l : list Q) : Prop := exists w, Labelled f name [label] w /\ fm_reals w = l.
Record sigma := mkSigma { si_w : list Q; si_rho : list Q; si_Cw : list Q; si_Cr : list Q; si_hc : Q }.
Definition SigmaIn (f : file) (g : sigma) : Prop :=
  Numbers f "s_w" "S-coordinate at W-points" (si_w g) /\ Numbers f "s_rho" "S-coordinate at RHO-points" (si_rho g) /\
  Numbers f "Cs_w" "S-coordinate stretching curves at W-points" (si_Cw g) /\ Numbers f "Cs_r" "S-coordinate stretching curves at RHO-points" (si_Cr g) /\
  Numbers f "hc" "S-coordinate parameter, critical depth" [si_hc g].
(** No other kind of depths could be made of the file. *)
Definition OnlySigma (f : file) : Prop :=
  forall n v, In (n, v) (fi_vars f) -> ~ In n ["siglay"; "depth"; "depth_levels"; "Depth"] /\
    forall a l, In a labels_at -> Attr v a l -> ~ In l ["ocean_sigma/general_coordinate"; "d"; "e"; "p"; "t"; "h"].
(** Bathymetry and, maybe, a free surface, on the nodes or at the rho points
    around them. *)
Definition WaterIn (f : file) (y : layout) (nr nc : nat) (rho : bool) (surface : option nat) : Prop :=
  let a := if rho then nr + 1 else nr in let b := if rho then nc + 1 else nc in
  (rho = true -> y_center y <> None) /\
  (exists h, Labelled f "h" ["bathymetry at RHO-points"; "Final bathymetry at RHO-points"] h /\ fm_shape h = [a; b]) /\
  match surface with
  | Some nt => exists z, Labelled f "zeta" ["free-surface"] z /\ fm_shape z = [nt; a; b]
  | None => forall n v, In (n, v) (fi_vars f) -> n <> "zeta" /\ forall a, In a labels_at -> ~ Attr v a "free-surface"
  end.
Definition RomsFile (f : file) (y : layout) (nr nc : nat) (g : sigma) (rho : bool) (surface : option nat) : Prop :=
  StagFile f y /\ SigmaIn f g /\ OnlySigma f /\ WaterIn f y nr nc rho surface.
(** Every variable is of the grid, has no place on it, or is properly sampled: as
    often as the free surface, if it is over the depth too. *)
Definition RomsSound (cftime : string -> option (Z * Z * Z)) (f : file) (y : layout) (nr nc : nat) (surface : option nat) : Prop :=
  forall k w, In (k, w) (fi_vars f) -> In k (grid_words y) \/ Nowhere nr nc y w \/
  exists a b loc, SitsAt nr nc y w a b loc /\
    ((Timeless f w /\ fm_shape w = [a; b]) \/
     exists ts lead, InstantsIn cftime f w ts /\ fm_shape w = [length ts] ++ lead ++ [a; b] /\
       (lead = [] \/ exists n, lead = [n] /\ forall nt, surface = Some nt -> nt = length ts)).

(** ** The water *)
(** At a node: the mean of the four rho points around it, if there is none on
    land. *)
Definition mean4 (f : nat -> nat -> R) (i j : nat) : R := ((f i j + f i (S j) + f (S i) j + f (S i) (S j)) / 4)%R.
Definition any4 (m : nat -> nat -> bool) (i j : nat) : bool := m i j || m i (S j) || m (S i) j || m (S i) (S j).
Definition BedIn (s : sfile) (rho : bool) (nr nc : nat) (H : nat -> nat -> R) (m : nat -> nat -> bool) : Prop :=
  if rho then exists h hm, Reads (nv_at (sf_data s "h") []) (nr + 1) (nc + 1) h hm /\ (forall i j, H i j = mean4 h i j /\ m i j = any4 hm i j)
  else Reads (nv_at (sf_data s "h") []) nr nc H m.
Definition SurfaceIn (s : sfile) (rho : bool) (ts : list Z) (nr nc : nat) (Z_ : Z -> nat -> nat -> R) (m : nat -> nat -> bool) : Prop :=
  if rho then exists z zm, Holds (sf_data s "zeta") (Some ts) None (nr + 1) (nc + 1) (fun t _ => z t) (fun _ => zm) /\ (forall t i j, Z_ t i j = mean4 (z t) i j) /\ (forall i j, m i j = any4 zm i j)
  else Holds (sf_data s "zeta") (Some ts) None nr nc (fun t _ => Z_ t) (fun _ => m).
(** What the grid answers for the free surface over a point, at the time [q]. *)
Inductive SurfaceOver (s : sfile) (rho : bool) (ts : list Z) (nr nc : nat) (q : Z) (place_of : R * R -> option (nat * nat * (R * R))) : option nat -> (rspot -> rcell) -> Prop :=
| CalmOver z : (forall x, OnEarthR (fst x) -> z x = RVal 0) -> (forall x, ~ OnEarthR (fst x) -> z x = RMask) -> SurfaceOver s rho ts nr nc q place_of None z
| MovingOver Z_ m nt : SurfaceIn s rho ts nr nc Z_ m -> SurfaceOver s rho ts nr nc q place_of (Some nt) (fun x => node_expected (snap nr nc (Z_ q) m) (fst x, place_of (fst x))).
(** The columns over the points, with the second of the vertical transformations
    whatever the file says, and where the points are in them: below the bottom
    nowhere. *)
Definition Column (g : sigma) (bed surface : rspot -> rcell) (x : rspot) (at_ : seat) : Prop :=
  exists prof, Water 2 (Q2R (si_hc g)) (combine (map Q2R (si_w g)) (map Q2R (si_Cw g))) (bed x) (surface x) prof /\
    (forall l, prof = Some l -> RDesc l) /\ Seats BExtrapolate DepthModel.BMask (Q2R (snd x)) prof at_.
Definition SigmaSized (g : sigma) (n : nat) : Prop :=
  length (si_w g) = n /\ length (si_Cw g) = n /\ length (si_rho g) = n - 1 /\ 2 <= n /\ Ascending (si_w g).
