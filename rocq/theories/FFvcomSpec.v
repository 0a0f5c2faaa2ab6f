(** What is in a file of FVCOM, without the helpers of the model. *)
From Coq Require Import String.
From Verif Require Import Common TimeModel TimeSpec VariableModel VariableSpec GridTypeModel GridTypeSpec UGridGeomSpec UFileModel UFileSpec TFileModel LoadModel LoadSpec WholeModel WholeSpec TerrSpec FMeshModel FMeshSpec FRectSpec FStagSpec FRomsSpec.
Open Scope string_scope.
Open Scope list_scope.
Open Scope nat_scope.

(** ** The mesh *)
(** The index table of the faces, whose numbers start at [s]: from one only if the
    last of the nodes is used.  One row for each face (of which there are not
    three), or one for each corner. *)
Definition TableOf (np : nat) (faces : list (list Z)) (t : table) : Prop :=
  exists s, (s = 0%Z \/ s = 1%Z /\ exists r, In r faces /\ In (Z.of_nat np - 1)%Z r) /\
    let rows := map (map (fun x => Some (x + s)%Z)) faces in
    (length faces <> 3 /\ t = rows) \/ Flipped 3 rows t.
(** A mesh given by the names of its variables: it is not declared to be of another
    kind, and no topology is described. *)
Definition NamedMesh (f : file) (p : pair) (n : string) (nodes : list point) (faces : list (list Z)) : Prop :=
  UniqueNames f /\
  (forall g, fi_grid_type f = Some g -> ~ In g ["sgrid"; "pygrid_s"; "staggered"; "curvilinear"; "roms"]) /\
  (forall n v r, In (n, v) (fi_vars f) -> Attr v "cf_role" r -> ~ Mentions "topology" r) /\
  PairOf f axis_names (Some p) /\
  (forall x, In (p_x p, x) (fi_vars f) -> fm_shape x = [length nodes] /\ fm_reals x = map fst nodes) /\
  (forall y, In (p_y p, y) (fi_vars f) -> fm_reals y = map snd nodes) /\
  FirstWith (Present f) ["faces"; "tris"; "nv"; "ele"; "nele"] n /\
  exists a, Called f n a /\ forall x, In (a, x) (fi_vars f) -> TableOf (length nodes) faces (fm_table x).
(** Names that are left out. *)
Definition mesh_names (p : pair) (n : string) : list string := [p_lon p; p_lat p; n].
(** Where data is: where it says, or else by the length of its last dimension. *)
Inductive Sized (np nf len : nat) : string -> Prop :=
| AtNode : len = np -> Sized np nf len "node"
| AtFace : len <> np -> len = nf -> Sized np nf len "face".
Definition On (np nf : nat) (w : mvar) (len : nat) (loc : string) : Prop :=
  (Attr w "location" loc /\ ValidLocation loc) \/ ((forall l, Attr w "location" l -> ~ ValidLocation l) /\ Sized np nf len loc).
Definition Off (np nf : nat) (w : mvar) : Prop :=
  (forall l, Attr w "location" l -> ~ ValidLocation l) /\
  (fm_shape w = [] \/ exists lead len, fm_shape w = lead ++ [len] /\ len <> np /\ len <> nf).

(** ** The water *)
Definition sigma_label : string := "ocean_sigma/general_coordinate".
(** The variable of this name holds a table of numbers, one row for each level or
    layer. *)
Definition SigmaTable (f : file) (name : string) (np : nat) (rows : list (list Q)) : Prop :=
  exists w, In (name, w) (fi_vars f) /\ fm_shape w = [length rows; np] /\ forall k row, nth_error rows k = Some row -> fm_part w [k] = map CVal row.
(** The variables taken for the levels and for the layers: those of the names, if
    none has the label; otherwise the first with the label, for both. *)
Definition FirstWearing (f : file) (a label n : string) : Prop :=
  exists pre w post, fi_vars f = pre ++ (n, w) :: post /\ Attr w a label /\ forall m v, In (m, v) pre -> ~ Attr v a label.
Definition NoneWearing (f : file) (a label : string) : Prop := forall m v, In (m, v) (fi_vars f) -> ~ Attr v a label.
Inductive SigmaVars (f : file) : string -> string -> Prop :=
| ByName : NoneWearing f "long_name" sigma_label -> NoneWearing f "standard_name" sigma_label -> SigmaVars f "siglev" "siglay"
| ByLongName n : FirstWearing f "long_name" sigma_label n -> SigmaVars f n n
| ByStandardName n : NoneWearing f "long_name" sigma_label -> FirstWearing f "standard_name" sigma_label n -> SigmaVars f n n.
(** No other kind of depths could be made of the file. *)
Definition OnlyFvcom (f : file) : Prop :=
  forall n v, In (n, v) (fi_vars f) -> ~ In n ["s_rho"; "depth"; "depth_levels"; "Depth"] /\
    forall a l, In a labels_at -> Attr v a l -> ~ In l ["S-coordinate at RHO-points"; "d"; "e"; "p"; "t"; "h"].
(** The levels and layers as taken, the bathymetry and, maybe, a free surface of
    [nt] samples. *)
Record water := mkWater { wa_levels : list (list Q); wa_layers : list (list Q); wa_surface : option nat }.
Definition FvcomWater (f : file) (np : nat) (g : water) : Prop :=
  (exists lev lay, SigmaVars f lev lay /\ SigmaTable f lev np (wa_levels g) /\ SigmaTable f lay np (wa_layers g)) /\ OnlyFvcom f /\
  (exists h, Labelled f "h" ["sea_floor_depth_below_geoid"] h /\ fm_shape h = [np]) /\
  match wa_surface g with
  | Some nt => exists z, Labelled f "zeta" ["sea_surface_height_above_geoid"] z /\ fm_shape z = [nt; np]
  | None => forall n v, In (n, v) (fi_vars f) -> n <> "zeta" /\ forall a, In a labels_at -> ~ Attr v a "sea_surface_height_above_geoid"
  end.
Definition FvcomFile (f : file) (p : pair) (n : string) (nodes : list point) (faces : list (list Z)) (g : water) : Prop :=
  NamedMesh f p n nodes faces /\ TriMesh nodes faces /\ FvcomWater f (length nodes) g.
(** Every variable is of the mesh, has no place on it, or is properly sampled: over
    depth too, as often as the free surface. *)
Definition FvcomSound (cftime : string -> option (Z * Z * Z)) (f : file) (p : pair) (n : string) (np nf : nat) (surface : option nat) : Prop :=
  forall k w, In (k, w) (fi_vars f) -> In k (mesh_names p n) \/ Off np nf w \/
  exists len loc, On np nf w len loc /\
    ((Timeless f w /\ (fm_shape w = [len] \/ exists k, fm_shape w = [k; len])) \/
     exists ts lead, InstantsIn cftime f w ts /\ fm_shape w = [length ts] ++ lead ++ [len] /\
       (lead = [] \/ exists k, lead = [k] /\ forall nt, surface = Some nt -> nt = length ts)).
(** The bathymetry and the free surface in the file; [qz] is the time of the
    surface shown at the time [q] asked. *)
Definition BedSamples (f : file) (nodes : list point) (faces : list (list Z)) (h : point -> Q) : Prop :=
  forall w, In ("h", w) (fi_vars f) -> Sampled nodes faces h (fm_part w []).
Definition SurfaceSamples (f : file) (nodes : list point) (faces : list (list Z)) (surface : option nat) (ts : list Z) (zeta : Z -> point -> Q) (ex : bool) (q qz : Z) (places : list point) : Prop :=
  match surface with
  | Some _ => TimeAsked ts ex q qz /\ (forall p, LinearInTime ts (fun u => zeta u p)) /\
      forall w, In ("zeta", w) (fi_vars f) -> forall i u, nth_error ts i = Some u -> Sampled nodes faces (zeta u) (fm_part w [i])
  | None => (forall p, (zeta qz p == 0)%Q) /\ Forall OnEarth places
  end.
(** Data of [n] levels or layers at the nodes or at the faces, samples of [F]. *)
Definition TimeSteady (ts : list Z) (F : Z -> nat -> point -> Q) : Prop := forall k p, LinearInTime ts (fun t => F t k p).
Inductive FieldAt (nodes : list point) (faces : list (list Z)) (find : point -> Z) (ts : list Z) (n : nat) (part : list nat -> list cell) : string -> (Z -> nat -> point -> Q) -> Prop :=
| AtNodes F : (forall i t k, nth_error ts i = Some t -> k < n -> Sampled nodes faces (F t k) (part [i; k])) -> FieldAt nodes faces find ts n part "node" F
| AtFaces F (G : Z -> nat -> nat -> Q) :
    (forall i t k, nth_error ts i = Some t -> k < n -> length (part [i; k]) = length faces /\ forall j c, nth_error (part [i; k]) j = Some c -> Shows (G t k j) c) ->
    (forall t k p j, find p = Z.of_nat j -> (F t k p == G t k j)%Q) -> FieldAt nodes faces find ts n part "face" F.
(** The water: [m] levels, their sigmas falling at the first of the nodes; as many
    layers only if they are the same. *)
Definition WaterOf (f : file) (nodes : list point) (faces : list (list Z)) (g : water) (h : point -> Q) (zeta : Z -> point -> Q) (sigma : nat -> point -> Q)
  (ts : list Z) (ex : bool) (q qz : Z) (places : list point) : Prop :=
  SigmaSamples nodes faces sigma (wa_levels g) /\ 2 <= length (wa_levels g) /\ (length (wa_layers g) <> length (wa_levels g) \/ wa_layers g = wa_levels g) /\
  (forall p, nth_error nodes 0 = Some p -> forall j k, j < k < length (wa_levels g) -> (sigma k p < sigma j p)%Q) /\
  BedSamples f nodes faces h /\ SurfaceSamples f nodes faces (wa_surface g) ts zeta ex q qz places.
(** The levels lie below one another at this point. *)
Definition GoesDown (m : nat) (z : nat -> Q) : Prop := forall j k, j < k < m -> (z j < z k)%Q.
