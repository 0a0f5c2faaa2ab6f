(** What is in a file with a regular grid, without the helpers of the model. *)
From Coq Require Import String.
From Verif Require Import Common VariableSpec GridTypeModel GridTypeSpec UGridGeomSpec TFileModel LoadModel LoadSpec WholeSpec FMeshModel FMeshSpec.
Open Scope string_scope.
Open Scope list_scope.
Open Scope nat_scope.

(** The one variable called [n], up to case. *)
Definition OneNamed (f : file) (n : string) (v : mvar) : Prop :=
  exists a, In (a, v) (fi_vars f) /\ CaseEq a n /\ forall b u, In (b, u) (fi_vars f) -> CaseEq b n -> b = a.
Definition Present (f : file) (n : string) : Prop := exists a v, In (a, v) (fi_vars f) /\ CaseEq a n.
Definition axis_names : list (string * string) :=
  [("node_lon", "node_lat"); ("lon", "lat"); ("lon_psi", "lat_psi"); ("longitude", "latitude")].
(** A file with the axes [lon] and [lat], called [ln] and [la]: it declares no
    other kind of grid, describes no topology and has no variable that could be
    taken for the faces of a mesh. *)
Definition RectFile (f : file) (ln la : string) (lon lat : list Q) : Prop :=
  UniqueNames f /\
  (forall g, fi_grid_type f = Some g -> ~ In g (["sgrid"; "pygrid_s"; "staggered"; "curvilinear"; "roms"] ++ ["ugrid"; "pygrid_u"; "triangular"; "unstructured"])) /\
  (forall n v r, In (n, v) (fi_vars f) -> Attr v "cf_role" r -> ~ Mentions "topology" r) /\
  (forall n, In n ["faces"; "tris"; "nv"; "ele"; "nele"] -> ~ Present f n) /\
  FirstWith (fun p => Present f (fst p) /\ Present f (snd p)) axis_names (ln, la) /\
  exists x y, OneNamed f ln x /\ OneNamed f la y /\ fm_reals x = lon /\ fm_reals y = lat /\ fm_shape x = [length lon] /\ fm_shape y = [length lat].

(** Data over the axes, rows by latitude or by longitude. *)
Definition Over {A} (swapped : bool) (y x : A) : list A := if swapped then [x; y] else [y; x].
Definition OnAxes (w : mvar) (ln la : string) (nx ny nt : nat) (levels : option (list Q)) (swapped : bool) : Prop :=
  (exists pre, fm_dims w = pre ++ Over swapped la ln) /\
  fm_shape w = [nt] ++ match levels with Some ls => [length ls] | None => [] end ++ Over swapped ny nx.
(** It says where it is, or has its rows by latitude. *)
Definition Placed (w : mvar) (swapped : bool) (loc : string) : Prop :=
  (Attr w "location" loc /\ ValidLocation loc) \/ (dget (fm_attrs w) "location" = None /\ swapped = false /\ loc = "node").

(** The last two lengths of a shape; a single one stands for both. *)
Definition Ends (shape : list nat) (a b : nat) : Prop := shape = [a] /\ a = b \/ exists pre, shape = pre ++ [a; b].
(** A variable that is not on the grid. *)
Definition Elsewhere (w : mvar) (ny nx : nat) : Prop :=
  dget (fm_attrs w) "location" = None /\ exists a b, Ends (fm_shape w) a b /\
  ~ (a = ny /\ b = nx) /\ ~ (a = ny + 1 /\ b = nx + 1) /\ ~ (a + 1 = ny /\ b + 1 = nx) /\ ~ (a = ny + 1 /\ b = nx) /\ ~ (a = ny /\ b = nx + 1).
(** A variable with which no file can be opened: a single number; one on the
    edges of the cells; one at a place that is not known. *)
Definition Breaking (w : mvar) (ny nx : nat) : Prop :=
  (exists l, Attr w "location" l /\ ~ ValidLocation l) \/
  (dget (fm_attrs w) "location" = None /\
   (fm_shape w = [] \/ Ends (fm_shape w) (ny + 1) nx \/ Ends (fm_shape w) ny (nx + 1))).
(** Every variable is either not on the grid or properly sampled on it. *)
Definition Sound (cftime : string -> option (Z * Z * Z)) (f : file) (ln la : string) (nx ny : nat) : Prop :=
  forall k w, In (k, w) (fi_vars f) -> k <> ln -> k <> la ->
  Elsewhere w ny nx \/
  exists sw loc ts levels, Placed w sw loc /\ InstantsIn cftime f w ts /\ LevelsIn f levels /\ OnAxes w ln la nx ny (length ts) levels sw.
(** The rows of the field at leading indices, over the two axes. *)
Definition RowsSample (w : mvar) (ix : list nat) (sw : bool) (lon lat : list Q) (F : point -> Q) : Prop :=
  forall j a, nth_error (if sw then lon else lat) j = Some a ->
  Forall2 (fun b c => Shows (F (if sw then (a, b) else (b, a))) c) (if sw then lat else lon) (fm_part w (ix ++ [j])).
