(** Model of reading a vector variable from a file, with its grid, and asking
    it: gridded/variable.py:886-1044 [VectorVariable.from_netCDF], 1201-1295
    [VectorVariable.at], on the models of LoadModel, VLoadModel, FMeshModel,
    FRectModel, FStagModel, FSgridModel, FRomsModel and FFvcomModel.

    Simplifications: file, data_file and grid_file are the same (C56); the
    answer is the list of the columns that [np.ma.column_stack] puts together. *)
From Coq Require Import String Reals.
From Verif Require Import Common TimeModel GridTypeModel VariableModel DepthModel UGridGeomModel TFileModel LoadModel VLoadModel WholeModel SGridInterpModel SWholeModel FMeshModel FRectModel FStagModel FSgridModel FRomsModel FFvcomModel.
Open Scope string_scope.
Open Scope list_scope.
Open Scope nat_scope.

(** 993, 1011: the depth given to a component is the one read for the vector,
    from the same file; here it is read again. *)
Definition own_depth (x : variable) : variable :=
  mkVar (va_name x) (va_units x) (va_time x) (match va_depth x with DepthGiven => DepthRead | d => d end)
    (va_loc x) (va_varname x) (va_attrs x) (va_shape x).
(** 1266-1288: the components in order, up to the first exception. *)
Definition columns {V} (at_ : variable -> result V) (v : vector) : result (list V) := mapM (fun x => at_ (own_depth x)) (ve_comps v).

Section Opening.
  Context (dateutil : string -> dparse) (cftime : string -> option (Z * Z * Z)) (now : time_obj).
  Definition read_vector (g : grid_api) (f : file) (cls : string) (comps : list (list string * list string)) (a : vargs) : result vector :=
    load_vector dateutil cftime (do _ <- read_depth f; Ok tt) now g (as_load f) cls comps 0 0 a.
  (** On a mesh. *)
  Context (tree : list pt -> list (list Z) -> list pt -> list Z) (hist : list nat -> list spot -> list ug_op).
  Definition open_mesh_vector (f : file) cls comps (a : vargs) : result (mesh * vector) :=
    do m <- open_mesh f; do v <- read_vector (api m) f cls comps a; Ok (m, v).
  Definition ask_mesh_vector (f : file) cls comps (a : vargs) (q : Z) (extrapolate : bool) (pts : list spot) : result (list (list cell)) :=
    do mv <- open_mesh_vector f cls comps a;
    columns (fun x => answer now tree hist f (fst mv) x q extrapolate pts) (snd mv).
  (** On a regular grid. *)
  Definition open_rect_vector (f : file) cls comps (a : vargs) : result (rect * vector) :=
    do r <- open_rect f; do v <- read_vector (rect_api r) f cls comps a; Ok (r, v).
  Definition ask_rect_vector (f : file) cls comps (a : vargs) (q : Z) (extrapolate : bool) (pts : list spot) : result (list (list cell)) :=
    do rv <- open_rect_vector f cls comps a;
    columns (fun x => rect_answer now f (fst rv) x q extrapolate pts) (snd rv).
  (** On a staggered grid. *)
  Context (find : R * R -> option (Z * Z)).
  Definition open_stag_vector (s : sfile) cls comps (a : vargs) : result (stag * vector) :=
    do t <- open_stag s; do v <- read_vector (stag_api t) (sf_file s) cls comps a; Ok (t, v).
  Definition ask_stag_vector (s : sfile) cls comps (a : vargs) (q : Z) (extrapolate : bool) (pts : list rspot) : result (list (list rcell)) :=
    do tv <- open_stag_vector s cls comps a;
    columns (fun x => stag_answer now find s (fst tv) x q extrapolate pts) (snd tv).
  (** On one that a topology variable describes. *)
  Definition open_sgrid_vector (s : sfile) cls comps (a : vargs) : result (stag * vector) :=
    do t <- open_sgrid s; do v <- read_vector (stag_api t) (sf_file s) cls comps a; Ok (t, v).
  Definition ask_sgrid_vector (s : sfile) cls comps (a : vargs) (q : Z) (extrapolate : bool) (pts : list rspot) : result (list (list rcell)) :=
    do tv <- open_sgrid_vector s cls comps a;
    columns (fun x => stag_answer now find s (fst tv) x q extrapolate pts) (snd tv).
  (** 993: a depth that depends on time is read for that of the first component. *)
  Definition for_first (read : time_obj -> result unit) (f : lfile) (comps : list (list string * list string)) (a : vargs) : result unit :=
    do names <- names_of f comps a;
    do v <- first_var f names;
    do t <- load_time dateutil cftime f v (first_args a);
    read (time_value now (fst t)).
  Definition open_roms_vector (s : sfile) cls comps (a : vargs) : result (stag * vector) :=
    do t <- open_stag s;
    do v <- load_vector dateutil cftime (for_first (fun u => do _ <- read_any dateutil cftime (sf_file s) (stag_api t) u; Ok tt) (as_load (sf_file s)) comps a)
              now (stag_api t) (as_load (sf_file s)) cls comps 0 0 a;
    Ok (t, v).
  Definition ask_roms_vector (s : sfile) cls comps (a : vargs) (q : Z) (extrapolate : bool) (pts : list rspot) : result (list (list rcell)) :=
    do tv <- open_roms_vector s cls comps a;
    columns (fun x => roms_answer dateutil cftime now find s (fst tv) x q extrapolate pts) (snd tv).
  Definition open_fvcom_vector (f : file) cls comps (a : vargs) : result (mesh * vector) :=
    do m <- open_fmesh f;
    do v <- load_vector dateutil cftime (for_first (fun u => do _ <- read_sigma dateutil cftime f (api m) u; Ok tt) (as_load f) comps a)
              now (api m) (as_load f) cls comps 0 0 a;
    Ok (m, v).
  Definition ask_fvcom_vector (f : file) cls comps (a : vargs) (q : Z) (extrapolate : bool) (pts : list spot) : result (list (list cell)) :=
    do mv <- open_fvcom_vector f cls comps a;
    columns (fun x => fvcom_answer dateutil cftime now tree hist f (fst mv) x q extrapolate pts) (snd mv).
End Opening.
