(** Model of the way from a file with a staggered grid, described by the names of
    its coordinate variables (as ROMS writes them), to the answers of its
    variables: as FMeshModel, with the curvilinear grid (gridded/grids.py:163-233
    and SGrid.__init__, pysgrid/sgrid.py:30-153) in place of the mesh. *)
From Coq Require Import Reals String.
From Verif Require Import Common TimeModel GridTypeModel VariableModel DepthModel MaskModel SGridModel SGridInterpModel TFileModel LoadModel VLoadModel
  FMeshModel SWholeModel.
Open Scope string_scope.
Open Scope list_scope.
Open Scope nat_scope.

(** The file, with what its variables hold, by name: coordinates, flags, data. *)
Record sfile := mkSfile {
  sf_file : file; sf_nums : string -> arr R; sf_flags : string -> mask_kind * arr mentry; sf_data : string -> nvar }.

(** ** The grid *)
Record stag := mkStag { st_grid : sg; st_center : bool; st_edge1 : bool; st_edge2 : bool; st_topology : dict string }.
Definition arg_name (a : args) (k : string) : option string :=
  match dget a k with Some (SVar v) => Some (gv_name v) | _ => None end.
Definition shape2 {A} (a : arr A) : nat * nat := (a_r a, a_c a).
(** grids.py:507-559.  No paddings are given; the interpolation of masked values
    is the default one.  RuntimeError stands for what is not modelled here: grids
    of another class, or read from a topology variable, and coordinates that
    are not two-dimensional variables. *)
Definition open_stag (s : sfile) : result stag :=
  do a <- grid_from_netcdf (as_grid (sf_file s)) None None;
  match a with
  | Construct Grid_S ar gt =>
      do lon <- get_arg ar "node_lon"; do lat <- get_arg ar "node_lat";
      match lon, lat with
      | SVar x, SVar y =>
          if ((length (gv_shape x) =? 2) && (length (gv_shape y) =? 2))%nat then
            let lon := sf_nums s (gv_name x) in
            let center := arg_name ar "center_lon" in
            let pads := mkPads (shape2 lon) (option_map (fun c => shape2 (sf_nums s c)) center) None PSUnset PSUnset PSUnset in
            Ok (mkStag (mkSg lon (sf_nums s (gv_name y)) pads (option_map (sf_flags s) (arg_name ar "center_mask")) BZero)
                       (has ar "center_lon") (has ar "edge1_lon") (has ar "edge2_lon") gt)
          else Err RuntimeError
      | _, _ => Err RuntimeError
      end
  | _ => Err RuntimeError
  end.
Definition stag_api (t : stag) : grid_api :=
  mkGrid KS (s_infer (shape2 (g_lon (st_grid t))) (st_center t) (st_edge1 t) (st_edge2 t)) (st_topology t).

Section Opening.
  Context (dateutil : string -> dparse) (cftime : string -> option (Z * Z * Z)).
  (** gridded.py:97-103 *)
  Definition open_stag_dataset (s : sfile) : result (stag * dict variable) :=
    do t <- open_stag s;
    do vs <- load_variables dateutil cftime (do _ <- read_depth (sf_file s); Ok tt) (stag_api t) (as_load (sf_file s));
    Ok (t, vs).
  (** ** The answers, variable.py:524-770; [find] as in SWholeModel. *)
  Context (now : time_obj) (find : R * R -> option (Z * Z)).
  Definition stag_depth (f : file) (v : variable) : result (bool * option (aview rspot R)) :=
    match va_depth v with
    | DepthNone => Ok (false, None)
    | DepthGiven => Err RuntimeError    (* not from the file *)
    | DepthRead =>
        do d <- read_depth f;
        Ok (true, match d with
                  | Levels l => Some (from_view Q2R (l_view snd l (Some (length l)) default_sbc default_bbc))
                  | SurfaceOnly => None
                  end)
    end.
  Definition stag_answer (s : sfile) (t : stag) (v : variable) (q : Z) (extrapolate : bool) (pts : list rspot) : result (list rcell) :=
    do d <- stag_depth (sf_file s) v;
    do order <- dimension_ordering None GStructured (length (va_shape v)) true (fst d);
    stag_at (st_grid t) find (va_loc v) order (sf_data s (va_varname v)) (va_shape v) (Some (time_value now (va_time v))) (snd d) q extrapolate pts.
  Definition ask_stag (s : sfile) (k : string) (q : Z) (extrapolate : bool) (pts : list rspot) : result (list rcell) :=
    do tv <- open_stag_dataset s;
    match dget (snd tv) k with
    | None => Err KeyError
    | Some v => stag_answer s (fst tv) v q extrapolate pts
    end.
End Opening.
