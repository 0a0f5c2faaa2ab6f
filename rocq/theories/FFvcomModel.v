(** Model of the way from a file of FVCOM, with a mesh and terrain-following
    levels, to the answers of its variables: as FMeshModel, with meshes found by
    the names of their variables too (gridded/grids.py:112-152, 490-559 and
    UGrid.__init__, pyugrid/ugrid.py:45-160), [Depth.from_netCDF] (depth.py:981-1022)
    called for each variable with its own time (variable.py:264-273),
    [S_Depth.from_netCDF] (depth.py:396-570, SLoadModel) and FVCOM_Depth
    (TerrModel).  ROMS_Depth is not modelled on meshes. *)
From Coq Require Import String.
From Verif Require Import Common TimeModel GridTypeModel VariableModel DepthModel UGridGeomModel SearchModel TFileModel LoadModel SLoadModel VLoadModel UFileModel
  WholeModel TerrModel FMeshModel FRomsModel.
Open Scope string_scope.
Open Scope list_scope.
Open Scope nat_scope.

(** ** The mesh *)
(** The grid factory, with the index tables; a table with masked entries is not
    modelled (it is seen as an empty one). *)
Definition to_rows (kv : string * mvar) : gvar :=
  let g := to_grid kv in
  mkGvar (gv_name g) (gv_cf_role g) (gv_node_coordinates g) (gv_node_dimensions g) (gv_shape g)
    (match plain_table (fm_table (snd kv)) with Some t => t | None => [] end).
Definition as_rows (f : file) : gfile := mkGfile (fi_grid_type f) (map to_rows (fi_vars f)).
Definition reals_of (f : file) (v : gvar) : result (list Q) :=
  match dget (fi_vars f) (gv_name v) with Some w => Ok (fm_reals w) | None => Err KeyError end.
(** [np.ma.column_stack((node_lon, node_lat))] and the faces setter.  RuntimeError
    stands for what is not modelled here, as in FMeshModel, and for coordinates
    in one array. *)
Definition open_fmesh (f : file) : result mesh :=
  do a <- grid_from_netcdf (as_rows f) None None;
  match a with
  | Construct Grid_U ar gt =>
      do lon <- get_arg ar "node_lon"; do lat <- get_arg ar "node_lat"; do fs <- get_arg ar "faces";
      match lon, lat, fs with
      | SVar x, SVar y, SFaces rows =>
          do lon <- reals_of f x; do lat <- reals_of f y;
          if length lon =? length lat then
            do t <- assign_faces (length lon) (map (map Some) rows);
            match plain_table t with Some fs => Ok (mkMesh (combine lon lat) fs None gt) | None => Err RuntimeError end
          else Err ValueError
      | _, _, _ => Err RuntimeError
      end
  | _ => open_mesh f
  end.

(** ** The depth *)
Definition found_fvcom (f : file) : dict (option fref) :=
  map (fun kv => (fst kv, match snd kv with
                          | Some v => option_map (fun w => mkFref (as_load f) (v_name v) (to_load w)) (dget (fi_vars f) (v_name v))
                          | None => None
                          end)) (search_vars fvcom_names fvcom_cf (as_names f) (as_names f)).

Section Reading.
  Context (dateutil : string -> dparse) (cftime : string -> option (Z * Z * Z)) (now : time_obj).
  (** depth.py:993-1022 *)
  Definition read_sigma (f : file) (g : grid_api) (t : time_obj) : result adepth :=
    do c <- depth_factory sd_ld_types (can_make f);
    match c with
    | Some FVCOM_Depth => do d <- load_sdepth dateutil cftime g (as_load f) (found_fvcom f) (depth_args t) CFVCOM 0; Ok (Sigma d)
    | _ => do d <- read_depth f; Ok (Flat d)
    end.
  (** LoadModel.load_variable with the depth read for the variable's time, and
      LoadModel.load_each. *)
  Definition fvcom_load (f : file) (g : grid_api) (k : string) (v : lvar) (l : string) : result variable :=
    let a := plain_args k v l in
    load_variable dateutil cftime
      (do t <- load_time dateutil cftime (as_load f) v a; do _ <- read_sigma f g (time_value now (fst t)); Ok tt) g (as_load f) 0 a.
  Fixpoint fvcom_each (f : file) (g : grid_api) (vs : dict lvar) : result (dict variable) :=
    match vs with
    | [] => Ok []
    | (k, v) :: r =>
        if is_grid_name g k then fvcom_each f g r
        else
          do l <- find_location g v;
          match l with
          | None => fvcom_each f g r
          | Some l =>
              do x <- fvcom_load f g k v l;
              do xs <- fvcom_each f g r;
              Ok ((k, x) :: xs)
          end
    end.
  Definition open_fvcom_dataset (f : file) : result (mesh * dict variable) :=
    do m <- open_fmesh f;
    do vs <- fvcom_each f (api m) (lf_vars (as_load f));
    Ok (m, vs).

  (** ** The depth, with its values *)
  (** [self.siglev]: an attribute set from the terms found.  Masked sigmas are not
      modelled. *)
  Definition table_of (w : mvar) : result (list (list Q)) :=
    mapM (fun k => mapM TerrModel.number (fm_part w [k])) (seq 0 (hd 0 (fm_shape w))).
  Definition sigma_term (f : file) (d : sdepth) (k : string) : result (list (list Q)) :=
    match dget (sd_terms d) k with
    | Some (Values n) => match dget (fi_vars f) n with Some w => table_of w | None => Err KeyError end
    | _ => Err AttributeError
    end.
  Definition from_file (f : file) (x : source) (loc : option string) (dims : nat) : result mvar :=
    match x, loc with
    | FromFile n, Some l =>
        match dget (fi_vars f) n with
        | Some w => if String.eqb l "node" && (length (fm_shape w) =? dims) then Ok w else Err RuntimeError   (* elsewhere: not modelled *)
        | None => Err KeyError
        end
    | _, _ => Err RuntimeError
    end.
  (** The arrays of a file are masked ones. *)
  Definition fvcom_terrain (f : file) (d : sdepth) : result terrain :=
    do lev <- sigma_term f d "siglev"; do lay <- sigma_term f d "siglay";
    do h <- from_file f (sd_bathy d) (sd_bathy_loc d) 1;
    do z <- match sd_zeta d with
            | Zero => Ok None
            | x => do w <- from_file f x (sd_zeta_loc d) 2; Ok (Some (time_value now (sd_time d), fm_part w))
            end;
    Ok (mkTerr lev lay (fm_part h []) z false).

  (** ** The answers; [tree] and [hist] as in WholeModel. *)
  Context (tree : list pt -> list (list Z) -> list pt -> list Z) (hist : list nat -> list spot -> list ug_op).
  Definition sigma_depth (f : file) (m : mesh) (v : variable) (q : Z) (extrapolate : bool) : result (bool * option (depth_view (P := spot))) :=
    match va_depth v with
    | DepthNone => Ok (false, None)
    | DepthGiven => Err RuntimeError    (* not from the file *)
    | DepthRead =>
        do d <- read_sigma f (api m) (time_value now (va_time v));
        match d with
        | Flat _ => depth_of f v
        | Sigma d =>
            do te <- fvcom_terrain f d; do sb <- boundary (sd_surface d); do bb <- boundary (sd_bottom d);
            Ok (true, Some (terrain_view tree hist (me_nodes m) (me_faces m) te q extrapolate sb bb))
        end
    end.
  Definition fvcom_answer (f : file) (m : mesh) (v : variable) (q : Z) (extrapolate : bool) (pts : list spot) : result (list cell) :=
    match dget (fi_vars f) (va_varname v) with
    | None => Err KeyError
    | Some w =>
        do d <- sigma_depth f m v q extrapolate;
        do order <- dimension_ordering None GOther (length (va_shape v)) true (fst d);
        at_grid (mesh_interp tree hist (me_nodes m) (me_faces m) (place_of (va_loc v)) (fm_part w)) order (va_shape v)
          (Some (time_value now (va_time v))) (snd d) q extrapolate pts
    end.
  Definition ask_fvcom (f : file) (k : string) (q : Z) (extrapolate : bool) (pts : list spot) : result (list cell) :=
    do mv <- open_fvcom_dataset f;
    match dget (snd mv) k with
    | None => Err KeyError
    | Some v => fvcom_answer f (fst mv) v q extrapolate pts
    end.
End Reading.
