(** Model of the way from a file of ROMS, with a staggered grid and
    terrain-following levels, to the answers of its variables: as FStagModel, with
    [Depth.from_netCDF] (gridded/depth.py:981-1022) called for each variable with
    its own time (gridded/variable.py:264-273), [S_Depth.from_netCDF]
    (depth.py:396-570, SLoadModel) with the values it averages, and ROMS_Depth
    (RTerrModel).  FVCOM_Depth is not modelled on staggered grids. *)
From Coq Require Import Reals String.
From Verif Require Import Common TimeModel GridTypeModel VariableModel DepthModel MaskModel SGridModel SearchModel TFileModel LoadModel SLoadModel SGridInterpModel VLoadModel
  FMeshModel SWholeModel RTerrModel FStagModel.
Open Scope string_scope.
Open Scope list_scope.
Open Scope nat_scope.

(** depth.py:524-525: [(x[0:-1,:] + x[1:,:]) / 2], then the same over the columns;
    548-549 is the same for each time. *)
Definition rd_mean (x y : rd) : rd := mkRd ((d_val x + d_val y) / 2)%R (d_mask x || d_mask y).
Definition half_rows (a : arr rd) : arr rd := mkArr (a_r a - 1) (a_c a) (fun i j => rd_mean (a_at a i j) (a_at a (S i) j)).
Definition half_cols (a : arr rd) : arr rd := mkArr (a_r a) (a_c a - 1) (fun i j => rd_mean (a_at a i j) (a_at a i (S j))).
Definition to_psi (a : arr rd) : arr rd := half_cols (half_rows a).
Definition nv_psi (v : nvar) : nvar := mkNvar (nv_lead v) (fun ix => to_psi (nv_at v ix)).

(** What search_netcdf_vars finds, as variables of the file. *)
Definition found_in (f : file) : dict (option fref) :=
  map (fun kv => (fst kv, match snd kv with
                          | Some v => option_map (fun w => mkFref (as_load f) (v_name v) (to_load w)) (dget (fi_vars f) (v_name v))
                          | None => None
                          end)) (search_vars roms_names roms_cf (as_names f) (as_names f)).
(** variable.py:273: [time] and [grid] are passed, nothing else. *)
Definition depth_args (t : time_obj) : sargs := mkSargs None (Some t) TzNone None None false ZNone None None None None.
(** The depth object. *)
Inductive adepth := Flat (d : fdepth) | Sigma (d : sdepth).

Section Reading.
  Context (dateutil : string -> dparse) (cftime : string -> option (Z * Z * Z)) (now : time_obj).
  (** depth.py:993-1022; the name of the depth object is not observed. *)
  Definition read_any (f : file) (g : grid_api) (t : time_obj) : result adepth :=
    do c <- depth_factory sd_ld_types (can_make f);
    match c with
    | Some ROMS_Depth => do d <- load_sdepth dateutil cftime g (as_load f) (found_in f) (depth_args t) CROMS 0; Ok (Sigma d)
    | _ => do d <- read_depth f; Ok (Flat d)
    end.
  (** LoadModel.load_variable with the depth read for the variable's time. *)
  Definition roms_load (f : file) (g : grid_api) (k : string) (v : lvar) (l : string) : result variable :=
    let a := plain_args k v l in
    load_variable dateutil cftime
      (do t <- load_time dateutil cftime (as_load f) v a; do _ <- read_any f g (time_value now (fst t)); Ok tt) g (as_load f) 0 a.
  (** LoadModel.load_each *)
  Fixpoint roms_each (f : file) (g : grid_api) (vs : dict lvar) : result (dict variable) :=
    match vs with
    | [] => Ok []
    | (k, v) :: r =>
        if is_grid_name g k then roms_each f g r
        else
          do l <- find_location g v;
          match l with
          | None => roms_each f g r
          | Some l =>
              do x <- roms_load f g k v l;
              do xs <- roms_each f g r;
              Ok ((k, x) :: xs)
          end
    end.
  Definition open_roms_dataset (s : sfile) : result (stag * dict variable) :=
    do t <- open_stag s;
    do vs <- roms_each (sf_file s) (stag_api t) (lf_vars (as_load (sf_file s)));
    Ok (t, vs).

  (** ** The depth, with its values *)
  (** [self.s_w] and so on: attributes set from the terms found. *)
  Definition term (f : file) (d : sdepth) (k : string) : result (list Q) :=
    match dget (sd_terms d) k with
    | Some (Values n) => match dget (fi_vars f) n with Some w => Ok (fm_reals w) | None => Err KeyError end
    | _ => Err AttributeError
    end.
  Definition values_of (s : sfile) (x : source) : result nvar :=
    match x with
    | FromFile n => Ok (sf_data s n)
    | Averaged n => Ok (nv_psi (sf_data s n))
    | _ => Err RuntimeError
    end.
  Definition the_loc (o : option string) : result string := match o with Some l => Ok l | None => Err RuntimeError end.
  Definition terrain_of (s : sfile) (d : sdepth) : result rterr :=
    do sw <- term (sf_file s) d "s_w"; do srho <- term (sf_file s) d "s_rho"; do Cw <- term (sf_file s) d "Cs_w"; do Cr <- term (sf_file s) d "Cs_r";
    do hc <- term (sf_file s) d "hc";
    do h <- values_of s (sd_bathy d); do hl <- the_loc (sd_bathy_loc d);
    do z <- match sd_zeta d with
            | Zero => Ok None
            | x => do v <- values_of s x; do l <- the_loc (sd_zeta_loc d);
                   let a := nv_at v [0] in Ok (Some (time_value now (sd_time d), v, (a_r a, a_c a), l))
            end;
    match hc with
    | [hc] => Ok (mkRT (mkROMS sw srho Cw Cr hc (sd_vtransform d)) (nv_at h []) hl z)
    | _ => Err RuntimeError            (* an array of critical depths: not modelled *)
    end.
  Definition boundary (c : string) : result bcond :=
    if String.eqb c "extrapolate" then Ok BExtrapolate else if String.eqb c "mask" then Ok DepthModel.BMask else Err RuntimeError.

  (** ** The answers *)
  Context (find : R * R -> option (Z * Z)).
  Definition roms_depth (s : sfile) (t : stag) (v : variable) (q : Z) (extrapolate : bool) : result (bool * option (aview rspot R)) :=
    match va_depth v with
    | DepthNone => Ok (false, None)
    | DepthGiven => Err RuntimeError    (* not from the file *)
    | DepthRead =>
        do d <- read_any (sf_file s) (stag_api t) (time_value now (va_time v));
        match d with
        | Flat d => stag_depth (sf_file s) v
        | Sigma d =>
            do te <- terrain_of s d; do sb <- boundary (sd_surface d); do bb <- boundary (sd_bottom d);
            Ok (true, Some (r_view (st_grid t) find te q extrapolate sb bb))
        end
    end.
  Definition roms_answer (s : sfile) (t : stag) (v : variable) (q : Z) (extrapolate : bool) (pts : list rspot) : result (list rcell) :=
    do d <- roms_depth s t v q extrapolate;
    do order <- dimension_ordering None GStructured (length (va_shape v)) true (fst d);
    stag_at (st_grid t) find (va_loc v) order (sf_data s (va_varname v)) (va_shape v) (Some (time_value now (va_time v))) (snd d) q extrapolate pts.
  Definition ask_roms (s : sfile) (k : string) (q : Z) (extrapolate : bool) (pts : list rspot) : result (list rcell) :=
    do tv <- open_roms_dataset s;
    match dget (snd tv) k with
    | None => Err KeyError
    | Some v => roms_answer s (fst tv) v q extrapolate pts
    end.
End Reading.
