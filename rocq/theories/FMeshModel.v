(** Model of the way from a file to the answers of its variables, for files
    with a mesh: opening (gridded/gridded.py:85-103, grids.py:507-559,
    depth.py:981-1022) as composed of the models of its parts, and Variable.at
    (gridded/variable.py:524-770) on what was opened.

    One file is seen by the functions in four ways: by the grid factory
    (GridTypeModel), the reader of meshes (UFileModel), the loader of variables
    (LoadModel) and the search for names (SearchModel). *)
From Coq Require Import String.
From Verif Require Import Common TimeModel GridTypeModel VariableModel DepthModel UGridGeomModel SearchModel TFileModel
  LoadModel SLoadModel VLoadModel UFileModel WholeModel.
Open Scope string_scope.
Open Scope list_scope.
Open Scope nat_scope.

(** A variable: text attributes; the attributes that are numbers; its values
    as whole numbers, as numbers, and as an index table, where they are that;
    and [fm_part ix], the values along the last dimension at leading indices. *)
Record mvar := mkMvar {
  fm_dims : list string; fm_shape : list nat; fm_attrs : dict string;
  fm_topology_dimension : option Z; fm_start_index : option Z; fm_flag_values : option Z;
  fm_ints : list Z; fm_reals : list Q; fm_table : table; fm_part : list nat -> list cell }.
Record file := mkFile { fi_grid_type : option string; fi_dims : list string; fi_vars : dict mvar }.

Definition to_grid (kv : string * mvar) : gvar :=
  let a := fm_attrs (snd kv) in
  mkGvar (fst kv) (dget a "cf_role") (has a "node_coordinates") (has a "node_dimensions") (fm_shape (snd kv)) [].
Definition to_mesh (kv : string * mvar) : fvar :=
  let v := snd kv in
  mkFvar (fst kv) (fm_attrs v) (fm_topology_dimension v) (fm_reals v) (fm_table v) (fm_start_index v) (fm_flag_values v).
Definition to_load (v : mvar) : lvar := mkLvar (fm_dims v) (fm_shape v) (fm_attrs v) (fm_ints v).
Definition to_name (kv : string * mvar) : SearchModel.nvar :=
  mkNvar (fst kv) (dget (fm_attrs (snd kv)) "long_name") (dget (fm_attrs (snd kv)) "standard_name").
Definition as_grid (f : file) : gfile := mkGfile (fi_grid_type f) (map to_grid (fi_vars f)).
Definition as_mesh (f : file) : ufile := map to_mesh (fi_vars f).
Definition as_load (f : file) : lfile := mkLfile (fi_dims f) (map (fun kv => (fst kv, to_load (snd kv))) (fi_vars f)).
Definition as_names (f : file) : SearchModel.nfile := mkNfile 0 (map to_name (fi_vars f)).

(** ** The grid *)
Record mesh := mkMesh { me_nodes : list pt; me_faces : list (list Z); me_bounds : option nat; me_topology : dict string }.
(** Grids with arbitrary numbers for a coordinate, or with masked entries in
    the faces, are not modelled further. *)
Definition number (c : coord) : option pt := match c with (Some x, Some y) => Some (x, y) | _ => None end.
Fixpoint all_some {A} (l : list (option A)) : option (list A) :=
  match l with
  | [] => Some []
  | Some a :: r => match all_some r with Some r => Some (a :: r) | None => None end
  | None :: _ => None
  end.
Definition numbers (l : list coord) : option (list pt) := all_some (map number l).
Definition plain_table (t : table) : option (list (list Z)) := all_some (map all_some t).
(** grids.py:552-553: the attributes of the topology variable, [str] of each. *)
Definition topology_of (f : file) (v : gvar) : dict string :=
  match dget (fi_vars f) (gv_name v) with
  | Some m => fm_attrs m ++ match fm_topology_dimension m with
                            | Some d => [("topology_dimension", IsoModel.dec (Z.to_N d))]
                            | None => []
                            end
  | None => []
  end.
(** RuntimeError stands for what is not modelled here: grids of another class,
    or not read by the reader of meshes, and meshes as said above. *)
Definition open_mesh (f : file) : result mesh :=
  do a <- grid_from_netcdf (as_grid f) None None;
  match a, find_topology_var (as_grid f) with
  | ReadWith Grid_U, Some tv =>
      do u <- UFileModel.load_grid (as_mesh f) None;
      match numbers (ug_nodes u), match ug_faces u with Some t => plain_table t | None => None end with
      | Some ns, Some fs => Ok (mkMesh ns fs (option_map (@length _) (ug_bounds u)) (topology_of f tv))
      | _, _ => Err RuntimeError
      end
  | _, _ => Err RuntimeError
  end.
Definition api (m : mesh) : grid_api :=
  mkGrid KU (u_infer (length (me_nodes m)) (Some (length (me_faces m))) (me_bounds m)) (me_topology m).

(** ** The depth *)
(** depth.py:589-607, 158-169 *)
Definition sigma_can (names cf : roles) (f : file) : bool :=
  can_create_sigma (map (fun kv => (fst kv, match snd kv with Some _ => true | None => false end))
                        (search_vars names cf (as_names f) (as_names f))).
Definition can_make (f : file) (c : depth_class) : bool :=
  match c with
  | ROMS_Depth => sigma_can roms_names roms_cf f
  | FVCOM_Depth => sigma_can fvcom_names fvcom_cf f
  | L_Depth => can_create level_names level_cf (as_names f) (as_names f)
  end.
Inductive fdepth := Levels (l : list Q) | SurfaceOnly.
(** depth.py:993-1022 and 171-191; sigma depths are not modelled here. *)
Definition read_depth (f : file) : result fdepth :=
  do c <- depth_factory sd_ld_types (can_make f);
  match c with
  | None => Ok SurfaceOnly
  | Some L_Depth =>
      match dget (search_vars level_names level_cf (as_names f) (as_names f)) "depth_levels" with
      | Some (Some v) =>
          match dget (fi_vars f) (v_name v) with
          | Some w => do l <- l_from_levels (fm_reals w); Ok (Levels l)
          | None => Err KeyError
          end
      | _ => Err TypeError
      end
  | Some _ => Err RuntimeError
  end.

Section Opening.
  Context (dateutil : string -> dparse) (cftime : string -> option (Z * Z * Z)).
  (** gridded.py:97-103 *)
  Definition open_dataset (f : file) : result (mesh * dict variable) :=
    do m <- open_mesh f;
    do vs <- load_variables dateutil cftime (do _ <- read_depth f; Ok tt) (api m) (as_load f);
    Ok (m, vs).
  (** ** The answers *)
  (** [now]: what [Time()] holds.  [tree] and [hist] as in WholeModel. *)
  Context (now : time_obj) (tree : list pt -> list (list Z) -> list pt -> list Z) (hist : list nat -> list spot -> list ug_op).
  Definition place_of (l : string) : vloc :=
    if String.eqb l "node" then VNode else if String.eqb l "face" then VFace else VOther.
  (** The depth of the variable: whether there is one (for the ordering), and
      what it does; [self.depth.num_levels] (variable.py:724) is an
      AttributeError for the surface-only kind. *)
  Definition depth_of (f : file) (v : variable) : result (bool * option (depth_view (P := spot))) :=
    match va_depth v with
    | DepthNone => Ok (false, None)
    | DepthGiven => Err RuntimeError    (* not from the file *)
    | DepthRead =>
        do d <- read_depth f;
        Ok (true, match d with
                  | Levels l => Some (l_view deep l (Some (length l)) default_sbc default_bbc)
                  | SurfaceOnly => None
                  end)
    end.
  Definition answer (f : file) (m : mesh) (v : variable) (q : Z) (extrapolate : bool) (pts : list spot) : result (list cell) :=
    match dget (fi_vars f) (va_varname v) with
    | None => Err KeyError
    | Some w =>
        do d <- depth_of f v;
        do order <- dimension_ordering None GOther (length (va_shape v)) true (fst d);
        at_grid (mesh_interp tree hist (me_nodes m) (me_faces m) (place_of (va_loc v)) (fm_part w)) order (va_shape v)
          (Some (time_value now (va_time v))) (snd d) q extrapolate pts
    end.
  (** Opening the file, taking a variable and asking it. *)
  Definition ask_file (f : file) (k : string) (q : Z) (extrapolate : bool) (pts : list spot) : result (list cell) :=
    do mv <- open_dataset f;
    match dget (snd mv) k with
    | None => Err KeyError
    | Some v => answer f (fst mv) v q extrapolate pts
    end.
End Opening.
