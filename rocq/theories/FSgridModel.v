(** Model of the way from a file that describes its staggered grid by a topology
    variable (the SGRID convention) to the answers of its variables: as
    FStagModel, with the grid read by SGrid.load_grid (pysgrid/sgrid.py:181-238,
    by gridded/grids.py:490-505, 550-555) in place of a search for names. *)
From Coq Require Import Reals String.
From Verif Require Import Common SAttrModel SVarModel SSaveModel TimeModel GridTypeModel VariableModel DepthModel MaskModel SGridModel SGridInterpModel TFileModel LoadModel
  VLoadModel FMeshModel SWholeModel FStagModel.
Open Scope string_scope.
Open Scope list_scope.
Open Scope nat_scope.

(** The file as the reader of SSaveModel sees it.  The numbers are left out: the
    reader only passes them on, and they are taken from [sfile] below. *)
Definition to_svar (kv : string * mvar) : svar :=
  mkSvar (fst kv) (fm_dims (snd kv)) (fm_attrs (snd kv)) (fm_topology_dimension (snd kv)) (fm_shape (snd kv)).
Definition as_sgrid (f : file) : SSaveModel.nfile := SSaveModel.mkNfile [] (map (fun kv => mkFdata (to_svar kv) []) (fi_vars f)).
(** pysgrid/utils.py:22-43: the arrays are copied into one; another shape is
    an error (broadcasting is not modelled).  The angles are not used. *)
Definition paired (lon lat : values) : result values := if shape_eqb (fst lon) (fst lat) then Ok lon else Err ValueError.

Definition pad_of (w : string) : pad :=
  if String.eqb w "none" then PadNone else if String.eqb w "low" then PadLow else if String.eqb w "high" then PadHigh
  else if String.eqb w "both" then PadBoth else PadOther.
Definition pads_of (o : option (list padding)) : pad_src :=
  match o with Some l => PSGrid (map (fun p => pad_of (pad_type p)) l) | None => PSUnset end.

(** Every variable of the file becomes an attribute of the grid object (1410),
    which properties without a setter do not allow (grids.py:89, sgrid.py:242,
    291-301).  Names of other attributes of the object replace them: not
    modelled. *)
Definition read_only : list string := ["shape"; "info"; "non_grid_variables"; "nodes"; "centers"].
Definition attributes : list string :=
  ["node_lon"; "node_lat"; "node_mask"; "center_lon"; "center_lat"; "center_mask"; "edge1_lon"; "edge1_lat"; "edge1_mask"; "edge2_lon"; "edge2_lat"; "edge2_mask";
   "edges"; "node_padding"; "edge1_padding"; "edge2_padding"; "grid_topology_var"; "dimensions"; "node_dimensions"; "node_coordinates"; "edge1_coordinates";
   "edge2_coordinates"; "angles"; "edge1_dimensions"; "edge2_dimensions"; "faces"; "face_padding"; "center_padding"; "face_coordinates"; "face_dimensions"; "vertical_padding";
   "vertical_dimensions"; "tree"; "use_masked_boundary"; "grid_topology"; "masked_interpolant_behavior"; "name"; "filename"; "padding_slices"; "topology_dimension";
   "load_grid"; "get_all_face_padding"; "get_all_edge_padding"; "all_padding"; "save_as_netcdf"; "infer_location"; "get_efficient_slice"; "locate_faces"; "index_of";
   "locate_nearest"; "apply_padding_to_idxs"; "get_padding_by_location"; "get_padding_slices"; "get_variable_by_index"; "get_variable_at_index"; "build_kdtree";
   "build_celltree"; "nearest_var_to_points"; "mirror_mask_values"; "compute_interpolant"; "interpolate_var_to_points"; "geo_to_logical"; "x_to_l"; "from_netCDF"; "import_variable"].
Definition clash (names : list string) (f : file) : bool := existsb (fun kv => isin (fst kv) names) (fi_vars f).
Definition two_dim (o : option (values * values)) : bool :=
  match o with Some (a, b) => (length (fst a) =? 2) && (length (fst b) =? 2) | None => false end.

(** RuntimeError stands for what is not modelled here: grids of another class or
    found by names, nodes that are not two-dimensional, replaced attributes. *)
Definition open_sgrid (s : sfile) : result stag :=
  let f := sf_file s in
  do a <- grid_from_netcdf (as_grid f) None None;
  match a, find_topology_var (as_grid f) with
  | ReadWith Grid_S, Some tv =>
      do g <- SSaveModel.load paired (as_sgrid f);
      if clash read_only f then Err AttributeError
      else if clash attributes f then Err RuntimeError
      else match g_node_coordinates g with
           | Some [x; y] =>
               if two_dim (g_node g) then
                 let lon := sf_nums s x in
                 let center := match g_center g, g_face_coordinates g with Some _, Some (c :: _) => Some (shape2 (sf_nums s c)) | _, _ => None end in
                 let pads := mkPads (shape2 lon) center None (pads_of (snd (g_face_dims g))) (pads_of (snd (g_edge1_dims g))) (pads_of (snd (g_edge2_dims g))) in
                 let '(_, cm, _, _) := g_masks g in
                 Ok (mkStag (mkSg lon (sf_nums s y) pads (option_map (sf_flags s) cm) BZero)
                       (match g_center g with Some _ => true | None => false end) (match g_edge1 g with Some _ => true | None => false end)
                       (match g_edge2 g with Some _ => true | None => false end) (topology_of f tv))
               else Err RuntimeError
           | _ => Err RuntimeError
           end
  | _, _ => Err RuntimeError
  end.

Section Opening.
  Context (dateutil : string -> dparse) (cftime : string -> option (Z * Z * Z)).
  (** gridded.py:97-103 *)
  Definition open_sgrid_dataset (s : sfile) : result (stag * dict variable) :=
    do t <- open_sgrid s;
    do vs <- LoadModel.load_variables dateutil cftime (do _ <- read_depth (sf_file s); Ok tt) (stag_api t) (as_load (sf_file s));
    Ok (t, vs).
  Context (now : time_obj) (find : R * R -> option (Z * Z)).
  Definition ask_sgrid (s : sfile) (k : string) (q : Z) (extrapolate : bool) (pts : list rspot) : result (list rcell) :=
    do tv <- open_sgrid_dataset s;
    match dget (snd tv) k with
    | None => Err KeyError
    | Some v => stag_answer now find s (fst tv) v q extrapolate pts
    end.
End Opening.
