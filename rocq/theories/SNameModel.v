(** Model of the variables of a staggered grid as attributes of the grid object:
    gridded/pysgrid/sgrid.py:1403-1415 [get_variable_attributes], the attributes
    set by the constructor (104-152), the properties (242-387), and
    gridded/grids.py: [shape] of Grid_S.  Names with two leading underscores are
    not modelled (setting [__class__] is a TypeError). *)
From Coq Require Import String.
From Verif Require Import Common GridTypeModel VerdatModel SAttrModel SVarModel.
Open Scope string_scope.
Open Scope list_scope.
Open Scope nat_scope.

(** What the constructor sets, under the names that the object stores. *)
Definition parts : list string :=
  ["node_lon"; "node_lat"; "node_mask"; "center_lon"; "center_lat"; "center_mask"; "edge1_lon"; "edge1_lat"; "edge1_mask";
   "edge2_lon"; "edge2_lat"; "edge2_mask"; "edges"; "_node_padding"; "_edge1_padding"; "_edge2_padding"; "grid_topology_var";
   "variables"; "grid_variables"; "dimensions"; "node_dimensions"; "node_coordinates"; "edge1_coordinates"; "edge2_coordinates";
   "angles"; "edge1_dimensions"; "edge2_dimensions"; "faces"; "_face_padding"; "face_coordinates"; "face_dimensions";
   "_vertical_padding"; "vertical_dimensions"; "tree"; "use_masked_boundary"; "_l_coeffs"; "_m_coeffs"; "_kd_trees"; "_cell_tree";
   "_log_ind_memo_dict"; "_cell_ind_memo_dict"; "_cell_tree_mask"; "grid_topology"; "masked_interpolant_behavior"].
(** GridBase.__init__ *)
Definition base_parts : list string := ["name"; "filename"].
(** Properties without a setter; [shape] is that of Grid_S. *)
Definition read_only (grid_s : bool) : list string :=
  ["info"; "non_grid_variables"; "nodes"; "centers"] ++ (if grid_s then ["shape"] else []).
(** Properties with a setter store under another name. *)
Definition slot (n : string) : string :=
  if isin n ["node_padding"; "face_padding"; "edge1_padding"; "edge2_padding"; "vertical_padding"] then append "_" n
  else if String.eqb n "center_padding" then "_face_padding"
  else n.
Definition methods : list string :=
  ["load_grid"; "get_all_face_padding"; "get_all_edge_padding"; "all_padding"; "save_as_netcdf"; "infer_location"; "_save_common_components";
   "_get_geo_mask"; "_get_grid_vars"; "_hash_of_pts"; "_add_memo"; "_get_memoed"; "_compute_transform_coeffs"; "get_efficient_slice";
   "locate_faces"; "index_of"; "locate_nearest"; "apply_padding_to_idxs"; "get_padding_by_location"; "get_padding_slices";
   "get_variable_by_index"; "get_variable_at_index"; "build_kdtree"; "build_celltree"; "nearest_var_to_points"; "mirror_mask_values";
   "compute_interpolant"; "interpolate_var_to_points"; "geo_to_logical"; "x_to_l"].

Section Object.
  Context {P D : Type}.
  (** What an attribute holds: a part made by the constructor, a variable, a list of names. *)
  Inductive held := Part (p : P) | Vari (d : D) | Names (l : list string).
  Definition obj := dict held.
  Definition setattr (ro : list string) (o : obj) (n : string) (v : held) : result obj :=
    if isin n ro then Err AttributeError else Ok (dset o (slot n) v).
  (** What [getattr(o, n)] finds: an own attribute, or a method of the class. *)
  Inductive found := Own (h : held) | Method | Missing.
  Definition getattr (o : obj) (n : string) : found :=
    match dget o (slot n) with
    | Some h => Own h
    | None => if isin n methods then Method else Missing
    end.

  (** SGridVariable.create_variable, which reads the object. *)
  Context (describe : obj -> svar -> result D).
  Fixpoint set_variables (ro : list string) (o : obj) (vs : list svar) : result obj :=
    match vs with
    | [] => Ok o
    | v :: r =>
        do d <- describe o v;
        do o <- setattr ro o (sv_name v) (Vari d);
        set_variables ro o r
    end.
  (** 1403-1415 *)
  Definition get_variable_attributes (ro : list string) (o : obj) (vs : list svar) : result obj :=
    do o <- set_variables ro o vs;
    do o <- setattr ro o "variables" (Names (map sv_name vs));
    setattr ro o "grid_variables" (Names (map sv_name (filter (fun v => match attr v "grid" with Some _ => true | None => false end) vs))).
  (** 291-294 *)
  Definition non_grid_variables (o : obj) : result (list string) :=
    match dget o "variables", dget o "grid_variables" with
    | Some (Names vs), Some (Names gs) => Ok (filter (fun n => negb (isin n gs)) vs)
    | _, _ => Err TypeError
    end.
End Object.
Arguments held : clear implicits. Arguments found : clear implicits. Arguments obj : clear implicits.
