(** Model of saving a dataset on a mesh and opening the file again, up to the
    answers: the file that DSaveModel writes (gridded/gridded.py:204-223) as
    FMeshModel reads it, and Variable.at (gridded/variable.py:524-770) of a
    variable before it is saved. *)
From Coq Require Import String.
From Verif Require Import Common TimeModel GridTypeModel VariableModel UGridGeomModel UFileModel LoadModel DSaveModel WholeModel FMeshModel.
Open Scope string_scope.
Open Scope list_scope.
Open Scope nat_scope.

(** The file has no attributes of its own, and no variable of whole numbers but
    the index tables. *)
Definition to_mvar (s : svar) : mvar :=
  let v := sv_var s in
  mkMvar (map fst (sv_dims s)) (map snd (sv_dims s)) (fv_attrs v) (fv_topology_dimension v) (fv_start_index v) (fv_flag_values v)
    [] (fv_values v) (fv_table v) (fun ix => match ix with [] => map CVal (fv_values v) | _ => [] end).
Definition to_file (dims : list string) (f : list svar) : file :=
  mkFile None dims (map (fun s => (fv_name (sv_var s), to_mvar s)) f).

Section Asking.
  Context (tree : list pt -> list (list Z) -> list pt -> list Z) (hist : list nat -> list spot -> list ug_op).
  (** Variable.at of the variable that was saved, whatever time and depth it
      was made with. *)
  Definition ask_variable (nodes : list pt) (faces : list (list Z)) (v : dvar) (time : option time_obj) (has_depth : bool) (depth : option (depth_view (P := spot)))
    (q : Z) (extrapolate : bool) (pts : list spot) : result (list cell) :=
    let shape := [length (d_vals v)] in
    do order <- dimension_ordering None GOther (length shape) (match time with Some _ => true | None => false end) has_depth;
    at_grid (mesh_interp tree hist nodes faces (place_of (match d_loc v with Some l => l | None => "" end))
               (fun ix => match ix with [] => map CVal (d_vals v) | _ => [] end)) order shape time depth q extrapolate pts.
  (** [Dataset.save], [Dataset(filename)], then asking. *)
  Definition ask_saved (dateutil : string -> TFileModel.dparse) (cftime : string -> option (Z * Z * Z)) (now : time_obj) (d : dataset) (format : string)
    (k : string) (q : Z) (extrapolate : bool) (pts : list spot) : result (list cell) :=
    do f <- save_dataset d format;
    ask_file dateutil cftime now tree hist (to_file (dims_made (ds_grid d)) f) k q extrapolate pts.
End Asking.

(** A variable of an opened dataset as [save] sees it: [name] is the long name
    (gridded.py:170-178); and the grid. *)
Definition again_var (x : variable) (vals : list Q) : dvar := mkDvar (va_name x) (Some (va_loc x)) vals (va_attrs x).
Definition again_coords (l : list coord) : list (Q * Q) := match numbers l with Some ps => ps | None => [] end.
Definition again_grid (u : ugrid) : sgrid :=
  mkSgrid (ug_mesh u) (again_coords (ug_nodes u)) (ug_faces u) (ug_face_face u) None (ug_bounds u) (ug_edges u)
    (option_map again_coords (ug_face_coords u)) (option_map again_coords (ug_edge_coords u)) (option_map again_coords (ug_bound_coords u)).
