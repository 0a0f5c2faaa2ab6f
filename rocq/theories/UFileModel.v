(** Model of reading and writing UGRID files: gridded/pyugrid/read_netcdf.py
    and UGrid.save, gridded/pyugrid/ugrid.py:992-1151. *)
From Coq Require Import String Ascii QArith.
From Verif Require Import Common MaskModel GridTypeModel ChainModel VerdatModel UGridModel.
Open Scope string_scope.
Open Scope list_scope.
Open Scope nat_scope.

(** An index table as netCDF4 returns it: rows of one length, [None] is a
    masked entry (a fill value). *)
Definition table := list (list (option Z)).
(** A variable of the file.  Text attributes are in [fv_attrs];
    topology_dimension, start_index and flag_values are numbers.  [fv_values]
    are the values of a one-dimensional variable, [fv_table] those of a
    two-dimensional one (variables of other ranks are not modelled). *)
Record fvar := mkFvar {
  fv_name : string; fv_attrs : dict string; fv_topology_dimension : option Z;
  fv_values : list Q; fv_table : table; fv_start_index : option Z; fv_flag_values : option Z }.
Definition ufile := list fvar.
Definition fget (f : ufile) (n : string) : option fvar := find (fun v => String.eqb n (fv_name v)) f.

(** read_netcdf.py:39-60; the answer None counts as False. *)
Definition is_mesh (v : fvar) : bool :=
  match dget (fv_attrs v) "cf_role" with
  | None => false
  | Some r =>
      if String.eqb (strip r) "mesh_topology" then
        match fv_topology_dimension v with
        | None => false
        | Some d => (d =? 1)%Z || (d =? 2)%Z
        end
      else false
  end.
Definition is_valid_mesh (f : ufile) (n : string) : bool :=
  match fget f n with None => false | Some v => is_mesh v end.
(** read_netcdf.py:24-36 *)
Definition find_mesh_names (f : ufile) : list string := filter (is_valid_mesh f) (map fv_name f).
(** read_netcdf.py:138-153 *)
Definition choose_mesh (f : ufile) (mesh_name : option string) : result string :=
  match mesh_name with
  | None => match find_mesh_names f with [n] => Ok n | _ => Err ValueError end
  | Some n => if is_valid_mesh f n then Ok n else Err ValueError
  end.

(** ** Coordinates, read_netcdf.py:158-203 *)
(** A column of np.empty that nothing was assigned to holds arbitrary
    numbers: [None]. *)
Definition coord := (option Q * option Q)%type.
Definition east_units := ["degrees_east"; "degree_east"; "degree_E"; "degrees_E"; "degreeE"; "degreesE"].
Definition north_units := ["degrees_north"; "degree_north"; "degree_N"; "degrees_N"; "degreeN"; "degreesN"].
(** Which column: the standard name, or the units when there is none. *)
Definition axis_name (v : fvar) : result string :=
  match dget (fv_attrs v) "standard_name" with
  | Some s => Ok s
  | None =>
      match dget (fv_attrs v) "units" with
      | None => Err ValueError
      | Some u => if isin u east_units then Ok "longitude"
                  else if isin u north_units then Ok "latitude" else Err ValueError
      end
  end.
(** [nodes[:, k] = var[:]]: the lengths must agree, or the values be one
    number for all. *)
Definition spread (n : nat) (vals : list Q) : result (list Q) :=
  if length vals =? n then Ok vals
  else match vals with [x] => Ok (repeat x n) | _ => Err ValueError end.
Definition set_lon (a : list coord) (vals : list Q) : list coord := map (fun cv => (Some (snd cv), snd (fst cv))) (combine a vals).
Definition set_lat (a : list coord) (vals : list Q) : list coord := map (fun cv => (fst (fst cv), Some (snd cv))) (combine a vals).
Definition coord_step (a : list coord) (v : fvar) : result (list coord) :=
  do s <- axis_name v;
  if isin s ["latitude"; "projection_y_coordinate"] then do l <- spread (length a) (fv_values v); Ok (set_lat a l)
  else if isin s ["longitude"; "projection_x_coordinate"] then do l <- spread (length a) (fv_values v); Ok (set_lon a l)
  else Err ValueError.
Fixpoint coord_steps (a : list coord) (vs : list fvar) : result (list coord) :=
  match vs with [] => Ok a | v :: r => do a' <- coord_step a v; coord_steps a' r end.
(** One entry of coord_defs (80-102): None when the mesh variable does not have
    the attribute and it is not required.  [coord_vars[0]] raises IndexError
    when the attribute names nothing. *)
Definition read_coords (f : ufile) (mesh : fvar) (role : string) (required : bool) : result (option (list coord)) :=
  match dget (fv_attrs mesh) role with
  | None => if required then Err ValueError else Ok None
  | Some text =>
      do vs <- mapM_res (fun n => match fget f n with Some v => Ok v | None => Err ValueError end) (split (strip text));
      match vs with
      | [] => Err IndexError
      | v0 :: _ => do a <- coord_steps (repeat (None, None) (length (fv_values v0))) vs; Ok (Some a)
      end
  end.

(** ** Connectivity, read_netcdf.py:206-238 *)
(** array.T *)
Definition width (t : table) : nat := match t with [] => 0 | r :: _ => length r end.
Definition transposed (t : table) : table := map (fun j => map (fun row => nth j row None) t) (seq 0 (width t)).
Definition unmasked (t : table) : list Z := flat_map (fun o => match o with Some z => [z] | None => [] end) (concat t).
(** array.max(): ValueError of an empty array, masked (None) of a masked one. *)
Definition table_max (t : table) : result (option Z) :=
  match concat t with
  | [] => Err ValueError
  | _ => Ok (match zmax (unmasked t) with Ok m => Some m | Err _ => None end)
  end.
Definition map_table (g : Z -> Z) (t : table) : table := map (map (option_map g)) t.
(** 213-236: the array given to the grid.  A comparison with a masked maximum
    is masked, which counts as False.  Masked entries stay as they are under
    subtraction, and no masked entry equals the flag. *)
Definition read_table (num_ind nodes : nat) (v : fvar) : result table :=
  let a := if length (fv_table v) =? num_ind then transposed (fv_table v) else fv_table v in
  do start <- match fv_start_index v with
              | Some s => Ok s
              | None => do m <- table_max a;
                        Ok (match m with Some m => if (m =? Z.of_nat nodes)%Z then 1%Z else 0%Z | None => 0%Z end)
              end;
  Ok (if (1 <=? start)%Z then
        let b := map_table (fun x => x - start)%Z a in
        match fv_flag_values v with
        | Some flag => map_table (fun x => if (x =? flag - start)%Z then flag else x) b
        | None => b
        end
      else a).
(** The array of a role: None if the mesh variable lacks the attribute, or the
    file the variable it names. *)
Definition read_role (f : ufile) (mesh : fvar) (role : string) (num_ind nodes : nat) : result (option table) :=
  match dget (fv_attrs mesh) role with
  | None => Ok None
  | Some n => match fget f n with
              | None => Ok None
              | Some v => do t <- read_table num_ind nodes v; Ok (Some t)
              end
  end.

(** ugrid.py:298-330 for an array that may have masked entries; max and min
    are those of the other entries, and no test holds of a masked value. *)
Definition assign_faces (n : nat) (t : table) : result table :=
  let N := Z.of_nat n in
  match concat t, zmax (unmasked t) with
  | [], _ => Err ValueError
  | _, Err _ => Ok t
  | _, Ok mx =>
      if (mx >? N)%Z then Err ValueError
      else
        do mn <- zmin (unmasked t);
        do t' <- (if (mx =? N)%Z then
                    if (mn >=? 1)%Z then Ok (map_table (fun x => if (x >? 0)%Z then x - 1 else x)%Z t) else Err ValueError
                  else Ok t);
        do mn <- zmin (unmasked t');
        if (mn <? -1)%Z then Err ValueError else Ok t'
  end.
(** ugrid.py:375-384: the shape must be that of the faces. *)
Definition assign_face_face (faces : option table) (t : table) : result table :=
  match faces with
  | None => Err TypeError
  | Some f => if (length t =? length f) && (width t =? width f) then Ok t else Err ValueError
  end.

(** What a file holds of a grid.  Edges and boundaries are assigned without
    checks (349-372). *)
Record ugrid := mkUgrid {
  ug_mesh : string; ug_nodes : list coord; ug_faces : option table; ug_face_face : option table;
  ug_bounds : option table; ug_edges : option table;
  ug_face_coords : option (list coord); ug_edge_coords : option (list coord); ug_bound_coords : option (list coord) }.
Definition opt_bind {A B} (f : A -> result B) (o : option A) : result (option B) :=
  match o with None => Ok None | Some a => do b <- f a; Ok (Some b) end.
(** read_netcdf.py:105-238 *)
Definition load_grid (f : ufile) (mesh_name : option string) : result ugrid :=
  do n <- choose_mesh f mesh_name;
  match fget f n with
  | None => Err KeyError
  | Some mesh =>
      do nodes <- read_coords f mesh "node_coordinates" true;
      let nodes := match nodes with Some l => l | None => [] end in
      do fc <- read_coords f mesh "face_coordinates" false;
      do ec <- read_coords f mesh "edge_coordinates" false;
      do bc <- read_coords f mesh "boundary_coordinates" false;
      do faces <- read_role f mesh "face_node_connectivity" 3 (length nodes);
      do faces <- opt_bind (assign_faces (length nodes)) faces;
      do ff <- read_role f mesh "face_face_connectivity" 3 (length nodes);
      do ff <- opt_bind (assign_face_face faces) ff;
      do bounds <- read_role f mesh "boundary_node_connectivity" 2 (length nodes);
      do edges <- read_role f mesh "edge_node_connectivity" 2 (length nodes);
      Ok (mkUgrid n nodes faces ff bounds edges fc ec bc)
  end.

(** ** UGrid.save, ugrid.py:992-1151, without data variables *)
(** The grid: as [ugrid], with numbers for coordinates. *)
Record sgrid := mkSgrid {
  s_mesh : string; s_nodes : list (Q * Q); s_faces : option table; s_face_face : option table; s_face_edge : option table;
  s_bounds : option table; s_edges : option table;
  s_face_coords : option (list (Q * Q)); s_edge_coords : option (list (Q * Q)); s_bound_coords : option (list (Q * Q)) }.
Definition given {A} (o : option A) (d : dict string) : dict string := match o with Some _ => d | None => [] end.
(** 1026-1059 *)
Definition mesh_var (g : sgrid) : fvar :=
  let m := s_mesh g in
  mkFvar m
    ([("cf_role", "mesh_topology"); ("long_name", "Topology data of 2D unstructured mesh");
      ("node_coordinates", m ++ "_node_lon " ++ m ++ "_node_lat")]%string
     ++ given (s_edges g) ([("edge_node_connectivity", m ++ "_edge_nodes")%string]
          ++ given (s_edge_coords g) [("edge_coordinates", m ++ "_edge_lon " ++ m ++ "_edge_lat")%string])
     ++ given (s_faces g) ([("face_node_connectivity", m ++ "_face_nodes")%string]
          ++ given (s_face_coords g) [("face_coordinates", m ++ "_face_lon " ++ m ++ "_face_lat")%string])
     ++ given (s_face_edge g) [("face_edge_connectivity", m ++ "_face_edges")%string]
     ++ given (s_face_face g) [("face_face_connectivity", m ++ "_face_links")%string]
     ++ given (s_bounds g) [("boundary_node_connectivity", m ++ "_boundary_nodes")%string])
    (Some 2%Z) [] [] None None.
(** 1061-1100: connectivity, with start_index 0. *)
Definition table_var (n role : string) (t : table) : fvar := mkFvar n [("cf_role", role)] None [] t (Some 0%Z) None.
(** 1102-1124 and 1126-1148: coordinates of one axis. *)
Definition axis_var (n : string) (east : bool) (c : list (Q * Q)) : fvar :=
  mkFvar n [("standard_name", if east then "longitude" else "latitude"); ("units", if east then "degrees_east" else "degrees_north")]
    None (map (if east then fst else snd) c) [] None None.
(** 1102-1124: the dimension exists only if the grid has the elements
    (netCDF4: ValueError); the numbers must fill it (writing one number, or to
    a dimension of length 0, is not modelled). *)
Definition save_coords (m loc : string) (elements : option table) (c : option (list (Q * Q))) : result (list fvar) :=
  match c with
  | None => Ok []
  | Some c =>
      match elements with
      | None => Err ValueError
      | Some t => if length t =? length c
                  then Ok [axis_var (m ++ "_" ++ loc ++ "_lat")%string false c; axis_var (m ++ "_" ++ loc ++ "_lon")%string true c]
                  else Err ValueError
      end
  end.
Definition save_table (n role : string) (t : option table) : list fvar :=
  match t with Some t => [table_var n role t] | None => [] end.
(** Names are new in the file: it is made empty (utilities.py:436-451). *)
Definition save_grid (g : sgrid) : result ufile :=
  let m := s_mesh g in
  do fc <- save_coords m "face" (s_faces g) (s_face_coords g);
  do ec <- save_coords m "edge" (s_edges g) (s_edge_coords g);
  do bc <- save_coords m "boundary" (s_bounds g) (s_bound_coords g);
  Ok ([mesh_var g]
      ++ save_table (m ++ "_face_nodes") "face_node_connectivity" (s_faces g)
      ++ save_table (m ++ "_edge_nodes") "edge_node_connectivity" (s_edges g)
      ++ save_table (m ++ "_boundary_nodes") "boundary_node_connectivity" (s_bounds g)
      ++ fc ++ ec ++ bc
      ++ [axis_var (m ++ "_node_lon") true (s_nodes g); axis_var (m ++ "_node_lat") false (s_nodes g)]).
