(** Model of saving a dataset on an unstructured grid: gridded/gridded.py:204-223
    [Dataset.save], gridded/pyugrid/ugrid.py:1153-1200 [_save_variables]; the
    grid itself is UFileModel. *)
From Coq Require Import String Ascii QArith.
From Verif Require Import Common GridTypeModel MaskModel UFileModel UGridModel LoadModel.
Open Scope string_scope.
Open Scope list_scope.
Open Scope nat_scope.

(** A variable of the dataset: one-dimensional data and text attributes. *)
Record dvar := mkDvar { d_name : string; d_loc : option string; d_vals : list Q; d_attrs : dict string }.
(** A variable of the file with its dimensions and their lengths. *)
Record svar := mkSvar { sv_var : fvar; sv_dims : list (string * nat) }.

Definition count_of (t : option table) : result nat :=
  match t with Some t => Ok (length t) | None => Err TypeError end.  (* len(None) *)
(** 1159-1181: dimension, its length, and the coordinates attribute. *)
Definition place (g : sgrid) (loc : option string) : result (string * nat * option string) :=
  let m := s_mesh g in
  let co (l : string) (c : option (list (Q * Q))) :=
    match c with Some _ => Some (m ++ "_" ++ l ++ "_lon " ++ m ++ "_" ++ l ++ "_lat")%string | None => None end in
  match loc with
  | Some l =>
      if String.eqb l "node" then Ok ((m ++ "_num_node")%string, length (s_nodes g), co "node" (Some (s_nodes g)))
      else if String.eqb l "face" then do n <- count_of (s_faces g); Ok ((m ++ "_num_face")%string, n, co "face" (s_face_coords g))
      else if String.eqb l "edge" then do n <- count_of (s_edges g); Ok ((m ++ "_num_edge")%string, n, co "edge" (s_edge_coords g))
      else if String.eqb l "boundary" then do n <- count_of (s_bounds g); Ok ((m ++ "_num_boundary")%string, n, co "boundary" (s_bound_coords g))
      else Err ValueError
  | None => Err ValueError
  end.
(** 1190-1200: location, mesh and coordinates, then the variable's own
    attributes, which replace them.  netCDF4 refuses to set _FillValue of an
    existing variable. *)
Definition attrs_of (m loc : string) (c : option string) (own : dict string) : dict string :=
  fold_left (fun d kv => dset d (fst kv) (snd kv)) own
    ([("location", loc); ("mesh", m)] ++ match c with Some c => [("coordinates", c)] | None => [] end).
(** The name must be new in the file; the data must fill the dimension
    (otherwise netCDF4 raises, or repeats a single number, which is not
    modelled). *)
Definition save_var (g : sgrid) (used : list string) (v : dvar) : result svar :=
  do p <- place g (d_loc v);
  let '(dim, n, c) := p in
  let loc := match d_loc v with Some l => l | None => "" end in
  if isin (d_name v) used then Err RuntimeError
  else if negb (length (d_vals v) =? n) then Err ValueError
  else if has (d_attrs v) "_FillValue" then Err AttributeError
  else Ok (mkSvar (mkFvar (d_name v) (attrs_of (s_mesh g) loc c (d_attrs v)) None (d_vals v) [] None None) [(dim, n)]).
Fixpoint save_vars (g : sgrid) (used : list string) (vs : list dvar) : result (list svar) :=
  match vs with
  | [] => Ok []
  | v :: r => do s <- save_var g used v; do ss <- save_vars g (d_name v :: used) r; Ok (s :: ss)
  end.

(** Dimensions of the grid's own variables: 1015-1024 and the createVariable
    calls of 1026-1148. *)
Definition grid_dims (g : sgrid) (name : string) : list (string * nat) :=
  let m := s_mesh g in
  let len (t : option table) := match t with Some t => length t | None => 0 end in
  let two := ("two", 2) in
  let is (s : string) := String.eqb name (m ++ s) in
  let face := ((m ++ "_num_face")%string, len (s_faces g)) in
  let edge := ((m ++ "_num_edge")%string, len (s_edges g)) in
  let bound := ((m ++ "_num_boundary")%string, len (s_bounds g)) in
  if is "_face_nodes" then [face; ((m ++ "_num_vertices")%string, match s_faces g with Some t => width t | None => 0 end)]
  else if is "_edge_nodes" then [edge; two]
  else if is "_boundary_nodes" then [bound; two]
  else if is "_face_lat" || is "_face_lon" then [face]
  else if is "_edge_lat" || is "_edge_lon" then [edge]
  else if is "_boundary_lat" || is "_boundary_lon" then [bound]
  else if is "_node_lon" || is "_node_lat" then [((m ++ "_num_node")%string, length (s_nodes g))]
  else [].
Definition dims_made (g : sgrid) : list string :=
  let m := s_mesh g in
  let opt (t : option table) (l : list string) := match t with Some _ => l | None => [] end in
  [(m ++ "_num_node")%string] ++ opt (s_edges g) [(m ++ "_num_edge")%string] ++ opt (s_bounds g) [(m ++ "_num_boundary")%string]
  ++ opt (s_faces g) [(m ++ "_num_face")%string; (m ++ "_num_vertices")%string] ++ ["two"].

(** gridded.py:204-223.  The variables' keys in the dataset are not used, and
    neither are the attributes of the dataset; the file is netCDF4 whatever
    the format asked for. *)
Record dataset := mkDataset { ds_grid : sgrid; ds_vars : dict dvar; ds_attrs : dict string }.
Definition save_dataset (d : dataset) (format : string) : result (list svar) :=
  if negb (isin format ["netcdf3"; "netcdf4"]) then Err ValueError
  else
    let g := ds_grid d in
    do f <- save_grid g;
    do vs <- save_vars g (map fv_name f) (map snd (ds_vars d));
    Ok (map (fun v => mkSvar v (grid_dims g (fv_name v))) f ++ vs).

(** ** Reading it again *)
(** What LoadModel needs of such a file. *)
Definition lvar_of (s : svar) : lvar :=
  mkLvar (map fst (sv_dims s)) (map snd (sv_dims s)) (fv_attrs (sv_var s)) [].
Definition lfile_of (dims : list string) (f : list svar) : lfile :=
  mkLfile dims (map (fun s => (fv_name (sv_var s), lvar_of s)) f).
(** grids.py:549-555: the attributes of the mesh variable, as text. *)
Definition api_of (u : ugrid) (mesh : fvar) : grid_api :=
  mkGrid KU (u_infer (length (ug_nodes u)) (option_map (@length _) (ug_faces u)) (option_map (@length _) (ug_bounds u)))
    (fv_attrs mesh ++ match fv_topology_dimension mesh with Some _ => [("topology_dimension", "2")] | None => [] end).
(** gridded.py:96-103 *)
Definition load_dataset dateutil cftime (dims : list string) (f : list svar) : result (ugrid * dict (variable * list Q)) :=
  let file := map sv_var f in
  do u <- load_grid file None;
  match fget file (ug_mesh u) with
  | None => Err KeyError
  | Some mesh =>
      do xs <- load_variables dateutil cftime (Err ValueError) (api_of u mesh) (lfile_of dims f);
      Ok (u, map (fun kx => (fst kx, (snd kx, match fget file (fst kx) with Some v => fv_values v | None => [] end))) xs)
  end.
