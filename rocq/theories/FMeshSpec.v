(** What is in a file with a mesh, without the helpers of the model. *)
From Coq Require Import String.
From Verif Require Import Common TimeSpec DepthSpec GridTypeModel GridTypeSpec MaskSpec UGridGeomSpec UFileModel UFileSpec TFileModel TFileSpec
  LoadModel LoadSpec FMeshModel.
Open Scope string_scope.
Open Scope list_scope.
Open Scope nat_scope.

Definition UniqueNames (f : file) : Prop := NoDup (map fst (fi_vars f)).
Definition Attr (v : mvar) (a s : string) : Prop := dget (fm_attrs v) a = Some s.

(** ** The mesh *)
(** [mv] describes the mesh: it has the role, and no other variable has one
    that speaks of a topology. *)
Definition MeshVarOf (f : file) (mv : mvar) : Prop :=
  exists m, In (m, mv) (fi_vars f) /\ (exists r, Attr mv "cf_role" r /\ Padded r "mesh_topology") /\
    (fm_topology_dimension mv = Some 1%Z \/ fm_topology_dimension mv = Some 2%Z) /\
    forall n v r, In (n, v) (fi_vars f) -> Attr v "cf_role" r -> Mentions "topology" r -> n = m.
(** The nodes: two coordinate variables, in either order. *)
Definition NodesIn (f : file) (mv : mvar) (nodes : list point) : Prop :=
  exists text a b va vb lon lat, Attr mv "node_coordinates" text /\ Words text [a; b] /\
    In (a, va) (fi_vars f) /\ In (b, vb) (fi_vars f) /\
    ((LonVar (to_mesh (a, va)) /\ LatVar (to_mesh (b, vb)) /\ lon = fm_reals va /\ lat = fm_reals vb) \/
     (LatVar (to_mesh (a, va)) /\ LonVar (to_mesh (b, vb)) /\ lon = fm_reals vb /\ lat = fm_reals va)) /\
    map fst nodes = lon /\ map snd nodes = lat.
(** The faces: an index table with a start index, of one row per face (not
    three rows) or of one row per corner. *)
Definition FacesIn (f : file) (mv : mvar) (faces : list (list Z)) : Prop :=
  exists c cv s, Attr mv "face_node_connectivity" c /\ In (c, cv) (fi_vars f) /\ fm_start_index cv = Some s /\ (0 <= s)%Z /\
    Forall (fun r => length r = 3) faces /\
    ((length faces <> 3 /\ Stored s (fm_flag_values cv) (map (map Some) faces) (fm_table cv)) \/
     (exists u, Flipped 3 (map (map Some) faces) u /\ Stored s (fm_flag_values cv) u (fm_table cv))).
(** A name that no attribute of the mesh variable mentions. *)
Definition Unmentioned (mv : mvar) (k : string) : Prop :=
  k <> "1" /\ k <> "2" /\ forall a text words, In (a, text) (fm_attrs mv) -> Words text words -> ~ In k words.

(** ** The time *)
(** The instants (UTC) of the samples of [w], whatever zone the units are
    written in. *)
Definition InstantsIn (cftime : string -> option (Z * Z * Z)) (f : file) (w : mvar) (ts : list Z) : Prop :=
  exists n aw, TimeAxisOf (as_load f) (to_load w) n /\ In (n, aw) (fi_vars f) /\
    let axis := mkTvar (fm_dims aw) None (dget (fm_attrs aw) "units") (fm_ints aw) in
    FileInstants cftime axis ts /\ (exists u, tv_units axis = Some u /\ Mentions "since" u) /\ StrictlyIncreasing ts.

(** ** The depth *)
Definition depth_names : list string := ["depth"; "depth_levels"; "Depth"].
(** The variable of the levels, by the first of the names that is in the file. *)
Definition LevelVar (f : file) (dv : mvar) : Prop :=
  exists n pre post, depth_names = pre ++ n :: post /\ In (n, dv) (fi_vars f) /\ forall m, In m pre -> ~ In m (map fst (fi_vars f)).
(** No variable could be taken for a bathymetry, and none is labelled with a
    letter of "depth". *)
Definition OnlyLevels (f : file) : Prop :=
  forall n v, In (n, v) (fi_vars f) -> n <> "h" /\
    forall a l, In a ["long_name"; "standard_name"] -> Attr v a l ->
      ~ In l ["bathymetry at RHO-points"; "Final bathymetry at RHO-points"; "sea_floor_depth_below_geoid"; "d"; "e"; "p"; "t"; "h"].
(** The levels as loaded: the shallowest is taken for the surface. *)
Definition Surfaced (levels ls : list Q) : Prop :=
  length ls = length levels /\ exists k x0, nth_error levels k = Some x0 /\ nth_error ls k = Some 0%Q /\
    forall i x, nth_error levels i = Some x -> i <> k -> (x0 < x)%Q /\ nth_error ls i = Some x.
(** Without levels the samples are over time and place; with levels, over the
    three. *)
Definition LevelsIn (f : file) (levels : option (list Q)) : Prop :=
  match levels with
  | None => True
  | Some ls => OnlyLevels f /\ exists dv, LevelVar f dv /\ Surfaced (fm_reals dv) ls /\ 2 <= length (fm_reals dv) /\
      Monotone (fm_reals dv) /\ forall x, In x (fm_reals dv) -> (0 <= x)%Q
  end.
Definition Shaped (w : mvar) (nt : nat) (levels : option (list Q)) (n : nat) : Prop :=
  fm_shape w = [nt] ++ match levels with Some ls => [length ls] | None => [] end ++ [n].
