(** Datasets that can be saved and opened again. *)
From Coq Require Import String.
From Verif Require Import Common GridTypeModel GridTypeSpec MaskSpec UFileModel UFileSpec DSaveModel DSaveSpec.
Open Scope string_scope.
Open Scope list_scope.
Open Scope nat_scope.

(** A mesh of [faces], with a name of one word that does not mention time;
    arrays of one row per element, not three faces nor two edges or boundaries;
    coordinates of faces and edges that fit them, none of boundaries; variables
    of different names, one value per element of their place. *)
Record Savable (d : dataset) (faces : list (list Z)) : Prop := {
  sa_mesh : all_chars (fun c => ~ Blank c) (s_mesh (ds_grid d)) /\ ~ Mentions "time" (s_mesh (ds_grid d));
  sa_faces : s_faces (ds_grid d) = Some (map (map Some) faces) /\ ValidFaces (length (s_nodes (ds_grid d))) (map (map Some) faces) /\ length faces <> 3;
  sa_rows : NotRows 2 (s_edges (ds_grid d)) /\ NotRows 2 (s_bounds (ds_grid d));
  sa_coords : Fit (s_faces (ds_grid d)) (s_face_coords (ds_grid d)) /\ Fit (s_edges (ds_grid d)) (s_edge_coords (ds_grid d)) /\ s_bound_coords (ds_grid d) = None;
  sa_vars : Forall (Writable (ds_grid d)) (map snd (ds_vars d)) /\ NoDup (map (fun kv => d_name (snd kv)) (ds_vars d)) }.
Definition SomeFormat (format : string) : Prop := format = "netcdf3" \/ format = "netcdf4".
