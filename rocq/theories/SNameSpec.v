(** Vocabulary of the theorems about variables as attributes of a grid. *)
From Coq Require Import String.
From Verif Require Import Common GridTypeModel VerdatModel SAttrModel SVarModel SNameModel.
Open Scope string_scope.
Open Scope list_scope.
Open Scope nat_scope.

(** Names with a meaning of their own on the object. *)
Definition Reserved (grid_s : bool) (n : string) : Prop :=
  In (slot n) (parts ++ base_parts) \/ In n (read_only grid_s) \/ In n methods.
(** The constructed object: nothing but its parts. *)
Definition Fresh {P D} (o : obj P D) : Prop :=
  forall n, (In n (parts ++ base_parts) -> exists p, dget o n = Some (Part p)) /\ (~ In n (parts ++ base_parts) -> dget o n = None).
(** A description depends on the parts of the grid only. *)
Definition OnParts {P D} (describe : obj P D -> svar -> result D) : Prop :=
  forall o o' v, (forall n, In n (parts ++ base_parts) -> n <> "variables" -> n <> "grid_variables" -> dget o n = dget o' n) -> describe o v = describe o' v.
Definition OnGrid (v : svar) : Prop := exists s, attr v "grid" = Some s.
(** The arguments of the constructor, by which parts are known to callers, and the properties. *)
Definition arguments : list string :=
  ["node_lon"; "node_lat"; "node_mask"; "center_lon"; "center_lat"; "center_mask"; "edge1_lon"; "edge1_lat"; "edge1_mask"; "edge2_lon"; "edge2_lat"; "edge2_mask";
   "edges"; "node_padding"; "edge1_padding"; "edge2_padding"; "grid_topology_var"; "dimensions"; "node_dimensions"; "node_coordinates"; "edge1_coordinates";
   "edge2_coordinates"; "angles"; "edge1_dimensions"; "edge2_dimensions"; "faces"; "face_padding"; "face_coordinates"; "face_dimensions"; "vertical_padding";
   "vertical_dimensions"; "tree"; "use_masked_boundary"; "grid_topology"; "masked_interpolant_behavior"; "name"; "filename"].
Definition Property (grid_s : bool) (n : string) : Prop := In n ["info"; "nodes"; "centers"; "non_grid_variables"] \/ (grid_s = true /\ n = "shape").
