(** Vocabulary of the theorems about saved datasets. *)
From Coq Require Import String Ascii QArith.
From Verif Require Import Common GridTypeModel GridTypeSpec MaskSpec UFileModel UGridModel LoadModel DSaveModel.
Open Scope string_scope.
Open Scope list_scope.
Open Scope nat_scope.

(** Words in the attributes of the mesh variable that UGrid.save writes. *)
Definition MeshWord (g : sgrid) (w : string) : Prop :=
  w = "2" \/ exists role text words, In (role, text) (fv_attrs (mesh_var g)) /\ Words text words /\ In w words.
(** Elements of the grid at a location. *)
Definition ElementsAt (g : sgrid) (l : string) (n : nat) : Prop :=
  (l = "node" /\ n = length (s_nodes g)) \/
  (l = "face" /\ exists t, s_faces g = Some t /\ n = length t) \/
  (l = "edge" /\ exists t, s_edges g = Some t /\ n = length t) \/
  (l = "boundary" /\ exists t, s_bounds g = Some t /\ n = length t).
(** A variable that can be written to a file of the grid and read again. *)
Record Writable (g : sgrid) (v : dvar) : Prop := {
  w_place : exists l, d_loc v = Some l /\ ElementsAt g l (length (d_vals v)) /\
    (dget (d_attrs v) "location" = None \/ dget (d_attrs v) "location" = Some l);
  w_name : ~ MeshWord g (d_name v) /\ d_name v <> s_mesh g;
  w_attrs : NoDup (map fst (d_attrs v)) /\ dget (d_attrs v) "_FillValue" = None;
  w_time : forall t, dget (d_attrs v) "time" = Some t -> ~ In t (dims_made g) }.
(** The variable as read again. *)
Definition SameVariable (v : dvar) (x : string * (variable * list Q)) : Prop :=
  fst x = d_name v /\ Some (va_loc (fst (snd x))) = d_loc v /\ snd (snd x) = d_vals v /\
  va_name (fst (snd x)) = (match dget (d_attrs v) "long_name" with Some n => n | None => d_name v end) /\
  va_time (fst (snd x)) = TimeNow /\ va_depth (fst (snd x)) = DepthNone /\
  forall k a, dget (d_attrs v) k = Some a -> dget (va_attrs (fst (snd x))) k = Some a.
(** Dimensions of the file and their lengths. *)
Definition DimOf (g : sgrid) (dim : string) (n : nat) : Prop :=
  (dim = (s_mesh g ++ "_num_node")%string /\ n = length (s_nodes g)) \/
  (dim = (s_mesh g ++ "_num_edge")%string /\ exists t, s_edges g = Some t /\ n = length t) \/
  (dim = (s_mesh g ++ "_num_boundary")%string /\ exists t, s_bounds g = Some t /\ n = length t) \/
  (dim = (s_mesh g ++ "_num_face")%string /\ exists t, s_faces g = Some t /\ n = length t) \/
  (dim = (s_mesh g ++ "_num_vertices")%string /\ exists t, s_faces g = Some t /\ n = width t) \/
  (dim = "two" /\ n = 2).
