(** Vocabulary of the theorems about saved staggered grids. *)
From Coq Require Import String Ascii QArith.
From Verif Require Import Common GridTypeModel GridTypeSpec SAttrModel SVarModel SVarSpec SSaveModel.
Open Scope string_scope.
Open Scope list_scope.
Open Scope nat_scope.

(** What netCDF4 guarantees of a file. *)
Record WellFormed (f : nfile) : Prop := {
  wf_dims : NoDup (map fst (nf_dims f));
  wf_names : NoDup (map sv_name (vars_of f));
  wf_shape : forall d, In d (nf_vars f) -> Forall2 (fun s n => In (s, n) (nf_dims f)) (sv_dims (fd_var d)) (sv_shape (fd_var d)) }.
(** A file that can be saved again after loading: its grid has face and node
    coordinates, all of different names; a scalar topology variable; an angle
    variable, if any, that has entries; and no name has a space. *)
Record Resavable (f : nfile) (g : grid) (cx cy nx ny : string) : Prop := {
  rs_face : g_face_coordinates g = Some [cx; cy];
  rs_node : g_node_coordinates g = Some [nx; ny];
  rs_distinct : NoDup [cx; cy; nx; ny; g_topology g; "angle"];
  rs_topology : forall v, In v (vars_of f) -> sv_name v = g_topology g -> sv_dims v = [];
  rs_angle : forall s vals, read f "angle" = Ok (s, vals) -> hd 1 s <> 0;
  rs_spaces : forall v, In v (vars_of f) -> NoSpace (sv_name v) }.
Definition Masked (v : values) : Prop := forall x, In x (snd v) -> x = None.
(** The edge coordinates as read again: same shapes, nothing in them. *)
Definition Emptied (o o' : option (values * values)) : Prop :=
  match o, o' with
  | None, None => True
  | Some (a, b), Some (a', b') => fst a' = fst a /\ fst b' = fst b /\ Masked a' /\ Masked b'
  | _, _ => False
  end.
(** What a variable's description keeps; the location is left out. *)
Definition SameDescription (t : string) (w w' : sgvar) : Prop :=
  gv_name w' = gv_name w /\ gv_dims w' = gv_dims w /\ gv_standard_name w' = gv_standard_name w /\
  (gv_grid w = None -> gv_grid w' = None) /\ (gv_grid w <> None -> gv_grid w' = Some t) /\
  ds_center_axis (gv_desc w') = ds_center_axis (gv_desc w) /\ ds_node_axis (gv_desc w') = ds_node_axis (gv_desc w) /\
  ds_slicing (gv_desc w') = ds_slicing (gv_desc w) /\ ds_axes (gv_desc w') = ds_axes (gv_desc w) /\
  ds_vector_axis (gv_desc w') = ds_vector_axis (gv_desc w) /\ ds_coordinates (gv_desc w') = ds_coordinates (gv_desc w).
