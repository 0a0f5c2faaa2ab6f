(** What the settings of a depth object mean. *)
From Coq Require Import String.
From Verif Require Import Common GridTypeModel DObjModel.
Open Scope string_scope.
Open Scope list_scope.

(** The value of a keyword argument, or its default. *)
Definition Value (kw : dict val) (k : string) (default v : val) : Prop :=
  In (k, v) kw \/ (~ In k (map fst kw) /\ v = default).
Definition Has (o : dobj) (k : string) (v : val) : Prop := dget o k = Some v.

(** Attribute, keyword, default. *)
Definition setting := (string * string * val)%type.
Definition base_settings : list setting :=
  [("name", "name", VNone); ("_surface_index", "surface_index", VInt (-1)); ("_bottom_index", "bottom_index", VInt 0);
   ("default_surface_boundary_condition", "default_surface_boundary_condition", VStr "extrapolate");
   ("default_bottom_boundary_condition", "default_bottom_boundary_conditon", VStr "mask")].
Definition level_settings : list setting := ("terms", "terms", VNone) :: base_settings.
Definition sigma_settings : list setting :=
  [("name", "name", VNone); ("time", "time", VNone); ("grid", "grid", VNone); ("bathymetry", "bathymetry", VNone); ("zeta", "zeta", VNone);
   ("terms", "terms", VNone); ("vtransform", "vtransform", VInt 2); ("_surface_index", "surface_index", VInt (-1)); ("_bottom_index", "bottom_index", VInt 0);
   ("default_surface_boundary_condition", "surface_boundary_condition", VStr "extrapolate");
   ("default_bottom_boundary_condition", "bottom_boundary_condition", VStr "mask")].
Definition settings (c : dclass) : list setting :=
  match c with CBase => base_settings | CLevel => level_settings | _ => sigma_settings end.
(** The two conditions of a sigma object are set after the terms. *)
Definition late (c : dclass) : list string :=
  match c with CBase | CLevel => [] | _ => ["default_surface_boundary_condition"; "default_bottom_boundary_condition"] end.
(** Names that cannot be assigned. *)
Definition Blocked (c : dclass) (k : string) : Prop :=
  k = "surface_index" \/ k = "bottom_index" \/ (c <> CBase /\ (k = "num_levels" \/ k = "num_layers")).

(** [k] is the first place where [l] is smallest / largest. *)
Definition FirstLeast (l : list Q) (k : nat) : Prop :=
  exists m, nth_error l k = Some m /\ (forall x, In x l -> (m <= x)%Q) /\ forall j x, (j < k)%nat -> nth_error l j = Some x -> (m < x)%Q.
Definition FirstGreatest (l : list Q) (k : nat) : Prop :=
  exists m, nth_error l k = Some m /\ (forall x, In x l -> (x <= m)%Q) /\ forall j x, (j < k)%nat -> nth_error l j = Some x -> (x < m)%Q.
