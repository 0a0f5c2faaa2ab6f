(** Vocabulary of the theorems about loading depths. *)
From Coq Require Import String.
From Verif Require Import Common TimeModel GridTypeModel SearchModel TFileModel LoadModel SLoadModel.
Open Scope string_scope.
Open Scope list_scope.
Open Scope nat_scope.

(** A variable carries a label: as its long name or its standard name. *)
Definition Carries (v : nvar) (label : string) : Prop := v_long v = Some label \/ v_std v = Some label.
(** [v] is the file's variable of this name, and the only one with any of the
    labels (it need not have one itself). *)
Definition NamedAndLabelled (f : nfile) (name : string) (labels : list string) (v : nvar) : Prop :=
  In v (f_vars f) /\ v_name v = name /\ (forall x, In x (f_vars f) -> v_name x = name -> x = v) /\
  forall x l, In x (f_vars f) -> In l labels -> Carries x l -> x = v.
(** What is found for a role in one file. *)
Definition finds (names cf : roles) (f : nfile) (role : string) : option (option nvar) := dget (search_vars names cf f f) role.

(** A structured grid with [n] by [m] nodes and cell centers. *)
Definition StructuredGrid (g : grid_api) (n m : nat) : Prop :=
  exists h1 h2, ga_kind g = KS /\ forall hint shape, ga_infer g hint shape = s_infer (n, m) true h1 h2 hint shape.
Definition HasLast2 (shape : list nat) (r c : nat) : Prop := exists lead, shape = lead ++ [r; c].

(** What ROMS and FVCOM files call things: role, name, labels. *)
Definition roms_convention : list (string * string * list string) :=
  [("Cs_r", "Cs_r", ["S-coordinate stretching curves at RHO-points"]);
   ("Cs_w", "Cs_w", ["S-coordinate stretching curves at W-points"]);
   ("s_rho", "s_rho", ["S-coordinate at RHO-points"]);
   ("s_w", "s_w", ["S-coordinate at W-points"]);
   ("hc", "hc", ["S-coordinate parameter, critical depth"]);
   ("bathymetry", "h", ["bathymetry at RHO-points"; "Final bathymetry at RHO-points"]);
   ("zeta", "zeta", ["free-surface"])].
Definition fvcom_label : string := "ocean_sigma/general_coordinate".
Definition fvcom_convention : list (string * string * list string) :=
  [("siglay", "siglay", [fvcom_label]); ("siglev", "siglev", [fvcom_label]);
   ("bathymetry", "h", ["sea_floor_depth_below_geoid"]); ("zeta", "zeta", ["sea_surface_height_above_geoid"])].

(** What the search has found. *)
Definition Found (nc : dict (option fref)) (role : string) (r : fref) : Prop := dget nc role = Some (Some r).
Definition NotFound (nc : dict (option fref)) (role : string) : Prop := forall r, ~ Found nc role r.
(** The grid puts values of this shape here. *)
Definition PutsAt (g : grid_api) (v : lvar) (l : option string) : Prop := ga_infer g (dget (lv_attrs v) "location") (lv_shape v) = Ok l.
(** Values as a constructed Variable holds them: the time axis fits the first
    dimension. *)
Definition TimesFit (t : ltime) (shape : list nat) : Prop := exists d rest, shape = d :: rest /\ (times t <= 1 \/ times t = d).
Definition set_bathy (a : sargs) (b : bool) : sargs :=
  mkSargs (sa_name a) (sa_time a) (sa_tz a) (sa_origin a) (sa_disp a) b (sa_zeta a) (sa_terms a) (sa_vtransform a) (sa_surface a) (sa_bottom a).
