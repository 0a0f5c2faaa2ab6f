(** Variable.at from the points to the values: the interpolation in time and
    depth (VariableModel) on top of the grids' own interpolation (UGridGeomModel,
    RGridModel) -- gridded/variable.py:524-770, [_xy_interp] at 631-656. *)
From Coq Require Import String.
From Verif Require Import Common TimeModel VariableModel DepthModel UGridGeomModel RGridModel.
Open Scope list_scope.
Open Scope nat_scope.

(** A row of the N x 3 points: longitude, latitude, depth.  [points[:, 0:2]]
    goes to the grid. *)
Definition spot := ((Q * Q) * Q)%type.
Definition place (s : spot) : Q * Q := fst s.
Definition deep (s : spot) : Q := snd s.

Section Whole.
  (** [interp ix pts]: what the grid answers for the horizontal field that the
      leading indices select, at all points together. *)
  Context {P : Type} (interp : list nat -> list P -> result (list cell)).
  Definition grid_xy (lead : list nat) (pts : list P) (slices : list Z) : result (list cell) :=
    do ix <- resolve lead slices; interp ix pts.
  (** 603-627 without the cache. *)
  Definition at_grid (order : list dim) (shape : list nat) (time : option time_obj) (depth : option (depth_view (P := P)))
    (q : Z) (extrapolate : bool) (pts : list P) : result (list cell) :=
    let xy := grid_xy (lead_dims order shape) in
    match order with
    | DTime :: _ =>
        do b <- next_is order DTime DDepth;
        if b then v_time time q extrapolate (v_depth order shape depth xy) pts []
        else v_time time q extrapolate xy pts []
    | DDepth :: _ =>
        do b <- next_is order DDepth DTime;
        if b then v_depth order shape depth (v_time time q extrapolate xy) pts []
        else v_depth order shape depth xy pts []
    | [] => Err IndexError
    | _ => xy pts []
    end.
End Whole.

(** The answer of UGrid.interpolate_var_to_points; with another location it is
    None, which has no [reshape]. *)
Definition from_mesh (r : result (option (list cell))) : result (list cell) :=
  do o <- r; match o with Some vs => Ok vs | None => Err AttributeError end.
(** [data ix]: one value per node (or face); [hist ix pts]: the questions that
    the grid answered before this one. *)
Definition mesh_interp (tree : list pt -> list (list Z) -> list pt -> list Z) (hist : list nat -> list spot -> list ug_op)
  (nodes : list pt) (faces : list (list Z)) (loc : vloc) (data : list nat -> list cell)
  (ix : list nat) (pts : list spot) : result (list cell) :=
  from_mesh (snd (interpolate tree (ug_run tree (ug_new nodes (Some faces)) (hist ix pts)) loc (data ix) false true (map place pts))).
(** [vals ix]: the two-dimensional data; Variable always passes slices. *)
Definition rect_interp (g : rgrid) (dims : option (list string)) (shape : list nat) (vals : list nat -> list (list cell))
  (ix : list nat) (pts : list spot) : result (list cell) :=
  rg_interpolate g dims shape true (vals ix) (map place pts).

(** The request of the cached [at] (VariableModel): rows of three numbers. *)
Definition spot_of (row : list Q) : spot := ((nth 0 row 0%Q, nth 1 row 0%Q), nth 2 row 0%Q).
Definition at_request {D} (run : D -> Z -> list spot -> result (list cell)) (d : D) (r : request) : result (list cell) :=
  run d (rq_time r) (map spot_of (rq_pts r)).
