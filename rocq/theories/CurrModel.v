(** Currents on a staggered grid: a VectorVariable (gridded/variable.py:1201-1295,
    model in VVarModel) whose components are Variables on the sides of the cells
    (SWholeModel, RTerrModel), with the caches of both.
    The components share the grid, its cell tree and the depth object.  Points are
    rows of longitude, latitude and depth; without a depth axis two numbers do.
    What other rows do is in PointsModel (here RuntimeError stands for it).  Of the
    options only [extrapolate] is kept. *)
From Coq Require Import Reals String.
From Verif Require Import Common TimeModel VariableModel DepthModel MaskModel GridTypeModel SGridModel SGridInterpModel SWholeModel RTerrModel VVarModel.
Open Scope list_scope.
Open Scope nat_scope.

(** The vertical axis: none, a list of levels (L_Depth), ROMS levels (ROMS_Depth);
    with the number of levels or layers of the data and the boundary conditions. *)
Inductive vertical :=
| Flat
| Levels (ls : list Q) (n : nat) (sbc bbc : bcond)
| Terrain (te : rterr) (n : nat) (sbc bbc : bcond).
Definition deep (w : vertical) : bool := match w with Flat => false | _ => true end.
Record component := mkPart { p_loc : string; p_var : nvar; p_nr : nat; p_nc : nat; p_time : option time_obj }.

Definition spot_of (d : bool) (row : list Q) : result rspot :=
  match row with
  | [x; y; z] => Ok ((Q2R x, Q2R y), z)
  | [x; y] => if d then Err RuntimeError else Ok ((Q2R x, Q2R y), 0%Q)
  | _ => Err RuntimeError
  end.
Definition extrapolating (r : request) : bool := Nat.odd (rq_opts r).

Section Currents.
  Context (g : sg) (find : R * R -> option (Z * Z)) (w : vertical).
  (** variable.py:603-627 for one component *)
  Definition part_at (c : component) (r : request) : result (list rcell) :=
    do pts <- mapM (spot_of (deep w)) (rq_pts r);
    let times := match p_time c with Some t => [length (t_data t)] | None => [] end in
    let taxis := match p_time c with Some _ => [DTime] | None => [] end in
    match w with
    | Flat =>
        stag_at g find (p_loc c) (taxis ++ [DLon; DLat]) (p_var c) (times ++ [p_nr c; p_nc c]) (p_time c) None
          (rq_time r) (extrapolating r) pts
    | Levels ls n sbc bbc =>
        stag_at g find (p_loc c) (taxis ++ [DDepth; DLon; DLat]) (p_var c) (times ++ [n; p_nr c; p_nc c]) (p_time c)
          (Some (from_view Q2R (l_view snd ls (Some (length ls)) sbc bbc))) (rq_time r) (extrapolating r) pts
    | Terrain te n sbc bbc =>
        roms_at g find te (rq_time r) (extrapolating r) (p_loc c) (p_var c) n (p_nr c) (p_nc c) (p_time c) sbc bbc pts
    end.
  (** A fresh vector of these components, and what it answers to a history. *)
  Definition fresh (cs : list component) : vec_state component (list rcell) := mkVec (map (fun c => mkAt c []) cs) [].
  Definition answers (cs : list component) (ops : list (vec_op component)) : list (option (result (list (list rcell)))) :=
    snd (vec_run part_at (fresh cs) ops).
End Currents.
