(** A variable on terrain-following levels over a mesh, from the points to the
    values: FVCOM_Depth (gridded/depth.py:628-815, 893-947) with its bathymetry,
    free surface and sigma tables interpolated by the grid, under Variable.at
    (gridded/variable.py:524-770).
    The sigma tables hold numbers.  What happens when a NaN gets into a profile
    is not modelled (RuntimeError stands for it). *)
From Coq Require Import String.
From Verif Require Import Common TimeModel VariableModel DepthModel UGridGeomModel WholeModel.
Open Scope list_scope.
Open Scope nat_scope.

Record terrain := mkTerr {
  te_siglev : list (list Q);        (* levels x nodes *)
  te_siglay : list (list Q);        (* layers x nodes *)
  te_h : list cell;                 (* bathymetry at the nodes *)
  te_zeta : option (time_obj * (list nat -> list cell));   (* None: Variable.constant(0) *)
  te_plain : bool }.                (* all of these are plain arrays, not masked ones *)

(** Variable.constant: masked outside its own grid (C86). *)
Definition const_zeta (p : Q * Q) : cell :=
  if (Qle_bool (-360) (fst p) && Qle_bool (fst p) 360 && Qle_bool (- (8995 # 100)) (snd p) && Qle_bool (snd p) (8995 # 100))%Q
  then CVal 0 else CMasked.

Definition number (c : cell) : result Q := match c with CVal q => Ok q | _ => Err RuntimeError end.
(** depth.py:945-947 and 815 for one point. *)
Definition water_column (h z : cell) (sig : list cell) : result (option (list Q)) :=
  match h, z with
  | CMasked, _ => Ok None
  | _, CMasked => Ok None
  | CVal h, CVal z => do s <- mapM number sig; Ok (Some (fvcom_profile s h z))
  | _, _ => Err RuntimeError
  end.

Section Terrain.
  Context (tree : list pt -> list (list Z) -> list pt -> list Z) (hist : list nat -> list spot -> list ug_op)
          (nodes : list pt) (faces : list (list Z)) (te : terrain) (q : Z) (ex : bool).
  Definition on_mesh (data : list nat -> list cell) := mesh_interp tree hist nodes faces VNode data.
  Definition bathy_at (pts : list spot) : result (list cell) :=
    at_grid (on_mesh (fun _ => te_h te)) [DEle] [length nodes] None None q ex pts.
  Definition zeta_at (pts : list spot) : result (list cell) :=
    match te_zeta te with
    | None => Ok (map (fun s => const_zeta (place s)) pts)
    | Some (t, data) =>
        at_grid (on_mesh data) [DTime; DEle] [length (t_data t); length nodes] (Some t) None q ex pts
    end.
  (** depth.py:942: the grid interpolates all levels together, each by the same
      weights. *)
  Definition sigma_at (rows : list (list Q)) (pts : list spot) : result (list (list cell)) :=
    mapM (fun row => on_mesh (fun _ => map CVal row) [] pts) rows.
  Definition depth_profiles (rows : list (list Q)) (pts : list spot) : result (list (option (list Q))) :=
    do z <- zeta_at pts;
    do sig <- sigma_at rows pts;
    do h <- bathy_at pts;
    mapM (fun k => water_column (nth k h CNaN) (nth k z CNaN) (map (fun l => nth k l CNaN) sig)) (seq 0 (length pts)).
  (** [siglev[:, 0]] *)
  Definition first_column : result (list Q) :=
    mapM (fun row => match row with [] => Err IndexError | x :: _ => Ok x end) (te_siglev te).
  (** depth.py:628-723; the Variable passes data_shape = (num_levels,).  Plain
      arrays have no [mask] (line 691); the constant free surface has one. *)
  Definition terrain_alphas (sbc bbc : bcond) (pts : list spot) : result (list drow) :=
    let nlev := length (te_siglev te) in let nlay := length (te_siglay te) in
    do col <- first_column;
    do surf <- argmax col;
    do bot <- argmin col;
    if Nat.eqb nlev 1 then Ok (base_alphas (Z.of_nat surf) pts)
    else
      do profs <- depth_profiles (if Nat.eqb nlev nlay then te_siglay te else te_siglev te) pts;
      if te_plain te && match te_zeta te with Some _ => true | None => false end then Err AttributeError
      else s_alphas (fun x => deep (fst x)) (fun _ x => Ok (snd x)) surf bot nlev nlay (Some nlev) sbc bbc (combine pts profs).
  Definition terrain_view (sbc bbc : bcond) : depth_view (P := spot) :=
    mkDV (length (te_siglay te)) (fun pts => view_rows (terrain_alphas sbc bbc pts)).
  (** A variable with node data over (time,) levels or layers; [n] is the number
      of its levels or layers. *)
  Definition terrain_at (data : list nat -> list cell) (n : nat) (time : option time_obj) (sbc bbc : bcond) (pts : list spot)
    : result (list cell) :=
    at_grid (on_mesh data)
      (match time with Some _ => [DTime] | None => [] end ++ [DDepth; DEle])
      (match time with Some t => [length (t_data t)] | None => [] end ++ [n; length nodes])
      time (Some (terrain_view sbc bbc)) q ex pts.
End Terrain.
