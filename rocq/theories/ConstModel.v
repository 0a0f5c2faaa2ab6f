(** Model of the constant variable: gridded/variable.py:309-317
    [Variable.constant], and of [Variable.at] (524-627) on it, with its cache.
    Numbers are reals.  [locate] is the grid's [locate_faces] (the cell, or
    masked).  Points are rows of two or three numbers; [value] is a number. *)
From Coq Require Import Reals String.
From Verif Require Import Common DepthModel MaskModel GridTypeModel SGridModel SGridInterpModel LoadModel VariableModel.
Open Scope R_scope.

Record cvar := mkCvar { cv_grid : sg; cv_data : arr rd; cv_loc : string; cv_order : list dim; cv_fill : R }.

(** Lines 312-316; the arrays are given row by row. *)
Definition const_lon (r c : nat) : R := nth c [-360; 0; 360] 0.
Definition const_lat (r c : nat) : R := nth r [- (8995 / 100); 0; 8995 / 100] 0.
Definition const_grid : sg :=
  mkSg (mkArr 3 3 const_lon) (mkArr 3 3 const_lat) (mkPads (3, 3)%nat None None PSUnset PSUnset PSUnset) None BZero.
Definition const_data (value : R) : arr rd := mkArr 3 3 (fun _ _ => mkRd value false).

(** The location is inferred when the data are set; there is no time and no
    depth. *)
Definition constant (value : R) : result cvar :=
  let data := const_data value in
  match infer_location (a_r (g_lon const_grid), a_c (g_lon const_grid)) false false false (Some [a_r data; a_c data]) with
  | None => Err ValueError
  | Some loc =>
      do order <- dimension_ordering None GStructured 2 false false;
      Ok (mkCvar const_grid data (s_name loc) order value)
  end.

Definition lonlat (row : list R) : R * R := (nth 0 row 0, nth 1 row 0).
(** [np.ma.filled], after [set_fill_value]. *)
Definition fill_cell (fill : R) (x : rcell) : rcell := match x with RMask => RVal fill | _ => x end.

Section At.
  Context (locate : list (R * R) -> list (option (Z * Z))).
  (** Without time and depth [at] goes straight to [_xy_interp] (631-656). *)
  Definition const_compute (c : cvar) (pts : list (list R)) (unmask : bool) : result (list rcell) :=
    match cv_order c with
    | [] => Err IndexError
    | DTime :: _ | DDepth :: _ => Err AttributeError
    | _ =>
        let xy := map lonlat pts in
        do v <- interpolate (cv_grid c) xy (locate xy) true false (cv_loc c) (Some []) (mkNvar [] (fun _ => cv_data c));
        Ok (if unmask then map (fill_cell (cv_fill c)) v else v)
    end.

  (** 603-627: the cache is looked up by the numbers of the points and the time,
      not by their shape, nor by [unmask]. *)
  Record creq := mkCreq { cr_pts : list (list R); cr_time : option Z; cr_unmask : bool; cr_mem : bool }.
  Definition ckey := (list R * option Z)%type.
  Definition reqb (a b : R) : bool := if Req_EM_T a b then true else false.
  Fixpoint list_reqb (a b : list R) : bool :=
    match a, b with
    | [], [] => true
    | x :: a', y :: b' => reqb x y && list_reqb a' b'
    | _, _ => false
    end.
  Definition time_eqb (a b : option Z) : bool :=
    match a, b with Some x, Some y => Z.eqb x y | None, None => true | _, _ => false end.
  Definition ckey_eqb (a b : ckey) : bool := list_reqb (fst a) (fst b) && time_eqb (snd a) (snd b).
  Definition key_of (q : creq) : ckey := (concat (cr_pts q), cr_time q).
  Definition cmemo := list (ckey * list rcell).
  Definition const_step (c : cvar) (d : cmemo) (q : creq) : cmemo * result (list rcell) :=
    match (if cr_mem q then memo_get ckey_eqb d (key_of q) else None) with
    | Some v => (d, Ok v)
    | None =>
        match const_compute c (cr_pts q) (cr_unmask q) with
        | Err e => (d, Err e)
        | Ok v => (if cr_mem q then memo_store ckey_eqb var_memo_cap d (key_of q) v else d, Ok v)
        end
    end.
  Fixpoint const_run (c : cvar) (d : cmemo) (qs : list creq) : list (result (list rcell)) :=
    match qs with
    | [] => []
    | q :: r => let (d', a) := const_step c d q in a :: const_run c d' r
    end.
End At.
