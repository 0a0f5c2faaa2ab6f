(** Model of the way from a file with a regular longitude/latitude grid to the
    answers of its variables: as FMeshModel, with the rectangular grid
    (gridded/grids.py:243-468) in place of the mesh. *)
From Coq Require Import String.
From Verif Require Import Common TimeModel GridTypeModel VariableModel DepthModel RGridModel TFileModel LoadModel VLoadModel WholeModel FMeshModel.
Open Scope string_scope.
Open Scope list_scope.
Open Scope nat_scope.

(** ** The grid *)
Record rect := mkRect { re_grid : rgrid; re_topology : dict string }.
(** RuntimeError stands for what is not modelled here: axes that are columns of
    another variable, and grids of another class. *)
Definition axis_values (f : file) (s : src) : result (list Q) :=
  match s with
  | SVar v => match dget (fi_vars f) (gv_name v) with Some w => Ok (fm_reals w) | None => Err KeyError end
  | _ => Err RuntimeError
  end.
(** grids.py:507-559 and 243-270; [grid_topology["node_lat"]] is a KeyError
    when the coordinates came out of one variable. *)
Definition open_rect (f : file) : result rect :=
  do a <- grid_from_netcdf (as_grid f) None None;
  match a with
  | Construct Grid_R ar gt =>
      match dget gt "node_lat", dget gt "node_lon" with
      | Some y, Some x =>
          do slon <- get_arg ar "node_lon"; do lon <- axis_values f slon;
          do slat <- get_arg ar "node_lat"; do lat <- axis_values f slat;
          Ok (mkRect (rg_new lon lat (Some (y, x))) gt)
      | _, _ => Err KeyError
      end
  | _ => Err RuntimeError
  end.
Definition rect_api (r : rect) : grid_api := mkGrid KR (r_infer (re_grid r)) (re_topology r).

(** The rows of the horizontal field at leading indices. *)
Definition table_of (w : mvar) (ix : list nat) : list (list cell) :=
  map (fun i => fm_part w (ix ++ [i])) (seq 0 (nth (length ix) (fm_shape w) 0)).

Section Opening.
  Context (dateutil : string -> dparse) (cftime : string -> option (Z * Z * Z)).
  (** gridded.py:97-103 *)
  Definition open_rect_dataset (f : file) : result (rect * dict variable) :=
    do r <- open_rect f;
    do vs <- load_variables dateutil cftime (do _ <- read_depth f; Ok tt) (rect_api r) (as_load f);
    Ok (r, vs).
  (** ** The answers, variable.py:524-770 *)
  Context (now : time_obj).
  Definition rect_answer (f : file) (r : rect) (v : variable) (q : Z) (extrapolate : bool) (pts : list spot) : result (list cell) :=
    match dget (fi_vars f) (va_varname v) with
    | None => Err KeyError
    | Some w =>
        do d <- depth_of f v;
        do order <- dimension_ordering None GStructured (length (va_shape v)) true (fst d);
        at_grid (rect_interp (re_grid r) (Some (fm_dims w)) (va_shape v) (table_of w)) order (va_shape v)
          (Some (time_value now (va_time v))) (snd d) q extrapolate pts
    end.
  Definition ask_rect (f : file) (k : string) (q : Z) (extrapolate : bool) (pts : list spot) : result (list cell) :=
    do rv <- open_rect_dataset f;
    match dget (snd rv) k with
    | None => Err KeyError
    | Some v => rect_answer f (fst rv) v q extrapolate pts
    end.
End Opening.
