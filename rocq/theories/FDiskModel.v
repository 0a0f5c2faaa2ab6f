(** Model of what saving does to the files: gridded/gridded.py:204-223
    [Dataset.save] with utilities.py:436-451 [get_writable_dataset], and opening
    what is there (gridded.py:85-104).  A file on the disk is what was there
    before, a whole file written by one save, or a broken one: emptied when it
    was opened for writing and then left by an exception.  Of grids other than
    meshes only is kept that they have no [save] (SGrid has save_as_netcdf only,
    Grid_R nothing).  Files given as open netCDF4 datasets are new and empty. *)
From Coq Require Import String.
From Verif Require Import Common TimeModel GridTypeModel VariableModel UGridGeomModel UFileModel LoadModel DSaveModel WholeModel FMeshModel FSaveModel.
Open Scope string_scope.
Open Scope list_scope.
Open Scope nat_scope.

Inductive content := Before (n : nat) | Whole (dims : list string) (f : list svar) | Broken.
Record disk := mkDisk { dk_file : string -> option content; dk_open : list string (* open datasets given by the user *) }.
Definition put (s : disk) (n : string) (c : content) : disk :=
  mkDisk (fun m => if String.eqb m n then Some c else dk_file s m) (dk_open s).
Definition close (s : disk) (n : string) : disk := mkDisk (dk_file s) (filter (fun m => negb (String.eqb m n)) (dk_open s)).

Inductive target := TName (n : string) | TPath (n : string) | TOpen (n : string) | TElse.
Inductive holding := OnMesh (d : dataset) | OnOther | NoGrid.
Record op := mkOp { op_data : holding; op_target : target; op_format : string }.

(** utilities.py:436-451: the file that is open for writing, emptied. *)
Definition writable (s : disk) (t : target) : result (string * disk) :=
  match t with
  | TOpen n => Ok (n, s)
  | TName n => Ok (n, put s n Broken)
  | TPath _ | TElse => Err ValueError
  end.
(** gridded.py:213-223.  UGrid.save is called with "netcdf4" whatever the format. *)
Definition save_step (s : disk) (o : op) : disk * result unit :=
  if negb (isin (op_format o) ["netcdf3"; "netcdf4"]) then (s, Err ValueError)
  else
    match writable s (op_target o) with
    | Err e => (s, Err e)
    | Ok (n, s) =>
        match op_data o with
        | OnOther | NoGrid => (put s n Broken, Err AttributeError)
        | OnMesh d =>
            match save_dataset d "netcdf4" with
            | Ok f => (close (put s n (Whole (dims_made (ds_grid d)) f)) n, Ok tt)
            | Err e => (put s n Broken, Err e)
            end
        end
    end.
Definition save_all_steps (s : disk) (os : list op) : disk := fold_left (fun s o => fst (save_step s o)) os s.

(** Opening a file and asking a variable; only whole files are read here. *)
Section Asking.
  Context (tree : list pt -> list (list Z) -> list pt -> list Z) (hist : list nat -> list spot -> list ug_op).
  Definition ask_disk (dateutil : string -> TFileModel.dparse) (cftime : string -> option (Z * Z * Z)) (now : time_obj) (s : disk)
    (n k : string) (q : Z) (extrapolate : bool) (pts : list spot) : option (result (list cell)) :=
    match dk_file s n with
    | Some (Whole dims f) => Some (ask_file dateutil cftime now tree hist (to_file dims f) k q extrapolate pts)
    | _ => None
    end.
End Asking.
