(** Model of gridded/gridded.py: 29-83 [Dataset.__init__], 85-103
    [_init_from_netCDF], 105-134 [from_netCDF], 136-140 [__getitem__].
    Dicts live on a heap, so that the caller and datasets may hold the same one. *)
From Coq Require Import String.
From Verif Require Import Common GridTypeModel.
Open Scope string_scope.
Open Scope list_scope.
Open Scope nat_scope.

Section Dataset.
  (** Sources (paths or open files), open files, grids, topologies, and the
      values of dicts (variables or attributes). *)
  Context {S F G T V : Type}.
  Context (get_dataset : S -> result F) (filepath : F -> string).
  Context (grid_from : F -> option T -> result G).                 (* Grid.from_netCDF *)
  Context (variables_from : G -> F -> result (dict V)).           (* C78 *)
  Context (attributes_from : F -> dict V).                        (* get_dataset_attrs *)

  Definition heap := list (dict V).
  (** An attribute of the object that may never have been set. *)
  Inductive slot := Unset | IsNone.
  Record dataset := mkDs {
    ds_filename : option string; ds_grid : option G; ds_time : slot; ds_depth : slot;
    ds_variables : nat; ds_attributes : nat }.
  Definition alloc (h : heap) (d : dict V) : heap * nat := (h ++ [d], length h).

  Definition read_file (h : heap) (src : S) (topo : option T) (time depth : slot) : result (heap * dataset) :=
    do f <- get_dataset src;
    do g <- grid_from f topo;
    do vs <- variables_from g f;
    let (h, rv) := alloc h vs in
    let (h, ra) := alloc h (attributes_from f) in
    Ok (h, mkDs (Some (filepath f)) (Some g) time depth rv ra).
  (** 85-103; [grid_file] and [variable_files]: whether given. *)
  Definition init_from (h : heap) (src : S) (grid_file variable_files : bool) (topo : option T) (time depth : slot) : result (heap * dataset) :=
    if grid_file || variable_files then Err NotImplementedError else read_file h src topo time depth.
  (** 29-83; the deprecation warning is not modelled. *)
  Definition new (h : heap) (src : option S) (grid : option G) (variables : option nat) (topo : option T) (attributes : option nat) : result (heap * dataset) :=
    match src with
    | Some s =>
        match grid, variables, attributes with
        | None, None, None => init_from h s false false None Unset Unset
        | _, _, _ => Err ValueError
        end
    | None =>
        let (h, rv) := match variables with Some r => (h, r) | None => alloc h [] end in
        let (h, ra) := match attributes with Some r => (h, r) | None => alloc h [] end in
        Ok (h, mkDs None grid IsNone IsNone rv ra)
    end.
  (** 105-134: an empty dataset, then filled (its empty dicts are dropped). *)
  Definition from_netCDF (h : heap) (src : S) (grid_file variable_files : bool) (topo : option T) : result (heap * dataset) :=
    do hd <- new h None None None None None;
    init_from (fst hd) src grid_file variable_files topo IsNone IsNone.
  Definition dict_at (h : heap) (r : nat) : dict V := nth r h [].
  (** 136-140 *)
  Definition getitem (h : heap) (d : dataset) (k : string) : result V :=
    match dget (dict_at h (ds_variables d)) k with Some v => Ok v | None => Err KeyError end.
  (** [ds.time] *)
  Definition get_time (d : dataset) : result (option unit) := match ds_time d with Unset => Err AttributeError | IsNone => Ok None end.
  Definition get_depth (d : dataset) : result (option unit) := match ds_depth d with Unset => Err AttributeError | IsNone => Ok None end.
  (** [some_dict[k] = v], by the caller or through a dataset. *)
  Definition put (h : heap) (r : nat) (k : string) (v : V) : heap :=
    firstn r h ++ match skipn r h with [] => [] | d :: t => dset d k v :: t end.
End Dataset.
Arguments dataset : clear implicits. Arguments heap : clear implicits.
