(** Model of gridded/utilities.py:369-433 and 463-576: which file object is the
    data source and which the grid source, and how variables are found for the
    roles a class asks for. *)
From Coq Require Import String.
From Verif Require Import Common GridTypeModel.
Open Scope list_scope.

(** A netCDF variable: its name and the two attributes the search looks at. *)
Record nvar := mkNvar { v_name : string; v_long : option string; v_std : option string }.
(** An open file: which object it is, and its variables in file order. *)
Record nfile := mkNfile { f_id : nat; f_vars : list nvar }.
(** default_names, cf_names: role -> names to try, in order. *)
Definition roles := dict (list string).
Definition found := dict (option nvar).

Definition attr_is (o : option string) (q : string) : bool :=
  match o with Some s => String.eqb s q | None => false end.
(** netCDF4: get_variables_by_attributes(long_name=q) *)
Definition by_long (f : nfile) (q : string) : list nvar := filter (fun v => attr_is (v_long v) q) (f_vars f).
Definition by_std (f : nfile) (q : string) : list nvar := filter (fun v => attr_is (v_std v) q) (f_vars f).
(** ds.variables[q] *)
Definition by_name (f : nfile) (q : string) : option nvar := find (fun v => String.eqb (v_name v) q) (f_vars f).

(** The inner loops of utilities.py:526-533 and 549-555: the first query that
    answers decides. *)
Fixpoint first_query {A} (look : string -> option A) (qs : list string) : option A :=
  match qs with
  | [] => None
  | q :: r => match look q with Some a => Some a | None => first_query look r end
  end.
Definition head_opt {A} (l : list A) : option A := match l with [] => None | a :: _ => Some a end.

(** The outer loop: [rtv[k] = ...] per role in table order.  Keys of a Python dict
    are distinct, so [k not in rtv] before role [k]'s own search. *)
Definition search (look : string -> option nvar) (names : roles) : found :=
  fold_left (fun rtv kv => dset rtv (fst kv) (first_query look (snd kv))) names [].

(** utilities.py:513-534; [(t1 + t2)[0]] *)
Definition by_longname (f : nfile) (names : roles) : found :=
  search (fun q => head_opt (by_long f q ++ by_std f q)) names.
(** utilities.py:537-556 *)
Definition by_varname (f : nfile) (names : roles) : found := search (by_name f) names.

(** utilities.py:559-576: the loop body, and the loop starting from a copy of [d1] *)
Definition merge_step (d1 res : found) (kv : string * option nvar) : found :=
  match dget d1 (fst kv) with
  | None => dset res (fst kv) (snd kv)
  | Some _ => match dget res (fst kv) with
              | Some None => dset res (fst kv) (snd kv)
              | _ => res
              end
  end.
Definition merge (d1 d2 : found) : found := fold_left (merge_step d1) d2 d1.

(** utilities.py:463-477 *)
Definition search_vars (default_names cf_names : roles) (ds dg : nfile) : found :=
  let vn := by_varname ds default_names in
  let ln := by_longname ds cf_names in
  let fnd := merge ln vn in
  if Nat.eqb (f_id ds) (f_id dg) then fnd
  else merge fnd (merge (by_longname dg cf_names) (by_varname dg default_names)).

(** utilities.py:480-483 *)
Definition can_create (default_names cf_names : roles) (ds dg : nfile) : bool :=
  forallb (fun kv => match snd kv with Some _ => true | None => false end)
          (search_vars default_names cf_names ds dg).

(** utilities.py:496-510; names given as a table are run together.  [None] is the
    function falling off its end. *)
Fixpoint any_long_name (f : nfile) (names : list string) : option (list nvar) :=
  match names with
  | [] => None
  | n :: r => match by_long f n ++ by_std f n with
              | [] => any_long_name f r
              | l => Some l
              end
  end.
Definition any_long_name_table (f : nfile) (t : roles) : option (list nvar) :=
  any_long_name f (concat (map snd t)).

(** File arguments: an open dataset object, a path (str or PathLike), a list of
    paths.  [os.fspath] of a PathLike is the path as str. *)
Inductive fileref :=
| FOpen (obj : nat)
| FStr (path : string)
| FPathLike (path : string)
| FList (paths : list string).

(** What get_dataset gives back: the object passed in, or a new object made by
    Dataset / MFDataset.  [serial] tells objects made at different times apart. *)
Inductive dsobj :=
| Given (obj : nat)
| Single (path : string) (serial : nat)
| Multi (paths : list string) (serial : nat).

Definition fspath (f : fileref) : fileref :=
  match f with FPathLike p => FStr p | f => f end.

(** utilities.py:369-393.  [n] is the serial of the next object made.  With no
    file at all the code reaches [MFDataset(None)], which raises (recorded as
    TypeError).  Opening is assumed to succeed. *)
Definition get_dataset (n : nat) (f : option fileref) (dataset : option nat) : result (dsobj * nat) :=
  match dataset with
  | Some o => Ok (Given o, n)
  | None =>
      match option_map fspath f with
      | None => Err TypeError
      | Some (FOpen o) => Ok (Given o, n)
      | Some (FStr p) => Ok (Single p n, S n)
      | Some (FPathLike p) => Ok (Single p n, S n)
      | Some (FList [p]) => Ok (Single p n, S n)
      | Some (FList ps) => Ok (Multi ps n, S n)
      end
  end.

(** [grid_file == data_file]: Python equality of the two arguments.  A str and a
    PathLike are never equal. *)
Definition list_string_eqb (a b : list string) : bool :=
  if list_eq_dec string_dec a b then true else false.
Definition fileref_eqb (a b : fileref) : bool :=
  match a, b with
  | FOpen x, FOpen y => Nat.eqb x y
  | FStr x, FStr y => String.eqb x y
  | FPathLike x, FPathLike y => String.eqb x y
  | FList x, FList y => list_string_eqb x y
  | _, _ => false
  end.
Definition arg_eqb (a b : option fileref) : bool :=
  match a, b with
  | None, None => true
  | Some x, Some y => fileref_eqb x y
  | _, _ => false
  end.

(** utilities.py:396-433 *)
Definition parse_args (n : nat) (filename : option fileref) (dataset : option nat)
    (data_file grid_file : option fileref) : result (dsobj * dsobj) :=
  let (data_file, grid_file) :=
    match filename with
    | Some f => (Some (fspath f), Some (fspath f))
    | None => (data_file, grid_file)
    end in
  match dataset with
  | None =>
      if arg_eqb grid_file data_file then
        do r <- get_dataset n grid_file None; Ok (fst r, fst r)
      else
        do r1 <- get_dataset n data_file None;
        do r2 <- get_dataset (snd r1) grid_file None;
        Ok (fst r1, fst r2)
  | Some o =>
      match grid_file with
      | Some g => do r <- get_dataset n (Some g) None; Ok (Given o, fst r)
      | None => Ok (Given o, Given o)
      end
  end.
