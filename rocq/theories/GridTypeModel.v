(** Model of the grid factory, gridded/grids.py: choosing the grid class and
    finding the constructor arguments in a file. *)
From Coq Require Import String Ascii.
From Verif Require Import Common DepthModel UGridModel.
Open Scope string_scope.

(** A netCDF variable as far as these functions look at it.  [gv_rows]: the
    values of a two-dimensional integer array (used for face arrays only). *)
Record gvar := mkGvar {
  gv_name : string;
  gv_cf_role : option string;         (* hasattr cf_role *)
  gv_node_coordinates : bool;         (* hasattr node_coordinates *)
  gv_node_dimensions : bool;          (* hasattr node_dimensions *)
  gv_shape : list nat;
  gv_rows : list (list Z) }.
Record gfile := mkGfile { gf_grid_type : option string; gf_vars : list gvar }.

(** str.lower() on ASCII names. *)
Definition lower1 (c : ascii) : ascii :=
  let n := nat_of_ascii c in
  if ((65 <=? n) && (n <=? 90))%nat then ascii_of_nat (n + 32) else c.
Fixpoint lower (s : string) : string :=
  match s with EmptyString => EmptyString | String c r => String (lower1 c) (lower r) end.
(** [sub in s] for strings. *)
Fixpoint contains (sub s : string) : bool :=
  if prefix sub s then true
  else match s with EmptyString => false | String _ r => contains sub r end.
Definition isin (s : string) (l : list string) : bool := existsb (String.eqb s) l.

(** Insertion-ordered dicts. *)
Definition dict (V : Type) := list (string * V).
Fixpoint dget {V} (d : dict V) (k : string) : option V :=
  match d with [] => None | (k', v) :: r => if String.eqb k k' then Some v else dget r k end.
Fixpoint dset {V} (d : dict V) (k : string) (v : V) : dict V :=
  match d with
  | [] => [(k, v)]
  | (k', v') :: r => if String.eqb k k' then (k, v) :: r else (k', v') :: dset r k v
  end.
Definition has {V} (d : dict V) (k : string) : bool := match dget d k with Some _ => true | None => false end.

(** [dict([(k.lower(), v) for k, v in gf_vars.items()])], grids.py:52-53. *)
Definition lower_vars (f : gfile) : dict gvar :=
  fold_left (fun d v => dset d (lower (gv_name v)) v) (gf_vars f) [].

(** grids.py:645-656: the first variable whose cf_role mentions topology. *)
Definition is_topology (v : gvar) : bool :=
  match gv_cf_role v with Some r => contains "topology" r | None => false end.
Definition find_topology_var (f : gfile) : option gvar :=
  match filter is_topology (gf_vars f) with v :: _ => Some v | [] => None end.

(** A constructor argument: a whole variable, a column of a composite node
    array, or a (normalised) face array. *)
Inductive src := SVar (v : gvar) | SCol (v : gvar) (k : nat) | SFaces (rows : list (list Z)).
Definition args := dict src.
Definition topology := dict string.

Definition size (shape : list nat) : nat := fold_right Nat.mul 1%nat shape.
Definition node_coord_names : list (string * string) :=
  [("node_lon", "node_lat"); ("lon", "lat"); ("lon_psi", "lat_psi"); ("longitude", "latitude")].
Definition composite_names : list string := ["nodes"; "node"].

Fixpoint find_pair (d : dict gvar) (names : list (string * string)) : option ((string * gvar) * (string * gvar)) :=
  match names with
  | [] => None
  | (n1, n2) :: r =>
      match dget d n1, dget d n2 with
      | Some v1, Some v2 => Some ((n1, v1), (n2, v2))
      | _, _ => find_pair d r
      end
  end.
Fixpoint find_first (d : dict gvar) (names : list string) : option (string * gvar) :=
  match names with
  | [] => None
  | n :: r => match dget d n with Some v => Some (n, v) | None => find_first d r end
  end.
(** [gf_vars[n][:].reshape(-1, 2)] *)
Definition composite (v : gvar) : result gvar :=
  if Nat.even (size (gv_shape v)) then Ok v else Err ValueError.
Definition get_var (d : dict gvar) (n : string) : result gvar :=
  match dget d n with Some v => Ok v | None => Err KeyError end.

(** grids.py:36-87.  Topology values that are not strings are not modelled. *)
Fixpoint base_topology (d : dict gvar) (t : topology) (a : args) : result args :=
  match t with
  | [] => Ok a
  | (n, v) :: r =>
      do a <- (if isin n ["node_lon"; "node_lat"] then do x <- get_var d v; Ok (dset a n (SVar x)) else Ok a);
      do a <- (if isin n composite_names then
                 do x <- get_var d n; do x <- composite x;
                 Ok (dset (dset a "node_lon" (SCol x 0)) "node_lat" (SCol x 1))
               else Ok a);
      base_topology d r a
  end.
Definition find_base (f : gfile) (t : option topology) : result (args * topology) :=
  let d := lower_vars f in
  match t with
  | None =>
      match find_pair d node_coord_names with
      | Some ((n1, v1), (n2, v2)) =>
          Ok ([("node_lon", SVar v1); ("node_lat", SVar v2)], [("node_lon", n1); ("node_lat", n2)])
      | None =>
          match find_first d composite_names with
          | Some (n, v) => do x <- composite v; Ok ([("node_lon", SCol x 0); ("node_lat", SCol x 1)], [("node_coordinates", n)])
          | None => Err ValueError
          end
      end
  | Some t => do a <- base_topology d t []; Ok (a, t)
  end.

(** [x.shape[0]] of a coordinate argument. *)
Definition count (s : src) : result nat :=
  match s with
  | SVar v => match gv_shape v with n :: _ => Ok n | [] => Err IndexError end
  | SCol v _ => Ok (size (gv_shape v) / 2)%nat
  | SFaces rows => Ok (length rows)
  end.
Fixpoint transpose_rows (w : nat) (rows : list (list Z)) : list (list Z) :=
  match w with
  | O => []
  | S w' => map (fun r => hd 0%Z r) rows :: transpose_rows w' (map (@tl Z) rows)
  end.
(** grids.py:142-150.  numpy's max of an empty array raises ValueError. *)
Definition normal_faces (rows : list (list Z)) (nodes : nat) : result (list (list Z)) :=
  let rows := if (length rows =? 3)%nat then transpose_rows (length (hd [] rows)) rows else rows in
  do m <- zmax (concat rows);
  Ok (if (m =? Z.of_nat nodes)%Z then map (map (fun k => k - 1)%Z) rows else rows).
(** grids.py:115-152 *)
Definition face_var_names : list string := ["faces"; "tris"; "nv"; "ele"; "nele"].
Definition get_arg (a : args) (n : string) : result src :=
  match dget a n with Some s => Ok s | None => Err KeyError end.
Definition find_u (f : gfile) (t : option topology) : result (args * topology) :=
  let d := lower_vars f in
  do at_ <- find_base f t;
  let (a, gt) := at_ in
  do fg <- match t with
           | None => match find_first d face_var_names with
                     | Some (n, v) => Ok (v, dset gt "faces" n)
                     | None => Err ValueError
                     end
           | Some t => match dget t "faces" with
                       | Some v => do x <- get_var d v; Ok (x, t)
                       | None => Err KeyError    (* init_args["faces"] *)
                       end
           end;
  let (v, gt) := fg in
  do lon <- get_arg a "node_lon";
  do n <- count lon;
  do rows <- normal_faces (gv_rows v) n;
  Ok (dset a "faces" (SFaces rows), gt).

(** grids.py:272-290 *)
Definition ndim (s : src) : nat :=
  match s with SVar v => length (gv_shape v) | SCol _ _ => 1 | SFaces _ => 2 end.
Definition find_r (f : gfile) (t : option topology) : result (args * topology) :=
  do at_ <- find_base f t;
  let (a, gt) := at_ in
  do lon <- get_arg a "node_lon";
  do lat <- get_arg a "node_lat";
  if negb (ndim lon =? 1)%nat then Err ValueError
  else if negb (ndim lat =? 1)%nat then Err ValueError
  else Ok (a, gt).

(** grids.py:164-233 *)
Definition s_names : list ((string * string) * list (string * string) * (string * string)) :=
  [(("center_lon", "center_lat"), [("center_lon", "center_lat"); ("lon_rho", "lat_rho"); ("lonc", "latc")], ("center_mask", "mask_rho"));
   (("edge1_lon", "edge1_lat"), [("edge1_lon", "edge1_lat"); ("lon_u", "lat_u")], ("edge1_mask", "mask_u"));
   (("edge2_lon", "edge2_lat"), [("edge2_lon", "edge2_lat"); ("lon_v", "lat_v")], ("edge2_mask", "mask_v"))].
Definition s_one (d : dict gvar) (st : args * topology)
  (e : (string * string) * list (string * string) * (string * string)) : args * topology :=
  let (a, gt) := st in
  match e with
  | ((a1, a2), names, (mattr, mname)) =>
      match find_pair d names with
      | None => (a, gt)
      | Some ((n1, v1), (n2, v2)) =>
          let a := dset (dset a a1 (SVar v1)) a2 (SVar v2) in
          let am := match dget d mname with
                    | Some m => (dset a mattr (SVar m), dset gt mattr mname)
                    | None => (a, gt)
                    end in
          (fst am, dset (dset (snd am) a1 n1) a2 n2)
      end
  end.
Definition s_coord_attrs : list string :=
  ["center_lon"; "center_lat"; "edge1_lon"; "edge1_lat"; "edge2_lon"; "edge2_lat"].
Definition s_mask_attrs : list string := ["node_mask"; "center_mask"; "edge1_mask"; "edge2_mask"].
Definition s_topology (d : dict gvar) (t : topology) (a : args) : args :=
  fold_left (fun a nv => match dget d (snd nv) with
                         | Some x => if isin (fst nv) (s_coord_attrs ++ s_mask_attrs) then dset a (fst nv) (SVar x) else a
                         | None => a
                         end) t a.
Definition find_s (f : gfile) (t : option topology) : result (args * topology) :=
  let d := lower_vars f in
  do at_ <- find_base f t;
  let (a, gt) := at_ in
  match t with
  | None =>
      let st := fold_left (s_one d) s_names (a, gt) in
      let (a, gt) := st in
      let a := match dget d "mask_psi" with Some m => dset a "node_mask" (SVar m) | None => a end in
      Ok (a, dset gt "node_mask" "mask_psi")       (* line 223 is outside the if *)
  | Some t => Ok (s_topology d t a, t)
  end.

(** grids.py:561-643, with the default class table. *)
Inductive gclass := Grid_U | Grid_S | Grid_R.
Definition sgrid_names := ["sgrid"; "pygrid_s"; "staggered"; "curvilinear"; "roms"].
Definition ugrid_names := ["ugrid"; "pygrid_u"; "triangular"; "unstructured"].
Definition rgrid_names := ["rgrid"; "regular"; "rectangular"; "rectilinear"].
Definition get_grid_type (f : gfile) (grid_type : option string) (t : option topology) : result gclass :=
  match grid_type with
  | Some g =>
      if isin (lower g) sgrid_names then Ok Grid_S
      else if isin (lower g) ugrid_names then Ok Grid_U
      else if isin (lower g) rgrid_names then Ok Grid_R
      else Err ValueError
  | None =>
  match t with
  | Some t =>
      let ty := lower (match dget t "grid_type" with Some g => g | None => "notype" end) in
      if has t "faces" || isin ty ugrid_names then Ok Grid_U
      else if isin ty rgrid_names then Ok Grid_R
      else Ok Grid_S
  | None =>
      let probe :=
        match find_topology_var f with
        | Some v => Ok (if gv_node_coordinates v && negb (gv_node_dimensions v) then Grid_U else Grid_S)
        | None =>
            match find_u f None with
            | Ok _ => Ok Grid_U
            | Err ValueError =>
                match find_r f None with
                | Ok _ => Ok Grid_R
                | Err ValueError =>
                    match find_s f None with Ok _ => Ok Grid_S | Err e => Err e end
                | Err e => Err e
                end
            | Err e => Err e
            end
        end in
      match gf_grid_type f with
      | Some g =>
          if isin g (sgrid_names ++ ugrid_names) then
            if isin (lower g) ugrid_names then Ok Grid_U
            else if isin (lower g) rgrid_names then Ok Grid_R
            else Ok Grid_S
          else probe
      | None => probe
      end
  end end.

(** grids.py:490-559.  What the factory does: read the whole file with the
    class's own reader, or construct from found arguments.  Grid_R has no
    from_ncfile. *)
Inductive gspec := ByName (s : string) | ByClass (c : gclass).
Inductive action := ReadWith (c : gclass) | Construct (c : gclass) (a : args) (t : topology).
Definition load_grid (c : gclass) : result action :=
  match c with Grid_R => Err AttributeError | _ => Ok (ReadWith c) end.
Definition grid_from_netcdf (f : gfile) (spec : option gspec) (t : option topology) : result action :=
  do c <- match spec with
          | Some (ByClass c) => Ok c
          | Some (ByName s) => get_grid_type f (Some s) t
          | None => get_grid_type f None t
          end;
  let compliant := match t with
                   | None => match find_topology_var f with Some _ => true | None => false end
                   | Some t => match dget t "cf_role" with Some r => contains "topology" r | None => false end
                   end in
  if compliant then load_grid c
  else do at_ <- (match c with Grid_U => find_u | Grid_S => find_s | Grid_R => find_r end) f t;
       Ok (Construct c (fst at_) (snd at_)).
