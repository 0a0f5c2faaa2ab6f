(** Model of loading a staggered grid from an SGRID file and of saving it:
    gridded/pysgrid/sgrid.py:181-238 [load_grid], 271-290 [save_as_netcdf],
    414-486 [_save_common_components], 1345-1485 [SGridAttributes]. *)
From Coq Require Import String Ascii QArith.
From Verif Require Import Common MaskModel GridTypeModel ChainModel VerdatModel SAttrModel SVarModel.
Open Scope string_scope.
Open Scope list_scope.
Open Scope nat_scope.

(** A file: dimensions with their lengths, and variables with their values in
    row order ([None]: masked, which is also what reading a variable that was
    never written gives).  Types, scale factors and groups are not modelled. *)
Record fdata := mkFdata { fd_var : svar; fd_vals : list (option Q) }.
Record nfile := mkNfile { nf_dims : dict nat; nf_vars : list fdata }.
Definition vars_of (f : nfile) : sfile := map fd_var (nf_vars f).
Definition values := (list nat * list (option Q))%type.
(** [nc[name][:]]; netCDF4 raises IndexError. *)
Definition read (f : nfile) (n : string) : result values :=
  match find (fun d => String.eqb n (sv_name (fd_var d))) (nf_vars f) with
  | Some d => Ok (sv_shape (fd_var d), fd_vals d)
  | None => Err IndexError
  end.
(** [a, b = names] *)
Definition unpack2 (o : option (list string)) : result (string * string) :=
  match o with
  | None => Err TypeError
  | Some [a; b] => Ok (a, b)
  | Some _ => Err ValueError
  end.

(** An SGridVariable. *)
Record sgvar := mkSgvar { gv_name : string; gv_dims : list string; gv_grid : option string;
                          gv_standard_name : option string; gv_desc : described }.
Record grid := mkGrid {
  g_dims : dict nat; g_topology : string; g_node_dimensions : string; g_node_coordinates : option (list string);
  g_edge1_dims : option string * option (list padding); g_edge2_dims : option string * option (list padding);
  g_face_dims : option string * option (list padding); g_vertical_dims : option string * option (list padding);
  g_edge1_coordinates : option (list string); g_edge2_coordinates : option (list string); g_face_coordinates : option (list string);
  g_angles : values;
  g_node : option (values * values); g_center : option (values * values);
  g_edge1 : option (values * values); g_edge2 : option (values * values);
  g_masks : masks4; g_variables : list sgvar }.

(** ** Loading *)
(** 1368-1377 *)
Definition get_dimension (t : svar) (a : string) : result (option string * option (list padding)) :=
  match attr t a with
  | None => Ok (None, None)
  | Some s => do p <- parse_padding s; Ok (Some s, Some p)
  end.
(** 1391-1402 *)
Definition get_node_coordinates (f : sfile) (t : svar) : result (string * option (list string)) :=
  match attr t "node_dimensions" with
  | None => Err AttributeError
  | Some nd =>
      Ok (nd, match attr t "node_coordinates" with
              | Some s => Some (split_on " " s)
              | None => option_map (fun xy => [fst xy; snd xy]) (find_node_coordinates f nd)
              end)
  end.
(** 1428-1470: a TypeError (no coordinates) gives None; edge1 catches all. *)
Definition lon_lat (any : bool) (f : nfile) (o : option (list string)) : result (option (values * values)) :=
  match unpack2 o with
  | Ok (x, y) => do a <- read f x; do b <- read f y; Ok (Some (a, b))
  | Err TypeError => Ok None
  | Err e => if any then Ok None else Err e
  end.
Section Angles.
  (** utils.py:22-43, 183-213 applied to the centers (1420-1425). *)
  Context (from_true_east : values -> values -> result values).
  (** 1417-1426: [not angles] asks a netCDF variable for its length. *)
  Definition get_angles (f : nfile) (center : option (values * values)) : result values :=
    let calculated := match center with
                      | None => Err AttributeError      (* None.shape *)
                      | Some (lon, lat) => from_true_east lon lat
                      end in
    match read f "angle" with
    | Ok ([], _) => Err TypeError                       (* len() of unsized object *)
    | Ok (0 :: _, _) => calculated
    | Ok v => Ok v
    | Err _ => calculated
    end.
  Definition shape_of (c : option (values * values)) : option (list nat) := option_map (fun p => fst (fst p)) c.
  Definition variable_of (g : sgrid) (v : svar) : result sgvar :=
    do d <- create_variable g v;
    Ok (mkSgvar (sv_name v) (sv_dims v) (attr v "grid") (attr v "standard_name") d).
  (** 181-238.  Names of variables are assumed not to be those of attributes
      of the grid object ([setattr], 1410, would replace them). *)
  Definition load (f : nfile) : result grid :=
    let vs := vars_of f in
    do n <- find_grid_topology_var vs;
    match lookup vs n with
    | None => Err KeyError
    | Some t =>
        do nodes <- get_node_coordinates vs t;
        do e1 <- get_dimension t "edge1_dimensions";
        do e2 <- get_dimension t "edge2_dimensions";
        do c1 <- get_attr_coordinates vs t "edge1_coordinates";
        do c2 <- get_attr_coordinates vs t "edge2_coordinates";
        do cf <- get_attr_coordinates vs t "face_coordinates";
        do center <- lon_lat false f cf;
        do angles <- get_angles f center;
        do vd <- get_dimension t "vertical_dimensions";
        do node <- lon_lat false f (snd nodes);
        do edge1 <- lon_lat true f c1;
        do edge2 <- lon_lat false f c2;
        do fd <- get_dimension t "face_dimensions";
        let sg := mkSgrid (fst nodes) (snd fd) (snd e1) (snd e2) (snd vd) in
        do vars <- mapM_res (variable_of sg) vs;
        Ok (mkGrid (nf_dims f) n (fst nodes) (snd nodes) e1 e2 fd vd c1 c2 cf angles node center edge1 edge2
              (get_masks vs (shape_of node) (shape_of center) (shape_of edge1) (shape_of edge2)) vars)
    end.
End Angles.

(** ** Saving *)
Definition join := String.concat " ".
Definition product (l : list nat) : nat := fold_right Nat.mul 1 l.
Definition size_of (g : grid) (d : string) : nat := match dget (g_dims g) d with Some n => n | None => 0 end.
(** [getattr(self, name)] *)
Definition getvar (g : grid) (n : string) : result sgvar :=
  match find (fun v => String.eqb n (gv_name v)) (g_variables g) with Some v => Ok v | None => Err AttributeError end.
Definition made (l : list fdata) (n : string) : bool := isin n (map (fun d => sv_name (fd_var d)) l).
(** createVariable: the name must be new. *)
Definition create (l : list fdata) (d : fdata) : result (list fdata) :=
  if made l (sv_name (fd_var d)) then Err RuntimeError else Ok (l ++ [d]).
Definition blank (g : grid) (dims : list string) : list (option Q) := repeat None (product (map (size_of g) dims)).
Definition new_var (g : grid) (n : string) (dims : list string) (attrs : dict string) (vals : list (option Q)) : fdata :=
  mkFdata (mkSvar n dims attrs None (map (size_of g) dims)) vals.
(** A coordinate or the angle: no attributes.  [var[:] = values] of another
    shape is an error (broadcasting is not modelled). *)
Definition written (g : grid) (v : sgvar) (vals : values) : result fdata :=
  if shape_eqb (fst vals) (map (size_of g) (gv_dims v)) then Ok (new_var g (gv_name v) (gv_dims v) [] (snd vals)) else Err ValueError.
Definition pair_vars (g : grid) (l : list fdata) (xy : string * string) (vals : option (values * values)) : result (list fdata) :=
  do x <- getvar g (fst xy);
  do y <- getvar g (snd xy);
  match vals with
  | None => Err TypeError
  | Some (lon, lat) =>
      do dx <- written g x lon;
      do dy <- written g y lat;
      do l <- create l dx;
      create l dy
  end.
Definition opt_attr (k : string) (o : option string) : dict string := match o with Some s => [(k, s)] | None => [] end.
(** 443-453 and 283-290, in the order of the final attributes *)
Definition topology_var (g : grid) : fdata :=
  mkFdata (mkSvar (g_topology g) []
    ([("cf_role", "grid_topology"); ("node_dimensions", g_node_dimensions g)]
     ++ opt_attr "edge1_dimensions" (fst (g_edge1_dims g)) ++ opt_attr "edge2_dimensions" (fst (g_edge2_dims g))
     ++ opt_attr "node_coordinates" (option_map join (g_node_coordinates g))
     ++ opt_attr "edge1_coordinates" (option_map join (g_edge1_coordinates g))
     ++ opt_attr "edge2_coordinates" (option_map join (g_edge2_coordinates g))
     ++ opt_attr "face_dimensions" (fst (g_face_dims g))
     ++ opt_attr "vertical_dimensions" (fst (g_vertical_dims g))
     ++ opt_attr "face_coordinates" (option_map join (g_face_coordinates g)))
    (Some 2%Z) []) [None].
(** 466-485: neither values nor the location are written. *)
Definition other_var (g : grid) (v : sgvar) : fdata :=
  let a := ds_axes (gv_desc v) in
  new_var g (gv_name v) (gv_dims v)
    (opt_attr "grid" (option_map (fun _ => g_topology g) (gv_grid v))
     ++ opt_attr "standard_name" (gv_standard_name v)
     ++ opt_attr "coordinates" (option_map join (ds_coordinates (gv_desc v)))
     ++ match a with (None, None, None) => [] | _ => [("axes", write_axes a)] end)
    (blank g (gv_dims v)).
(** 459-464: names already in the file are passed over. *)
Definition others (g : grid) (l : list fdata) : list fdata :=
  fold_left (fun l v => if made l (gv_name v) then l else l ++ [other_var g v]) (g_variables g) l.
Definition save (g : grid) : result nfile :=
  do c <- unpack2 (g_face_coordinates g);
  do l <- pair_vars g [] c (g_center g);
  do l <- match unpack2 (g_node_coordinates g) with
          | Ok n => pair_vars g l n (g_node g)
          | Err TypeError => Ok l
          | Err e => Err e
          end;
  do _ <- getvar g (g_topology g);
  do l <- create l (topology_var g);
  do l <- match getvar g "angle" with
          | Ok v => do d <- written g v (g_angles g); create l d
          | Err _ => Ok l
          end;
  let l := others g l in
  match fst (g_face_dims g) with
  | None => Err TypeError          (* an attribute cannot be None *)
  | Some _ => Ok (mkNfile (g_dims g) l)
  end.
