(** Model of how an SGRID file is searched for coordinates and masks, and of
    the description made of each of its variables: gridded/pysgrid/
    read_netcdf.py, utils.py, variables.py and the readers in sgrid.py. *)
From Coq Require Import String Ascii.
From Verif Require Import Common MaskModel GridTypeModel ChainModel VerdatModel SAttrModel.
Open Scope string_scope.
Open Scope list_scope.
Open Scope nat_scope.

(** A netCDF variable: name, dimension names, text attributes, and the integer
    attribute topology_dimension.  [sv_shape]: the lengths of its dimensions. *)
Record svar := mkSvar { sv_name : string; sv_dims : list string; sv_attrs : dict string;
                        sv_topology_dimension : option Z; sv_shape : list nat }.
(** The variables of the file in order; [nc.variables] maps each name to its
    variable. *)
Definition sfile := list svar.
Definition lookup (f : sfile) (n : string) : option svar := find (fun v => String.eqb n (sv_name v)) f.
Definition attr (v : svar) (a : string) : option string := dget (sv_attrs v) a.
Definition attr_or_empty (v : svar) (a : string) : string := match attr v a with Some s => s | None => "" end.

(** read_netcdf.py:13-40 *)
Definition has_role (v : svar) : bool := match attr v "cf_role" with Some r => String.eqb r "grid_topology" | None => false end.
Definition find_grid_topology_var (f : sfile) : result string :=
  match filter has_role f with
  | [] => Err ValueError
  | [v] => match sv_topology_dimension v with
           | Some d => if (d =? 2)%Z then Ok (sv_name v) else Err ValueError
           | None => Err ValueError
           end
  | _ => Err ValueError
  end.

(** lookup.py:27-29 *)
Definition x_coordinates : list string := ["x"; "lon"; "longitude"].
Definition y_coordinates : list string := ["y"; "lat"; "latitude"].
Definition mentions_any (names : list string) (s : string) : bool := existsb (fun n => contains n s) names.
Definition subset (a b : list string) : bool := forallb (fun x => isin x b) a.
Definition same_set (a b : list string) : bool := subset a b && subset b a.

Definition looks (names : list string) (v : svar) : bool :=
  mentions_any names (lower (sv_name v)) || mentions_any names (lower (attr_or_empty v "standard_name")).
(** read_netcdf.py:140-158: the loop, with its break. *)
Fixpoint node_loop (dims : list string) (f : sfile) (xy : option string * option string) : option string * option string :=
  match f with
  | [] => xy
  | v :: r =>
      let xy :=
        if same_set (sv_dims v) dims then
          if looks x_coordinates v then (Some (sv_name v), snd xy)
          else if looks y_coordinates v then (fst xy, Some (sv_name v))
          else xy
        else xy in
      match xy with
      | (Some _, Some _) => xy
      | _ => node_loop dims r xy
      end
  end.
(** read_netcdf.py:129-162 *)
Definition find_node_coordinates (f : sfile) (node_dimensions : string) : option (string * string) :=
  match node_loop (split_on " " node_dimensions) f (None, None) with
  | (Some x, Some y) => Some (x, y)
  | _ => None
  end.

Definition xyz := (option string * option string * option string)%type.
Definition set_x (c : xyz) (n : string) : xyz := let '(x, y, z) := c in (Some n, y, z).
Definition set_y (c : xyz) (n : string) : xyz := let '(x, y, z) := c in (x, Some n, z).
Definition set_z (c : xyz) (n : string) : xyz := let '(x, y, z) := c in (x, y, Some n).
(** read_netcdf.py:207-232: a variable with a location but no coordinates. *)
Definition potential (f : sfile) (v : svar) : list svar :=
  filter (fun w => subset (sv_dims w) (sv_dims v) && negb (String.eqb (sv_name w) (sv_name v)) && negb (length (sv_dims w) =? 0)) f.
Definition guess_step (c : xyz) (w : svar) : xyz :=
  if looks x_coordinates w then set_x c (sv_name w)
  else if looks y_coordinates w then set_y c (sv_name w)
  else set_z c (sv_name w).
(** read_netcdf.py:234-259: a variable whose coordinates attribute names them. *)
Definition named_lon (w : svar) : bool :=
  contains "lon" (lower (sv_name w)) || contains "longitude" (lower (attr_or_empty w "standard_name"))
  || contains "longitude" (lower (attr_or_empty w "description")).
Definition named_lat (w : svar) : bool :=
  contains "lat" (lower (sv_name w)) || contains "latitude" (lower (attr_or_empty w "standard_name"))
  || contains "latitude" (lower (attr_or_empty w "description")).
Fixpoint named_steps (f : sfile) (names : list string) (c : xyz) : result xyz :=
  match names with
  | [] => Ok c
  | n :: r =>
      match lookup f n with
      | None => Err KeyError
      | Some w => named_steps f r (if named_lon w then set_x c n else if named_lat w then set_y c n else c)
      end
  end.
Fixpoint location_loop (f : sfile) (vs : list svar) (c : xyz) : result xyz :=
  match vs with
  | [] => Ok c
  | v :: r =>
      match attr v "coordinates" with
      | None => location_loop f r (fold_left guess_step (potential f v) c)
      | Some text =>
          let names := split_on " " (strip text) in
          do c <- named_steps f names c;
          Ok (if length names =? 3 then set_z c (last names "") else c)
      end
  end.
(** [all(coordinates)] is false of an empty name too. *)
Definition truthy (o : option string) : bool := match o with Some s => negb (String.eqb s "") | None => false end.
(** read_netcdf.py:182-268.  find_variables_by_attr(location=...): the
    variables whose location attribute equals the text. *)
Definition with_location (f : sfile) (loc : string) : list svar :=
  filter (fun v => match attr v "location" with Some l => String.eqb l loc | None => false end) f.
Definition find_coordinates_by_location (f : sfile) (loc : string) (topology_dim : Z) : result (option (list string)) :=
  do c <- location_loop f (with_location f loc) (None, None, None);
  let '(x, y, z) := c in
  let all := if (topology_dim =? 2)%Z then [x; y] else [x; y; z] in
  Ok (if forallb truthy all then Some (map (fun o => match o with Some s => s | None => "" end) all) else None).

(** sgrid.py:1379-1389, topology dimension 2 *)
Definition get_attr_coordinates (f : sfile) (topology_var : svar) (name : string) : result (option (list string)) :=
  match attr topology_var name with
  | Some raw => Ok (Some (split_on " " raw))
  | None => find_coordinates_by_location f (hd "" (split_on "_" name)) 2
  end.

(** sgrid.py:1462-1485.  A location's shape, when it has one. *)
Fixpoint shape_eqb (a b : list nat) : bool :=
  match a, b with
  | [], [] => true
  | x :: a', y :: b' => (x =? y) && shape_eqb a' b'
  | _, _ => false
  end.
Definition mask_candidate (v : svar) : bool :=
  contains "mask" (sv_name v) || match attr v "long_name" with Some l => contains "mask" l | None => false end.
Definition masks4 := (option string * option string * option string * option string)%type.
(** [shape] and the first candidate of that shape; an empty shape counts as
    no shape ([node.shape if ... and node.shape else None]). *)
Definition take_mask (shape : option (list nat)) (v : svar) (m : option string) : option string :=
  match shape, m with
  | Some ((_ :: _) as s), None => if shape_eqb (sv_shape v) s then Some (sv_name v) else None
  | _, _ => m
  end.
Definition get_masks (f : sfile) (node center edge1 edge2 : option (list nat)) : masks4 :=
  fold_left (fun m v => let '(n, c, e1, e2) := m in
              (take_mask node v n, take_mask center v c, take_mask edge1 v e1, take_mask edge2 v e2))
    (filter mask_candidate f) (None, None, None, None).

(** The paddings of a loaded grid (what parse_padding gave, or None) and its
    node dimensions. *)
Record sgrid := mkSgrid { sg_node_dimensions : string; sg_face : option (list padding); sg_edge1 : option (list padding);
                          sg_edge2 : option (list padding); sg_vertical : option (list padding) }.
(** sgrid.py:26 *)
Definition padding_slices : dict (option Z * option Z) :=
  [("both", (Some 1%Z, Some (-1)%Z)); ("none", (None, None)); ("low", (Some 1%Z, None)); ("high", (None, Some 1%Z))].
(** sgrid.py:255-260: the property face_padding (315-333) is never None, so
    _face_padding is returned, None included.  With a list it reads entries 0
    and 1.  The guess made when there is no list is not modelled: it is
    discarded here (it raises IndexError for shapes more than 3 apart). *)
Definition get_all_face_padding (g : sgrid) : result (option (list padding)) :=
  match sg_face g with
  | Some ((_ :: _) as l) => do _ <- py_get l 1; Ok (Some l)
  | o => Ok o
  end.
(** sgrid.py:262-268 *)
Definition get_all_edge_padding (g : sgrid) : list padding :=
  (match sg_edge1 g with Some l => l | None => [] end) ++ (match sg_edge2 g with Some l => l | None => [] end).
(** [None + list] *)
Definition plus_list (o : option (list padding)) (l : list padding) : result (list padding) :=
  match o with Some f => Ok (f ++ l) | None => Err TypeError end.
(** sgrid.py:270-274: the property vertical_padding (375-383) is never None,
    and [+= None] raises. *)
Definition all_padding (g : sgrid) : result (list padding) :=
  do f <- get_all_face_padding g;
  do l <- plus_list f (get_all_edge_padding g);
  match sg_vertical g with Some v => Ok (l ++ v) | None => Err TypeError end.

(** utils.py:59-71 *)
Definition does_intersection_exist (a b : list string) : bool := existsb (fun x => isin x b) a.
Definition find_info (l : list padding) (d : string) : option padding := find (fun p => String.eqb (face_dim p) d) l.
Fixpoint slices_of (l : list padding) (dims : list string) : result (list (option Z * option Z)) :=
  match dims with
  | [] => Ok []
  | d :: r =>
      do s <- match find_info l d with
              | None => Ok (None, None)
              | Some p => match dget padding_slices (pad_type p) with Some s => Ok s | None => Err KeyError end
              end;
      do rest <- slices_of l r;
      Ok (s :: rest)
  end.
(** utils.py:74-120, method="center" (the only one used) *)
Definition determine_variable_slicing (g : sgrid) (dims : list string) : result (list (option Z * option Z)) :=
  if does_intersection_exist dims (split_on " " (sg_node_dimensions g)) then
    match sg_face g, dims with
    | None, _ :: _ => Err TypeError      (* iterating None *)
    | Some l, _ => slices_of l dims
    | None, [] => Ok []
    end
  else do l <- all_padding g; slices_of l dims.

(** utils.py:123-160 *)
Fixpoint index_of (d : string) (l : list string) : nat :=
  match l with [] => 0 | x :: r => if String.eqb x d then 0 else S (index_of d r) end.
Definition first_padded (l : list padding) (dims : list string) : option string :=
  find (fun d => match find_info l d with Some _ => true | None => false end) dims.
Definition infer_avg_axes (g : sgrid) (dims : list string) : result (option nat * option nat) :=
  do f <- get_all_face_padding g;
  do l <- (if does_intersection_exist (split_on " " (sg_node_dimensions g)) dims then
             match f with Some l => Ok l | None => Err TypeError end
           else plus_list f (get_all_edge_padding g));
  match dims with
  | [] => Err UnboundLocalError          (* padding_info is assigned in the loop only *)
  | _ =>
      let center := match first_padded l dims with
                    | Some d => Some (length dims - index_of d dims - 1)
                    | None => None
                    end in
      Ok (center, match center with Some 1 => Some 0 | Some 0 => Some 1 | _ => None end)
  end.

(** utils.py:163-180 *)
Definition infer_variable_location (g : sgrid) (dims : list string) : result (option string) :=
  let node_dims := split_on " " (sg_node_dimensions g) in
  do f <- get_all_face_padding g;
  match f with
  | None => Err TypeError
  | Some f =>
      let face_dims := map face_dim f in
      let edge_dims := map face_dim (get_all_edge_padding g) in
      Ok (if does_intersection_exist dims face_dims && negb (does_intersection_exist dims node_dims) then Some "face"
          else if (does_intersection_exist dims face_dims && does_intersection_exist dims node_dims)
                  || does_intersection_exist dims edge_dims then Some "edge"
          else None)
  end.

(** variables.py:79-143; the fields that are inferred (the others are copied
    attributes of the variable). *)
Record described := mkDescribed { ds_center_axis : option nat; ds_node_axis : option nat;
  ds_slicing : list (option Z * option Z); ds_location : option string; ds_axes : axes3;
  ds_vector_axis : option string; ds_coordinates : option (list string) }.
Definition create_variable (g : sgrid) (v : svar) : result described :=
  do ca <- match attr v "grid" with None => Ok (None, None) | Some _ => infer_avg_axes g (sv_dims v) end;
  do sl <- determine_variable_slicing g (sv_dims v);
  do loc <- match attr v "location" with Some l => Ok (Some l) | None => infer_variable_location g (sv_dims v) end;
  let loc := match loc with
             | Some l => if String.eqb l "edge" then
                           match fst ca with Some 0 => Some "edge2" | Some 1 => Some "edge1" | _ => None end
                         else Some l
             | None => None
             end in
  do ax <- match attr v "axes" with Some a => parse_axes a | None => Ok (None, None, None) end;
  do va <- match attr v "standard_name" with Some s => parse_vector_axis s | None => Ok None end;
  Ok (mkDescribed (fst ca) (snd ca) sl loc ax va
        (match attr v "coordinates" with Some c => Some (split (strip c)) | None => None end)).
(** sgrid.py:1403-1415: every variable of the file is described on loading;
    the first failure ends the load. *)
Definition load_variables (g : sgrid) (f : sfile) : result (list (string * described)) :=
  mapM_res (fun v => do d <- create_variable g v; Ok (sv_name v, d)) f.
