(** Model of loading depths: the name tables of gridded/depth.py:142-145,
    833-857, 893-913, and [S_Depth.from_netCDF] (396-570) with [S_Depth.__init__]
    (327-394).  What search_netcdf_vars finds is given (modelled in SearchModel),
    the grid is given, and of the values only where they come from is kept (the
    averaging to nodes is modelled in VectorModel). *)
From Coq Require Import String.
From Verif Require Import Common TimeModel GridTypeModel SearchModel TFileModel LoadModel.
Open Scope string_scope.
Open Scope list_scope.
Open Scope nat_scope.

(** ** Tables *)
Definition roms_names : roles :=
  [("Cs_r", ["Cs_r"]); ("Cs_w", ["Cs_w"]); ("s_rho", ["s_rho"]); ("s_w", ["s_w"]); ("hc", ["hc"]); ("bathymetry", ["h"]); ("zeta", ["zeta"])].
Definition roms_cf : roles :=
  [("Cs_r", ["S-coordinate stretching curves at RHO-points"]); ("Cs_w", ["S-coordinate stretching curves at W-points"]);
   ("s_rho", ["S-coordinate at RHO-points"]); ("s_w", ["S-coordinate at W-points"]); ("hc", ["S-coordinate parameter, critical depth"]);
   ("bathymetry", ["bathymetry at RHO-points"; "Final bathymetry at RHO-points"]); ("zeta", ["free-surface"])].
Definition fvcom_names : roles :=
  [("siglay", ["siglay"]); ("siglev", ["siglev"]); ("bathymetry", ["h"]); ("zeta", ["zeta"])].
Definition fvcom_cf : roles :=
  [("siglay", ["ocean_sigma/general_coordinate"]); ("siglev", ["ocean_sigma/general_coordinate"]);
   ("bathymetry", ["sea_floor_depth_below_geoid"]); ("zeta", ["sea_surface_height_above_geoid"])].
Definition level_names : roles := [("depth_levels", ["depth"; "depth_levels"; "Depth"])].
(** [cf_names = {"depth_levels": "depth"}]: the search goes through the letters. *)
Definition level_cf : roles := [("depth_levels", ["d"; "e"; "p"; "t"; "h"])].

(** ** S_Depth.from_netCDF *)
(** A variable found: the file it is in, its name and contents. *)
Record fref := mkFref { fr_file : lfile; fr_name : string; fr_var : lvar }.
(** Where values come from. *)
Inductive source := FromArg | FromFile (name : string) | Averaged (name : string) | Zero.
(** A term: the values of a variable, or what was passed in. *)
Inductive tval := Values (name : string) | Passed (s : string).
(** A zeta passed in: a Variable with its time, or something else. *)
Inductive zarg := ZNone | ZVar (t : option time_obj) | ZOther.
Record sargs := mkSargs {
  sa_name : option string; sa_time : option time_obj; sa_tz : tz_arg; sa_origin : option Z; sa_disp : option Z;
  sa_bathy : bool; sa_zeta : zarg; sa_terms : option (dict string); sa_vtransform : option Z;
  sa_surface : option string; sa_bottom : option string }.
Record sdepth := mkSdepth {
  sd_name : string; sd_time : ltime; sd_bathy : source; sd_bathy_loc : option string;
  sd_zeta : source; sd_zeta_loc : option string;
  sd_terms : dict tval; sd_vtransform : Z; sd_surface : string; sd_bottom : string }.
Inductive sclass := CBase | CROMS | CFVCOM.
Definition class_name (c : sclass) : string := match c with CBase => "S_Depth" | CROMS => "ROMS_Depth" | CFVCOM => "FVCOM_Depth" end.

(** [nc_vars.get(k, None)] *)
Definition get_found (nc : dict (option fref)) (k : string) : option fref :=
  match dget nc k with Some o => o | None => None end.
Definition own_location (v : lvar) : option string := dget (lv_attrs v) "location".
(** ['node' in grid.infer_location(v)] *)
Definition on_nodes (g : grid_api) (v : lvar) : result bool :=
  do i <- ga_infer g (own_location v) (lv_shape v);
  match i with None => Err TypeError | Some l => Ok (contains "node" l) end.
(** [Variable(data=..., grid=grid)] without time: the location. *)
Definition construct_plain (g : grid_api) (hint : option string) (shape : list nat) : result string :=
  do i <- ga_infer g hint shape;
  do _ <- check_location i;
  match i with Some l => Ok l | None => Err ValueError end.
(** The shapes after averaging, 524-525 and 548-549. *)
Definition averaged2 (shape : list nat) : result (list nat) :=
  match shape with a :: b :: r => Ok ((a - 1) :: (b - 1) :: r) | _ => Err IndexError end.
Definition averaged3 (shape : list nat) : result (list nat) :=
  match shape with t :: a :: b :: r => Ok (t :: (a - 1) :: (b - 1) :: r) | _ => Err IndexError end.

Section Loading.
  Context (dateutil : string -> dparse) (cftime : string -> option (Z * Z * Z)).
  Context (g : grid_api) (ds : lfile) (nc : dict (option fref)) (a : sargs).

  Definition time_of (r : result tresult) : result ltime :=
    do x <- r; Ok (match x with Axis t n => TimeRead t n | Constant => TimeNow end).
  (** 478-502 *)
  Definition s_time : result ltime :=
    match sa_time a with
    | Some t => Ok (TimeGiven t)
    | None =>
        match sa_zeta a with
        | ZNone =>
            match get_found nc "zeta" with
            | None => Ok TimeNow
            | Some r => time_of (time_from_netCDF dateutil cftime (tfile_of (fr_file r)) None (DVVar (tvar_of (fr_var r))) (sa_tz a) None None (sa_origin a) (sa_disp a))
            end
        | ZVar (Some t) => Ok (TimeGiven t)
        | _ => time_of (time_from_netCDF dateutil cftime (tfile_of ds) None DVNone (sa_tz a) None None (sa_origin a) (sa_disp a))
        end
    end.
  (** 504-529; also the local [bathy_var], if it gets one. *)
  Definition s_bathy : result (source * option string * option fref) :=
    if sa_bathy a then Ok (FromArg, None, None)
    else
      match get_found nc "bathymetry" with
      | None => Err ValueError
      | Some r =>
          do n <- on_nodes g (fr_var r);
          if n then
            do l <- construct_plain g (own_location (fr_var r)) (lv_shape (fr_var r));
            Ok (FromFile (fr_name r), Some l, Some r)
          else
            do sh <- averaged2 (lv_shape (fr_var r));
            do l <- construct_plain g None sh;
            Ok (Averaged (fr_name r), Some l, Some r)
      end.
  (** 531-550 *)
  Definition s_zeta (t : ltime) (bathy_var : option fref) : result (source * option string) :=
    match sa_zeta a with
    | ZNone =>
        match get_found nc "zeta" with
        | None => Ok (Zero, None)
        | Some r =>
            match bathy_var with
            | None => Err UnboundLocalError
            | Some b =>
                do n <- on_nodes g (fr_var b);
                if n then
                  do l <- construct g (own_location (fr_var r)) (lv_shape (fr_var r)) None t;
                  Ok (FromFile (fr_name r), Some l)
                else
                  do sh <- averaged3 (lv_shape (fr_var r));
                  do l <- construct g None sh None t;
                  Ok (Averaged (fr_name r), Some l)
            end
        end
    | _ => Ok (FromArg, None)
    end.
  (** 552-562 *)
  Definition s_terms : dict tval :=
    match sa_terms a with
    | Some l => map (fun kv => (fst kv, Passed (snd kv))) l
    | None =>
        fold_left (fun d kv => match snd kv with
                               | Some r => if isin (fst kv) ["bathymetry"; "zeta"] then d else dset d (fst kv) (Values (fr_name r))
                               | None => d
                               end) nc []
    end.
  (** [count] is the class counter. *)
  Definition load_sdepth (cls : sclass) (count : nat) : result sdepth :=
    match cls with
    | CBase => Err NotImplementedError
    | _ =>
        let name := match sa_name a with Some n => n | None => append (class_name cls) (append "_" (IsoModel.dec (N.of_nat count))) end in
        do t <- s_time;
        do b <- s_bathy;
        let '(bs, bl, bv) := b in
        do z <- s_zeta t bv;
        Ok (mkSdepth name t bs bl (fst z) (snd z) s_terms
              (match sa_vtransform a with Some v => v | None => 2%Z end)
              (match sa_surface a with Some s => s | None => "extrapolate" end)
              (match sa_bottom a with Some s => s | None => "mask" end))
    end.
End Loading.
