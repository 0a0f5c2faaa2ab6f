(** Model of loading variables from files: gridded/variable.py:44-132
    [Variable.__init__], 138-292 [Variable.from_netCDF], 320-332 [location];
    gridded/gridded.py:144-183 [Dataset._variables_from_netCDF], 225-242
    [get_variables_by_attribute]. *)
From Coq Require Import String Ascii.
From Verif Require Import Common TimeModel IsoModel GridTypeModel MaskModel SGridModel UGridModel RGridModel TFileModel.
Open Scope string_scope.
Open Scope list_scope.
Open Scope nat_scope.

(** A variable of the file: dimensions, shape, text attributes and (for time
    axes) whole-number values. *)
Record lvar := mkLvar { lv_dims : list string; lv_shape : list nat; lv_attrs : dict string; lv_vals : list Z }.
Record lfile := mkLfile { lf_dims : list string; lf_vars : dict lvar }.
Definition tvar_of (v : lvar) : tvar := mkTvar (lv_dims v) (dget (lv_attrs v) "time") (dget (lv_attrs v) "units") (lv_vals v).
Definition tfile_of (f : lfile) : tfile := mkTfile (lf_dims f) (map (fun kv => (fst kv, tvar_of (snd kv))) (lf_vars f)).

(** gridded/__init__.py:7-9, without None *)
Definition valid_locations : list string := ["center"; "edge1"; "edge2"; "node"; "face"; "edge"; "boundary"].

(** What loading needs of a grid: its class, infer_location (own location
    attribute of the variable, and its shape), and the values of
    [grid_topology] after [str]. *)
Inductive gkind := KS | KR | KU.
Record grid_api := mkGrid {
  ga_kind : gkind; ga_infer : option string -> list nat -> result (option string); ga_topology : dict string }.
(** The three infer_location. *)
Definition s_name (l : sloc) : string :=
  match l with SCenter => "center" | SEdge1 => "edge1" | SEdge2 => "edge2" | SNode => "node" end.
Definition s_infer (node : nat * nat) (hc h1 h2 : bool) (_ : option string) (shape : list nat) : result (option string) :=
  Ok (option_map s_name (infer_location node hc h1 h2 (Some shape))).
Definition u_name (l : uloc) : string := match l with LNode => "node" | LFace => "face" | LBoundary => "boundary" end.
Definition u_infer (n : nat) (nf nb : option nat) (_ : option string) (shape : list nat) : result (option string) :=
  Ok (option_map u_name (u_infer_location n nf nb shape)).
Definition r_infer (g : rgrid) (attr : option string) (shape : list nat) : result (option string) :=
  rg_infer g (option_map Some attr) shape.

Inductive ltime := TimeGiven (t : time_obj) | TimeNow | TimeRead (t : time_obj) (name : string).
Definition times (t : ltime) : nat :=
  match t with TimeGiven t | TimeRead t _ => length (t_data t) | TimeNow => 1 end.
Inductive ldepth := DepthNone | DepthGiven | DepthRead.
Record variable := mkVar {
  va_name : string; va_units : option string; va_time : ltime; va_depth : ldepth; va_loc : string;
  va_varname : string; va_attrs : dict string; va_shape : list nat }.

(** variable.py:327-332 *)
Definition check_location (l : option string) : result unit :=
  match l with
  | None => Ok tt
  | Some l => if isin l valid_locations then Ok tt else Err ValueError
  end.
(** The constructor for data read from the file and a grid: location, data
    (379-393, no time yet), then time (360-372).  [hint] is the location
    attribute of the data, which a Grid_R looks at itself. *)
Definition construct (g : grid_api) (hint : option string) (shape : list nat) (loc : option string) (t : ltime)
  : result string :=
  do _ <- check_location loc;
  do l <- match loc with
          | Some l => Ok l
          | None =>
              do i <- ga_infer g hint shape;
              do _ <- check_location i;
              match i with Some l => Ok l | None => Err ValueError end
          end;
  match shape with
  | [] => Err IndexError
  | d :: _ => if negb (times t =? d) && (1 <? times t) then Err ValueError else Ok l
  end.

Record largs := mkLargs {
  la_varname : string; la_name : option string; la_units : option string; la_time : option time_obj;
  la_tz : tz_arg; la_origin : option Z; la_disp : option Z; la_depth : bool; la_loc : option string }.
Definition default_name (count : nat) : string := "Variable_" ++ dec (N.of_nat count).

Section Loading.
  Context (dateutil : string -> dparse) (cftime : string -> option (Z * Z * Z)).
  (** Depth.from_netCDF for this file and grid: may raise. *)
  Context (read_depth : result unit).

  (** 246-262: the time axis, and whether [timevarname] is not None. *)
  Definition load_time (f : lfile) (v : lvar) (a : largs) : result (ltime * bool) :=
    match la_time a with
    | Some t => Ok (TimeGiven t, true)
    | None =>
        do n <- locate_time (tfile_of f) (tvar_of v);
        match n with
        | None => Ok (TimeNow, false)
        | Some n =>
            do r <- time_from_netCDF dateutil cftime (tfile_of f) (Some n) DVNone (la_tz a) None None (la_origin a) (la_disp a);
            match r with
            | Axis t nm => Ok (TimeRead t nm, true)
            | Constant => Ok (TimeNow, true)
            end
        end
    end.
  Definition horizontal (k : gkind) : nat := match k with KU => 1 | _ => 2 end.
  (** 264-273 *)
  Definition load_depth (g : grid_api) (v : lvar) (istime : bool) (a : largs) : result ldepth :=
    if la_depth a then Ok DepthGiven
    else if length (lv_shape v) =? horizontal (ga_kind g) + 1 + (if istime then 1 else 0)
    then do _ <- read_depth; Ok DepthRead
    else Ok DepthNone.
  (** from_netCDF, 222-292, with the grid given and the variable named. *)
  Definition load_variable (g : grid_api) (f : lfile) (count : nat) (a : largs) : result variable :=
    match dget (lf_vars f) (la_varname a) with
    | None => Err KeyError
    | Some v =>
        let name := match la_name a with Some n => n | None => default_name count end in
        let units := match la_units a with Some u => Some u | None => dget (lv_attrs v) "units" end in
        do t <- load_time f v a;
        do d <- load_depth g v (snd t) a;
        let loc := match la_loc a with Some l => Some l | None => dget (lv_attrs v) "location" end in
        do l <- construct g (dget (lv_attrs v) "location") (lv_shape v) loc (fst t);
        Ok (mkVar name units (fst t) d l (la_varname a) (lv_attrs v) (lv_shape v))
    end.

  (** ** Dataset *)
  (** gridded.py:156 *)
  Definition is_grid_name (g : grid_api) (k : string) : bool :=
    existsb (fun kv => isin k (split (snd kv))) (ga_topology g).
  (** 161-167: an own location that is not valid is as good as none. *)
  Definition find_location (g : grid_api) (v : lvar) : result (option string) :=
    match dget (lv_attrs v) "location" with
    | Some l => if isin l valid_locations then Ok (Some l) else ga_infer g (Some l) (lv_shape v)
    | None => ga_infer g None (lv_shape v)
    end.
  Definition plain_args (k : string) (v : lvar) (l : string) : largs :=
    mkLargs k (Some (match dget (lv_attrs v) "long_name" with Some n => n | None => k end)) None None TzNone None None false (Some l).
  Fixpoint load_each (g : grid_api) (f : lfile) (vs : dict lvar) : result (dict variable) :=
    match vs with
    | [] => Ok []
    | (k, v) :: r =>
        if is_grid_name g k then load_each g f r
        else
          do l <- find_location g v;
          match l with
          | None => load_each g f r
          | Some l =>
              do x <- load_variable g f 0 (plain_args k v l);
              do xs <- load_each g f r;
              Ok ((k, x) :: xs)
          end
    end.
  Definition load_variables (g : grid_api) (f : lfile) : result (dict variable) := load_each g f (lf_vars f).
End Loading.

(** gridded.py:225-242: of the variables, those with the value. *)
Definition by_attribute (vs : dict variable) (attr value : string) : list variable :=
  filter (fun v => match dget (va_attrs v) attr with Some x => String.eqb x value | None => false end) (map snd vs).

(** A program that loads variables one after another: the names, with the
    class counter (variable.py:237-239). *)
Fixpoint given_names (count : nat) (l : list (option string)) : list string :=
  match l with
  | [] => []
  | Some n :: r => n :: given_names count r
  | None :: r => default_name count :: given_names (S count) r
  end.
