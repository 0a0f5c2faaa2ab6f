(** Model of loading a vector variable from a file: gridded/variable.py:840-884
    [VectorVariable.__init__], 886-1029 [VectorVariable.from_netCDF], with the
    grid given.  Names have no slashes; the default names and standard names are
    those of the class, per component of its [comp_order]. *)
From Coq Require Import String.
From Verif Require Import Common TimeModel GridTypeModel VariableModel TFileModel LoadModel.
Open Scope string_scope.
Open Scope list_scope.
Open Scope nat_scope.

Inductive vunits := NoUnits | OneUnit (u : string) | Units (l : list (option string)).
Record vargs := mkVargs {
  vg_names : option (list (option string)); vg_name : option string; vg_units : option string;
  vg_time : option time_obj; vg_tz : tz_arg; vg_origin : option Z; vg_disp : option Z;
  vg_depth : bool; vg_vars : option (list variable) }.
Record vector := mkVec { ve_name : string; ve_units : vunits; ve_time : ltime; ve_depth : ldepth; ve_comps : list variable }.

(** The file as [_gen_varnames] sees it. *)
Definition nc_vars (f : lfile) : list nc_var :=
  map (fun kv => mkNC (fst kv) (dget (lv_attrs (snd kv)) "standard_name") (dget (lv_attrs (snd kv)) "long_name")) (lf_vars f).
Definition gen_varnames (f : lfile) (comps : list (list string * list string)) : list (option string) :=
  map (fun c => gen_varnames_comp (nc_vars f) (fst c) (snd c)) comps.
Definition is_none {A} (o : option A) : bool := match o with None => true | Some _ => false end.
Definition no_depth (d : ldepth) : bool := match d with DepthNone => true | _ => false end.
Definition opt_eqb (a b : option string) : bool :=
  match a, b with Some x, Some y => String.eqb x y | None, None => true | _, _ => false end.

Section Loading.
  Context (dateutil : string -> dparse) (cftime : string -> option (Z * Z * Z)) (read_depth : result unit).
  (** [Time()]: one instant, the present. *)
  Context (now : time_obj).
  Definition time_value (t : ltime) : time_obj :=
    match t with TimeGiven t | TimeRead t _ => t | TimeNow => now end.

  (** 961-967 *)
  Definition names_of (f : lfile) (comps : list (list string * list string)) (a : vargs) : result (list (option string)) :=
    match vg_names a with
    | Some l => Ok l
    | None => let l := gen_varnames f comps in if forallb is_none l then Err ValueError else Ok l
    end.
  (** 971: [ds[varnames[0]]], a path: TypeError for None, IndexError if there is
      no such variable. *)
  Definition first_var (f : lfile) (names : list (option string)) : result lvar :=
    match names with
    | [] => Err IndexError
    | None :: _ => Err TypeError
    | Some n :: _ => match dget (lf_vars f) n with Some v => Ok v | None => Err IndexError end
    end.
  Definition first_args (a : vargs) : largs :=
    mkLargs "" None None (vg_time a) (vg_tz a) (vg_origin a) (vg_disp a) (vg_depth a) None.
  Definition comp_args (n : string) (t : time_obj) (d : bool) (a : vargs) : largs :=
    mkLargs n None (vg_units a) (Some t) TzNone None None d None.
  (** 1001-1022; [c] is the counter of the Variable class. *)
  Fixpoint load_comps (g : grid_api) (f : lfile) (t : time_obj) (d : bool) (a : vargs) (c : nat) (names : list (option string))
    : result (list variable) :=
    match names with
    | [] => Ok []
    | None :: r => load_comps g f t d a c r
    | Some n :: r =>
        do x <- load_variable dateutil cftime read_depth g f c (comp_args n t d a);
        do xs <- load_comps g f t d a (S c) r;
        Ok (x :: xs)
    end.
  (** 1023-1026 *)
  Definition units_of (given : option string) (vars : list variable) : result vunits :=
    match given with
    | Some u => Ok (OneUnit u)
    | None =>
        match vars with
        | [] => Err IndexError
        | x :: _ =>
            if forallb (fun y => opt_eqb (va_units y) (va_units x)) vars
            then Ok (match va_units x with Some u => OneUnit u | None => NoUnits end)
            else Ok (Units (map va_units vars))
        end
    end.
  Definition vector_name (cls : string) (count : nat) : string := append cls (append "_" (IsoModel.dec (N.of_nat count))).
  Definition load_vector (g : grid_api) (f : lfile) (cls : string) (comps : list (list string * list string))
    (count c : nat) (a : vargs) : result vector :=
    do names <- names_of f comps a;
    let name := match vg_name a with Some n => n | None => vector_name cls count end in
    do v <- first_var f names;
    do t <- load_time dateutil cftime f v (first_args a);
    do d <- load_depth read_depth g v (snd t) (first_args a);
    do vars <- match vg_vars a with
               | Some l => Ok l
               | None => load_comps g f (time_value (fst t)) (negb (no_depth d)) a c names
               end;
    do u <- units_of (vg_units a) vars;
    match vars with
    | x :: _ =>
        if length vars <? 2 then Err ValueError
        else if length vars <? length comps then Err IndexError
        else Ok (mkVec name u (fst t) (if no_depth d then va_depth x else d) vars)
    | [] => Err ValueError
    end.
End Loading.
