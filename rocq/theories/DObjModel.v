(** Model of depth objects as Python objects: the constructors of the classes of
    gridded/depth.py (21-38, 147-155, 327-394), the read-only properties, the
    lengths and the two helper searches.  Keyword calls only; names with two
    leading underscores are not modelled. *)
From Coq Require Import String.
From Verif Require Import Common DepthModel GridTypeModel.
Open Scope string_scope.
Open Scope list_scope.
Open Scope nat_scope.

Inductive dclass := CBase | CLevel | CSigma | CRoms | CFvcom.
Inductive val := VNone | VInt (z : Z) | VStr (s : string) | VObj (n : nat) | VNums (l : list Q) | VRows (l : list (list Q)) | VDict (d : list (string * val)).
Definition dobj := dict val.
Definition arg (kw : dict val) (k : string) (default : val) : val := match dget kw k with Some v => v | None => default end.
(** What is left for ** kwargs. *)
Definition drop (ks : list string) (kw : dict val) : dict val := filter (fun p => negb (isin (fst p) ks)) kw.

(** 21-38; the parameter of line 27 is spelled "conditon".  Any other keyword is
    accepted and dropped. *)
Definition base_new (kw : dict val) : dobj :=
  [("name", arg kw "name" VNone);
   ("_surface_index", arg kw "surface_index" (VInt (-1)));
   ("_bottom_index", arg kw "bottom_index" (VInt 0));
   ("default_surface_boundary_condition", arg kw "default_surface_boundary_condition" (VStr "extrapolate"));
   ("default_bottom_boundary_condition", arg kw "default_bottom_boundary_conditon" (VStr "mask"))].

(** Properties without a setter. *)
Definition fixed (c : dclass) : list string :=
  ["surface_index"; "bottom_index"] ++ match c with CBase => [] | _ => ["num_levels"; "num_layers"] end.
Definition set_attr (c : dclass) (o : dobj) (k : string) (v : val) : result dobj :=
  if isin k (fixed c) then Err AttributeError else Ok (dset o k v).
(** [for k, v in terms.items(): setattr(self, k, v)] *)
Fixpoint set_terms (c : dclass) (o : dobj) (d : dict val) : result dobj :=
  match d with
  | [] => Ok o
  | (k, v) :: r => do o <- set_attr c o k v; set_terms c o r
  end.
(** 149-155 and 377-384. *)
Definition take_terms (c : dclass) (o : dobj) (terms : val) : result dobj :=
  match terms with
  | VNone => Err ValueError
  | VDict d => set_terms c (dset o "terms" terms) d
  | _ => Err AttributeError
  end.
Definition level_new (kw : dict val) : result dobj :=
  take_terms CLevel (dset (base_new (drop ["terms"] kw)) "terms" (VDict [])) (arg kw "terms" VNone).
Definition sigma_args : list string :=
  ["name"; "time"; "grid"; "bathymetry"; "zeta"; "terms"; "vtransform"; "surface_boundary_condition"; "bottom_boundary_condition"].
Definition sigma_new (c : dclass) (kw : dict val) : result dobj :=
  let o := base_new (drop sigma_args kw) in
  let o := dset o "name" (arg kw "name" VNone) in
  let o := dset o "time" (arg kw "time" VNone) in
  let o := dset o "grid" (arg kw "grid" VNone) in
  let o := dset o "bathymetry" (arg kw "bathymetry" VNone) in
  let o := dset o "zeta" (arg kw "zeta" VNone) in
  let o := dset o "terms" (VDict []) in
  let o := dset o "vtransform" (arg kw "vtransform" (VInt 2)) in
  do o <- take_terms c o (arg kw "terms" VNone);
  let o := dset o "default_surface_boundary_condition" (arg kw "surface_boundary_condition" (VStr "extrapolate")) in
  Ok (dset o "default_bottom_boundary_condition" (arg kw "bottom_boundary_condition" (VStr "mask"))).
Definition depth_new (c : dclass) (kw : dict val) : result dobj :=
  match c with
  | CBase => Ok (base_new kw)
  | CLevel => level_new kw
  | _ => sigma_new c kw
  end.

(** An attribute that numpy can read as a vector, as a table. *)
Definition nums (o : dobj) (k : string) : result (list Q) :=
  match dget o k with Some (VNums l) => Ok l | Some _ => Err TypeError | None => Err AttributeError end.
Definition rows (o : dobj) (k : string) : result (list (list Q)) :=
  match dget o k with Some (VRows l) => Ok l | Some _ => Err TypeError | None => Err AttributeError end.
Definition as_index (r : result nat) : result val := do k <- r; Ok (VInt (Z.of_nat k)).
Definition first_column (l : list (list Q)) : result (list Q) := mapM (fun r => py_get r 0) l.
(** 55-65, 191-205, 572-586, 858-872, 913-927. *)
Definition surface_index (c : dclass) (o : dobj) : result val :=
  match c with
  | CBase => match dget o "_surface_index" with Some v => Ok v | None => Err AttributeError end
  | CLevel => do l <- nums o "depth_levels"; as_index (argmin l)
  | CSigma => Err NotImplementedError
  | CRoms => do l <- nums o "s_w"; as_index (argmax l)
  | CFvcom => do t <- rows o "siglev"; do l <- first_column t; as_index (argmax l)
  end.
Definition bottom_index (c : dclass) (o : dobj) : result val :=
  match c with
  | CBase => match dget o "_bottom_index" with Some v => Ok v | None => Err AttributeError end
  | CLevel => do l <- nums o "depth_levels"; as_index (argmax l)
  | CSigma => Err NotImplementedError
  | CRoms => do l <- nums o "s_w"; as_index (argmin l)
  | CFvcom => do t <- rows o "siglev"; do l <- first_column t; as_index (argmin l)
  end.
Definition num_levels (c : dclass) (o : dobj) : result Z :=
  match c with
  | CBase => Err AttributeError
  | CLevel => do l <- nums o "depth_levels"; Ok (Z.of_nat (length l))
  | CSigma => Err NotImplementedError
  | CRoms => do l <- nums o "s_w"; Ok (Z.of_nat (length l))
  | CFvcom => do t <- rows o "siglev"; Ok (Z.of_nat (length t))
  end.
Definition num_layers (c : dclass) (o : dobj) : result Z :=
  match c with
  | CBase => Err AttributeError
  | CLevel => do n <- num_levels CLevel o; Ok (n - 1)%Z
  | CSigma => Err NotImplementedError
  | CRoms => do l <- nums o "s_rho"; Ok (Z.of_nat (length l))
  | CFvcom => do t <- rows o "siglay"; Ok (Z.of_nat (length t))
  end.
(** 609-610; the other two classes have no [__len__]. *)
Definition depth_len (c : dclass) (o : dobj) : result Z :=
  match c with CBase | CLevel => Err TypeError | _ => num_levels c o end.

(** 222-230: the condition of one question. *)
Definition condition (o : dobj) (k : string) (asked : val) : result val :=
  match asked with
  | VNone => match dget o k with Some v => Ok v | None => Err AttributeError end
  | v => Ok v
  end.
Definition bc_of (v : val) : bcond :=
  match v with
  | VStr s => if String.eqb s "mask" then BMask else if String.eqb s "extrapolate" then BExtrapolate else BOther
  | _ => BOther
  end.
(** 208-298 on such an object. *)
Definition level_alphas (o : dobj) (data_len : option nat) (s b : val) (depths : list Q) : result (list drow) :=
  do s <- condition o "default_surface_boundary_condition" s;
  do b <- condition o "default_bottom_boundary_condition" b;
  do l <- nums o "depth_levels";
  l_alphas l data_len (bc_of s) (bc_of b) depths.

(** 112-139.  A variable of the file: its name, and whether it has a standard
    name or a long name.  [default_names] and [cf_names] are dicts, whose keys
    are searched; the base and the sigma class have none. *)
Record dvar := mkDVar { dv_name : string; dv_labelled : bool }.
Definition name_keys (c : dclass) : result (list string) :=
  match c with
  | CBase | CSigma => Err AttributeError
  | CLevel => Ok ["depth_levels"]
  | CRoms => Ok ["Cs_r"; "Cs_w"; "s_rho"; "s_w"; "hc"; "bathymetry"; "zeta"]
  | CFvcom => Ok ["siglay"; "siglev"; "bathymetry"; "zeta"]
  end.
Definition gen_varname (c : dclass) (f : list dvar) (names std : option (list string)) : result string :=
  do names <- match names with Some l => Ok l | None => name_keys c end;
  do std <- match std with Some l => Ok l | None => name_keys c end;
  match find (fun n => isin n (map dv_name f)) names with
  | Some n => Ok n
  | None =>
      match find (fun n => existsb (fun v => dv_labelled v && String.eqb (dv_name v) n) f) std with
      | Some n => Ok n
      | None => Err KeyError
      end
  end.
(** 92-110 and 300-309, which passes [topology] where [depth_topology] is declared. *)
Definition find_required (c : dclass) : result (dict val * dict val) :=
  match c with CLevel => Err TypeError | _ => Ok ([], []) end.
