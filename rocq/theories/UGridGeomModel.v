(** Model of the geometric half of gridded/pyugrid: pyugrid/util.py
    (point_in_tri) and, in pyugrid/ugrid.py, locate_faces, the memo tables,
    interpolation_alphas, interpolate_var_to_points and the derived
    coordinates.  Coordinates and values are exact rationals: no rounding. *)
From Coq Require Import Qabs.
From Verif Require Import Common TimeModel VariableModel DepthModel UGridModel.
Open Scope Z_scope.

Notation pt := (Q * Q)%type.

(** ** pyugrid/util.py *)
(** util.py:8.  (The nearest double to 1e-5 is taken to be 1e-5.) *)
Definition epsilon : Q := 1 # 100000.
(** util.py:44-55. *)
Definition signed_area (p1 p2 p3 : pt) : Q :=
  (((fst p1 - fst p3) * (snd p2 - snd p3) - (fst p2 - fst p3) * (snd p1 - snd p3)) / 2)%Q.
(** util.py:11-41.  With a zero area the numpy quotient is inf or nan and the
    comparison is False. *)
Definition point_in_tri (p0 p1 p2 p : pt) : bool :=
  let A := signed_area p0 p1 p2 in
  let s := (Qabs (signed_area p0 p1 p) + Qabs (signed_area p1 p2 p) + Qabs (signed_area p0 p2 p))%Q in
  if Qeq_bool A 0 then false
  else Qle_bool (Qabs (s - A) / A) epsilon.

(** ** Indexing *)
(** [nodes[face]]: negative indices count from the end. *)
Definition face_points (nodes : list pt) (face : list Z) : result (list pt) :=
  mapM (py_get nodes) face.
(** [point_in_tri(nodes[face], point)]: rows 0, 1 and 2 are used. *)
Definition in_face (nodes : list pt) (face : list Z) (p : pt) : result bool :=
  do f <- face_points nodes face;
  match f with
  | p0 :: p1 :: p2 :: _ => Ok (point_in_tri p0 p1 p2 p)
  | _ => Err IndexError
  end.

(** ugrid.py:630-641 (method 'simple'): the running entry starts at 0 and is
    set to -1 after every face that does not contain the point. *)
Fixpoint find_face (nodes : list pt) (i : nat) (faces : list (list Z)) (p : pt) (cur : Z) : result Z :=
  match faces with
  | [] => Ok cur
  | f :: r =>
      do b <- in_face nodes f p;
      if (b : bool) then Ok (Z.of_nat i) else find_face nodes (S i) r p (-1)
  end.
Definition locate_simple (nodes : list pt) (faces : list (list Z)) (pts : list pt) : result (list Z) :=
  mapM (fun p => find_face nodes 0 faces p 0) pts.

(** ** Values *)
(** Product and numpy sum (a masked sum skips masked entries; all masked
    gives masked).  [CNaN] stands for every non-finite number. *)
Definition cell_mul (a b : cell) : cell :=
  match a, b with
  | CMasked, _ | _, CMasked => CMasked
  | CVal x, CVal y => CVal (x * y)
  | _, _ => CNaN
  end.
Definition cell_add (a b : cell) : cell :=
  match a, b with
  | CMasked, c | c, CMasked => c
  | CVal x, CVal y => CVal (x + y)
  | _, _ => CNaN
  end.
Definition cell_sum (l : list cell) : cell := fold_left cell_add l CMasked.

(** ** interpolation_alphas, ugrid.py:668-711, for one point of a triangle. *)
Definition qdiv (x y : Q) : cell := if Qeq_bool y 0 then CNaN else CVal (x / y).
Definition alphas_of (n1 n2 n3 p : pt) : list cell :=
  let (lon1, lat1) := n1 in
  let (lon2, lat2) := n2 in
  let (lon3, lat3) := n3 in
  let (reflon, reflat) := p in
  let denom := ((lat3 - lat1) * (lon2 - lon1) - (lon3 - lon1) * (lat2 - lat1))%Q in
  let a1 := ((reflat - lat3) * (lon3 - lon2) - (reflon - lon3) * (lat3 - lat2))%Q in
  let a2 := ((reflon - lon1) * (lat3 - lat1) - (reflat - lat1) * (lon3 - lon1))%Q in
  let a3 := ((reflat - lat1) * (lon2 - lon1) - (reflon - lon1) * (lat2 - lat1))%Q in
  [qdiv a1 denom; qdiv a2 denom; qdiv a3 denom].
(** [(lon1, lon2, lon3) = ...T] needs exactly three vertices per face. *)
Definition alpha_row (nodes : list pt) (faces : list (list Z)) (p : pt) (ind : Z) : result (list cell) :=
  do face <- py_get faces ind;
  do f <- face_points nodes face;
  match f with
  | [n1; n2; n3] =>
      let a := alphas_of n1 n2 n3 p in
      Ok (if ind =? -1 then map (fun c => cell_mul c (CVal 0)) a else a)
  | _ => Err ValueError
  end.
Definition interpolation_alphas (nodes : list pt) (faces : list (list Z)) (pts : list pt) (inds : list Z)
  : result (list (list cell)) :=
  mapM (fun pi => alpha_row nodes faces (fst pi) (snd pi)) (combine pts inds).

(** ** interpolate_var_to_points, ugrid.py:713-798 *)
Inductive vloc := VNode | VFace | VOther.   (* 'node' / 'face' / anything else *)
Definition of_uloc (u : uloc) : vloc :=
  match u with LNode => VNode | LFace => VFace | LBoundary => VOther end.
(** ugrid.py:764-772.  [attr]: the variable's own location attribute, if it
    has that attribute; [settable]: whether the attribute can be assigned (not
    on a plain ndarray). *)
Definition resolve_location (attr : option (option vloc)) (arg : option vloc)
  (inferred : option uloc) (settable : bool) : result vloc :=
  let loc := match attr with Some l => l | None => arg end in
  match loc with
  | Some l => Ok l
  | None =>
      if settable then
        match inferred with Some u => Ok (of_uloc u) | None => Err ValueError end
      else Err AttributeError
  end.
(** ugrid.py:781-784. *)
Definition face_value (data : list cell) (ind : Z) : result cell :=
  do v <- py_get data ind;
  Ok (if ind =? -1 then cell_mul v (CVal 0) else v).
(** ugrid.py:788-794. *)
Definition node_value (faces : list (list Z)) (data : list cell) (al : list cell) (ind : Z) : result cell :=
  do face <- py_get faces ind;
  do vals <- mapM (py_get data) face;
  let vals := if ind =? -1 then map (fun v => cell_mul v (CVal 0)) vals else vals in
  Ok (cell_sum (map (fun va => cell_mul (fst va) (snd va)) (combine vals al))).
Definition interp_values (faces : list (list Z)) (loc : vloc) (data : list cell)
  (inds : list Z) (alphas : list (list cell)) : result (option (list cell)) :=
  match loc with
  | VFace => do vs <- mapM (face_value data) inds; Ok (Some vs)
  | VNode => do vs <- mapM (fun ai => node_value faces data (fst ai) (snd ai)) (combine alphas inds);
             Ok (Some vs)
  | VOther => Ok None
  end.

(** ** Derived coordinates, ugrid.py:932-979 *)
Definition qsum (l : list Q) : Q := fold_left Qplus l 0%Q.
Definition mean_pt (l : list pt) : pt :=
  (qsum (map fst l) / inject_Z (Z.of_nat (length l)), qsum (map snd l) / inject_Z (Z.of_nat (length l)))%Q.
(** [self.nodes[idx].mean(axis=1)]; indexing with None adds an axis, so a
    missing index array gives one row: the mean of all nodes. *)
Definition derived_coords (nodes : list pt) (idx : option (list (list Z))) : result (list pt) :=
  match idx with
  | Some rows => mapM (fun r => do f <- face_points nodes r; Ok (mean_pt f)) rows
  | None => Ok [mean_pt nodes]
  end.
Definition build_face_coordinates := derived_coords.
Definition edge_rows (e : list edge) : list (list Z) := map (fun x => [fst x; snd x]) e.
Definition build_edge_coordinates (nodes : list pt) (e : option (list edge)) : result (list pt) :=
  derived_coords nodes (option_map edge_rows e).

(** ** Location with its memo tables *)
(** ugrid.py:560-577: [D[h] = item; if len(D.keys()) > 6: D.popitem(last=False)].
    sgrid.py:518-533 pops before storing: [memo_store] with cap 6. *)
Section GridMemo.
  Context {K V : Type}.
  Context (keqb : K -> K -> bool).
  Definition ug_store (cap : nat) (d : list (K * V)) (k : K) (v : V) : list (K * V) :=
    let d' := memo_put keqb d k v in
    if Nat.ltb cap (length d') then tl d' else d'.
  Definition ug_memo_run (cap : nat) (h : list (K * V)) : list (K * V) :=
    fold_left (fun d kv => ug_store cap d (fst kv) (snd kv)) h [].
End GridMemo.
Definition ugrid_cap := 6%nat.
Definition sgrid_cap := 6%nat.

Definition pt_eqb (a b : pt) : bool := Qpair_eqb (fst a) (fst b) && Qpair_eqb (snd a) (snd b).
Fixpoint pts_eqb (a b : list pt) : bool :=
  match a, b with
  | [], [] => true
  | x :: a', y :: b' => pt_eqb x y && pts_eqb a' b'
  | _, _ => false
  end.

Inductive meth := Celltree | Simple | OtherMethod.
Inductive lout := Scalar (i : Z) | Arr (l : list Z).
Definition lout_vals (o : lout) : list Z := match o with Scalar i => [i] | Arr l => l end.

Record ug := mkUG {
  ug_nodes : list pt; ug_faces : option (list (list Z));
  ug_tree : option (list pt * list (list Z));      (* what the CellTree was built from *)
  ug_ind : list (list pt * list Z);                (* _ind_memo_dict *)
  ug_alpha : list (list pt * list (list cell)) }.  (* _alpha_memo_dict *)
Definition ug_new (nodes : list pt) (faces : option (list (list Z))) : ug :=
  mkUG nodes faces None [] [].

Section Locate.
  (** [tree nodes faces pts]: what a cell_tree2d.CellTree built from that mesh
      answers.  An external library; nothing is assumed about it here. *)
  Context (tree : list pt -> list (list Z) -> list pt -> list Z).

  (** The search proper, ugrid.py:617-643. *)
  Definition search (s : ug) (m : meth) (pts : list pt) : result (ug * list Z) :=
    match m with
    | Celltree =>
        match ug_tree s with
        | Some (n, f) => Ok (s, tree n f pts)
        | None =>
            match ug_faces s with
            | None => Err ValueError
            | Some f => Ok (mkUG (ug_nodes s) (ug_faces s) (Some (ug_nodes s, f)) (ug_ind s) (ug_alpha s),
                            tree (ug_nodes s) f pts)
            end
        end
    | Simple =>
        match ug_faces s with
        | None => match pts with [] => Ok (s, []) | _ => Err TypeError end   (* enumerate(None) *)
        | Some f => do l <- locate_simple (ug_nodes s) f pts; Ok (s, l)
        end
    | OtherMethod => Err ValueError
    end.
  (** ugrid.py:587-652.  [one]: a single point was passed (then [pts] has one
      element).  The new state is returned beside the answer or exception. *)
  Definition locate (s : ug) (m : meth) (memo : bool) (pts : list pt) (one : bool)
    : ug * result lout :=
    match (if memo then memo_get pts_eqb (ug_ind s) pts else None) with
    | Some l => (s, Ok (Arr l))
    | None =>
        match search s m pts with
        | Err e => (s, Err e)
        | Ok (s1, l) =>
            (if memo then mkUG (ug_nodes s1) (ug_faces s1) (ug_tree s1)
                               (ug_store pts_eqb ugrid_cap (ug_ind s1) pts l) (ug_alpha s1)
             else s1,
             if one then match l with i :: _ => Ok (Scalar i) | [] => Err IndexError end
             else Ok (Arr l))
        end
    end.
  (** ugrid.py:684-711 when the indices are given. *)
  Definition alphas_memo (s : ug) (memo : bool) (pts : list pt) (inds : list Z)
    : ug * result (list (list cell)) :=
    match (if memo then memo_get pts_eqb (ug_alpha s) pts else None) with
    | Some a => (s, Ok a)
    | None =>
        match ug_faces s with
        | None => (s, Err TypeError)                             (* None[indices] *)
        | Some f =>
            match interpolation_alphas (ug_nodes s) f pts inds with
            | Err e => (s, Err e)
            | Ok a => (if memo then mkUG (ug_nodes s) (ug_faces s) (ug_tree s) (ug_ind s)
                                         (ug_store pts_eqb ugrid_cap (ug_alpha s) pts a)
                       else s, Ok a)
            end
        end
    end.
  (** ugrid.py:762-798, location already resolved.  Line 784 passes
      [_copy, _memo] where locate_faces declares [_memo, _copy]: the location
      table is used only when a copy is requested. *)
  Definition interpolate (s : ug) (loc : vloc) (data : list cell) (copy memo : bool) (pts : list pt)
    : ug * result (option (list cell)) :=
    match locate s Celltree copy pts false with
    | (s1, Err e) => (s1, Err e)
    | (s1, Ok o) =>
        let inds := lout_vals o in
        match loc with
        | VNode =>
            match alphas_memo s1 memo pts inds with
            | (s2, Err e) => (s2, Err e)
            | (s2, Ok a) =>
                match ug_faces s2 with
                | None => (s2, Err TypeError)
                | Some f => (s2, interp_values f VNode data inds a)
                end
            end
        | _ => (s1, interp_values [] loc data inds [])
        end
    end.

  Inductive ug_op :=
  | OLocate (m : meth) (memo : bool) (pts : list pt) (one : bool)
  | OInterp (loc : vloc) (data : list cell) (copy memo : bool) (pts : list pt)
  | OSetNodes (n : list pt)
  | OSetFaces (f : list (list Z)).
  (** The setters touch neither the tree nor the tables. *)
  Definition ug_step (s : ug) (o : ug_op) : ug :=
    match o with
    | OLocate m memo pts one => fst (locate s m memo pts one)
    | OInterp loc data copy memo pts => fst (interpolate s loc data copy memo pts)
    | OSetNodes n => mkUG n (ug_faces s) (ug_tree s) (ug_ind s) (ug_alpha s)
    | OSetFaces f =>
        match set_faces (length (ug_nodes s)) f with
        | Ok f' => mkUG (ug_nodes s) (Some f') (ug_tree s) (ug_ind s) (ug_alpha s)
        | Err _ => s
        end
    end.
  Definition ug_run (s : ug) (ops : list ug_op) : ug := fold_left ug_step ops s.
End Locate.
