(** Model of carrying a variable over to another grid: gridded/utilities.py:83-167
    [regrid_variable] and 170-191 [_regrid_s_depth].  Interpolation itself is
    the source variable's own [at]: here a function of the points and the time,
    as is the depth profile of the source's depth object and the reading of one
    level of it.  Numbers are exact; a Time has at least one instant and a sigma
    depth at least one level. *)
From Coq Require Import String.
From Verif Require Import Common.
Open Scope string_scope.
Open Scope list_scope.
Open Scope nat_scope.

Definition pt2 := (Q * Q)%type.
Definition pt3 := (Q * Q * Q)%type.
(** A number of a masked array and whether it is masked. *)
Definition cell := (Q * bool)%type.

(** A two-dimensional coordinate array: rows, columns, row-major points. *)
Record points2 := mkP { p_r : nat; p_c : nat; p_pts : list pt2 }.
(** Grids: staggered (nodes, centers if any), unstructured (nodes, the face
    coordinates it would build, whether it has some already) and rectangular
    (nodes). *)
Inductive dgrid :=
| DS (nodes : points2) (centers : option points2)
| DU (nodes faces : list pt2) (has_face_coordinates : bool)
| DR (nodes : list pt2).
(** Source grids: staggered, with what the cell search answers (row and column
    indices, -1 outside), unstructured, rectangular. *)
Inductive sgrid :=
| SS (locate : list pt2 -> list Z)
| SU
| SR.

(** Variables and depth objects. *)
Inductive ovar :=
| OVar (name : string) (grid : sgrid) (time : option (Z * list Z))
    (at_ : list pt3 -> option Z -> result (list cell)) (depth : odepth)
with odepth :=
| ONone                                     (* no depth *)
| OLevels                                   (* DepthBase, L_Depth *)
| OOther                                    (* anything else *)
| OSigma (roms : bool)                      (* has Cs_w, Cs_r, s_w, s_rho, hc *)
    (bathymetry : ovar) (zeta : option ovar)
    (more : nat)                            (* len(depth) = 1 + more *)
    (vtransform : nat)
    (* get_depth_profile(nodes, t).T: level -> its depths at the source nodes *)
    (profile : Z -> result (nat -> list cell))
    (* a Variable holding one level, at the points *)
    (level_at : list cell -> list pt3 -> result (list cell)).
Definition o_name (v : ovar) := let 'OVar n _ _ _ _ := v in n.
Definition o_grid (v : ovar) := let 'OVar _ g _ _ _ := v in g.
Definition o_time (v : ovar) := let 'OVar _ _ t _ _ := v in t.
Definition o_at (v : ovar) := let 'OVar _ _ _ a _ := v in a.
Definition o_depth (v : ovar) := let 'OVar _ _ _ _ d := v in d.
Definition instants (t : Z * list Z) : list Z := fst t :: snd t.

(** The result: a plain array when it was written into [np.empty], what [at]
    answered otherwise. *)
Inductive ndata :=
| Plain (shape : list nat) (vals : list Q)
| Masked (shape : list nat) (cells : list cell).
Inductive nvar :=
| NVar (name : string) (time : option (Z * list Z)) (data : ndata) (depth : ndepth)
with ndepth :=
| NNone | NSame
| NSigma (bathymetry zeta : nvar) (levels vtransform : nat).

(** Lines 112-123. *)
Definition dest_points (g : dgrid) (loc : string) : result (list pt2) :=
  if String.eqb loc "node" then
    match g with
    | DS n _ => Ok (p_pts n)
    | DU nodes _ _ => Ok nodes
    | DR nodes => Ok nodes
    end
  else if String.eqb loc "face" || String.eqb loc "center" then
    match g with
    | DS _ (Some c) => Ok (p_pts c)
    | DS _ None => Ok [(0, 0)%Q]             (* np.stack((None, None)) *)
    | DU _ faces false => Ok faces           (* build_face_coordinates *)
    | DU _ _ true => Err AttributeError      (* no centers *)
    | DR _ => Err AttributeError             (* no face_coordinates *)
    end
  else Err AttributeError.                   (* None.reshape *)

(** [np.ma.masked_less(ind, 0)], and the truth of [np.all(x == -1)] over a
    masked array: over the unmasked entries, [masked] (false) if there is no
    other, true for an empty array. *)
Definition masked_less0 (l : list Z) : list (option Z) :=
  map (fun z => if (z <? 0)%Z then None else Some z) l.
Definition unmasked (l : list (option Z)) : list Z :=
  flat_map (fun o => match o with Some z => [z] | None => [] end) l.
Definition all_minus_one (l : list (option Z)) : bool :=
  match l with
  | [] => true
  | _ => match unmasked l with
         | [] => false
         | u => forallb (fun z => (z =? -1)%Z) u
         end
  end.
(** Lines 124-129: [o_var.grid.locate_faces(dest_points, "node")].  The second
    argument is the staggered grid's [_memo], the unstructured grid's [method];
    the rectangular grid takes none. *)
Definition overlap (g : sgrid) (pts : list pt2) : result unit :=
  match g with
  | SS locate => if all_minus_one (masked_less0 (locate pts)) then Err ValueError else Ok tt
  | SU => Err ValueError
  | SR => Err TypeError
  end.

(** Line 140: [grid._get_grid_vars(location)[0].shape]. *)
Definition xy_shape (g : dgrid) (loc : string) : result (nat * nat) :=
  match g with
  | DS n c =>
      if String.eqb loc "node" then Ok (p_r n, p_c n)
      else if String.eqb loc "center" then
        match c with Some c => Ok (p_r c, p_c c) | None => Err AttributeError end
      else Err ValueError
  | DU _ _ _ | DR _ => Err AttributeError
  end.
(** Line 141: [len(n_depth)]; only sigma depths have a length. *)
Definition depth_len (d : ndepth) : result (option nat) :=
  match d with
  | NNone => Ok None
  | NSame => Err TypeError
  | NSigma _ _ k _ => Ok (Some k)
  end.

Definition with_z (pts : list pt2) (zs : list Q) : list pt3 :=
  map (fun pz => (fst (fst pz), snd (fst pz), snd pz)) (combine pts zs).
Definition surface (pts : list pt2) : list pt3 := map (fun p => (fst p, snd p, 0%Q)) pts.
Definition xy (p : pt3) : pt2 := fst p.
(** [pts[:, 2] = zs[:, 0]]: the numbers, masked or not. *)
Definition set_z (pts : list pt3) (zs : list cell) : list pt3 := with_z (map xy pts) (map fst zs).
(** [reshape(location_shp)] *)
Definition reshape (r c : nat) (l : list cell) : result (list cell) :=
  if length l =? r * c then Ok l else Err ValueError.
(** Assigning an array of the nodes' shape to one place of [n_data]: the numbers
    alone.  (As many entries, and some, so no broadcasting but of equal shapes.) *)
Definition assign (shape loc_shape : nat * nat) (l : list cell) : result (list Q) :=
  if (fst shape =? fst loc_shape) && (snd shape =? snd loc_shape) then Ok (map fst l) else Err ValueError.

Section Body.
  Context (v : ovar) (shape loc : nat * nat).
  Definition put (pts : list pt3) (t : Z) : result (list Q) :=
    do l <- o_at v pts (Some t);
    do m <- reshape (fst loc) (snd loc) l;
    assign shape loc m.
  (** Lines 158-161: the levels from [i] on; the points keep the depths of the
      level before. *)
  Fixpoint levels (col : nat -> list cell) (level_at : list cell -> list pt3 -> result (list cell))
    (t : Z) (pts : list pt3) (i n : nat) : result (list pt3 * list Q) :=
    match n with
    | O => Ok (pts, [])
    | S n' =>
        do zs <- level_at (col i) pts;
        let pts' := set_z pts zs in
        do x <- put pts' t;
        do r <- levels col level_at t pts' (S i) n';
        Ok (fst r, x ++ snd r)
    end.
  Definition at_time (pts : list pt3) (t : Z) : result (list pt3 * list Q) :=
    match o_depth v with
    | OSigma _ _ _ more _ profile level_at =>
        do col <- profile t;
        levels col level_at t pts 0 (S more)
    | _ => do x <- put pts t; Ok (pts, x)
    end.
  Fixpoint times (pts : list pt3) (ts : list Z) : result (list Q) :=
    match ts with
    | [] => Ok []
    | t :: r =>
        do a <- at_time pts t;
        do b <- times (fst a) r;
        Ok (snd a ++ b)
    end.
End Body.

(** Line 147: [grid.node_lon.shape]. *)
Definition node_shape (g : dgrid) : nat * nat :=
  match g with DS n _ => (p_r n, p_c n) | _ => (0, 0) end.

Fixpoint regrid (g : dgrid) (loc : string) (v : ovar) {struct v} : result nvar :=
  let 'OVar name grid time at_ depth := v in
  do pts2 <- dest_points g loc;
  do _ <- overlap grid pts2;
  do nd <- regrid_depth g depth;
  do shape <- xy_shape g loc;
  do dl <- depth_len nd;
  let ls := node_shape g in
  do data <-
    match time with
    | Some ts =>
        do vals <- times v shape ls (surface pts2) (instants ts);
        Ok (Plain ([length (instants ts)] ++ match dl with Some k => [k] | None => [] end
                   ++ [fst shape; snd shape]) vals)
    | None =>
        do l <- at_ (surface pts2) None;
        do m <- reshape (fst ls) (snd ls) l;
        Ok (Masked [fst ls; snd ls] m)
    end;
  Ok (NVar (append "regridded " name) time data nd)
with regrid_depth (g : dgrid) (d : odepth) {struct d} : result ndepth :=
  match d with
  | ONone => Ok NNone
  | OLevels => Ok NSame
  | OOther => Err NotImplementedError
  | OSigma roms bathymetry zeta more _ _ _ =>
      do nb <- regrid g "node" bathymetry;
      do nz <- match zeta with
               | Some z => regrid g "node" z
               | None => Err AttributeError
               end;
      if roms then Ok (NSigma nb nz (S more) 2) else Err AttributeError
  end.

Definition n_shape (d : ndata) : list nat := match d with Plain s _ => s | Masked s _ => s end.
Definition n_values (d : ndata) : list Q := match d with Plain _ l => l | Masked _ l => map fst l end.
Definition n_masked (d : ndata) : list bool :=
  match d with Plain _ l => map (fun _ => false) l | Masked _ l => map snd l end.
Definition n_name (v : nvar) := let 'NVar n _ _ _ := v in n.
Definition n_time (v : nvar) := let 'NVar _ t _ _ := v in t.
Definition n_data (v : nvar) := let 'NVar _ _ d _ := v in d.
Definition n_depth (v : nvar) := let 'NVar _ _ _ d := v in d.
(** The new variable's location is inferred from the shape of its data
    (variable.py:386-387): the grid's infer_location, sgrid.py:389-412, without
    its edges. *)
Definition n_location (g : dgrid) (v : nvar) : option string :=
  match g with
  | DS n c =>
      match rev (n_shape (n_data v)) with
      | b :: a :: _ =>
          let d := (Z.of_nat a - Z.of_nat (p_r n), Z.of_nat b - Z.of_nat (p_c n))%Z in
          if ((fst d =? 1) && (snd d =? 1) || (fst d =? -1) && (snd d =? -1))%Z
             && match c with Some _ => true | None => false end then Some "center"
          else if ((fst d =? 0) && (snd d =? 0))%Z then Some "node"
          else None
      | _ => None
      end
  | _ => None
  end.
