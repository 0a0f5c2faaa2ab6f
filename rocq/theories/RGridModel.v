(** Model of the rectangular grid, gridded/grids.py class Grid_R.
    Coordinates are exact rationals in place of binary64; points are (lon, lat)
    pairs, a NaN coordinate is [None] in [locate_faces]. *)
From Coq Require Import String.
From Verif Require Import Common VariableModel DepthModel UGridGeomModel.
Open Scope Q_scope.

(** grids.py:243-270, the attributes read by the methods below.
    [rg_dims] is [self.dimensions]: the names of the lat and the lon dimension,
    from the topology or "lat", "lon" (263-266). *)
Record rgrid := mkRGrid { rg_lon : list Q; rg_lat : list Q; rg_dims : string * string }.
Definition rg_new (lon lat : list Q) (topology : option (string * string)) : rgrid :=
  mkRGrid lon lat (match topology with Some d => d | None => ("lat", "lon")%string end).

(** grids.py:292-306.  np.meshgrid: row per latitude, column per longitude. *)
Definition meshgrid (lon lat : list Q) : list (list (Q * Q)) :=
  map (fun y => map (fun x => (x, y)) lon) lat.
Fixpoint midpoints (l : list Q) : list Q :=
  match l with
  | x :: ((y :: _) as r) => (x + y) / 2 :: midpoints r
  | _ => []
  end.
Definition rg_nodes (g : rgrid) := meshgrid (rg_lon g) (rg_lat g).
Definition center_lon (g : rgrid) := midpoints (rg_lon g).
Definition center_lat (g : rgrid) := midpoints (rg_lat g).
Definition rg_centers (g : rgrid) := meshgrid (center_lon g) (center_lat g).

(** grids.py:308-347.  searchsorted puts NaN behind every number. *)
Definition digitize_or_nan (x : option Q) (bins : list Q) : result nat :=
  match x with
  | Some q => digitize q bins false
  | None => if nondecreasingb bins then Ok (length bins)
            else if nonincreasingb bins then Ok (length bins - length bins)%nat
            else Err ValueError
  end.
Definition axis_index (axis : list Q) (x : option Q) : result Z :=
  do k <- digitize_or_nan x axis;
  let n := (Z.of_nat k - 1)%Z in
  Ok (if (n =? Z.of_nat (length axis) - 1)%Z then -1 else n)%Z.
Definition locate_one (g : rgrid) (p : option Q * option Q) : result (Z * Z) :=
  do i <- axis_index (rg_lon g) (fst p);
  do j <- axis_index (rg_lat g) (snd p);
  let i := (if (j =? -1) then -1 else i)%Z in
  let j := (if (i =? -1) then -1 else j)%Z in
  Ok (i, j).
Definition rg_locate (g : rgrid) (pts : list (option Q * option Q)) : result (list (Z * Z)) :=
  do _ <- axis_index (rg_lon g) None;   (* np.digitize checks its bins first *)
  do _ <- axis_index (rg_lat g) None;
  mapM (locate_one g) pts.

(** Python's [l[-2:]]. *)
Definition last2 {A} (l : list A) : list A := skipn (length l - 2) l.

(** grids.py:349-388.  [dims]: the variable's dimension names if it has the
    attribute.  The answer is the (y, x) axes and whether they are swapped;
    the indexing of short shapes raises IndexError. *)
Definition memb (s : string) (d : string * string) : bool := String.eqb s (fst d) || String.eqb s (snd d).
Definition lonlat_to_yx (g : rgrid) (dims : option (list string)) (shape : list nat) : result bool :=
  let var_shape := last2 shape in
  let grid_shape := [length (rg_lat g); length (rg_lon g)] in
  let ok_len := forallb (fun d => existsb (Nat.eqb d) grid_shape) var_shape in
  match dims with
  | Some ds =>
      if negb (forallb (fun k => memb k (rg_dims g)) (last2 ds)) then Err ValueError
      else if negb ok_len then Err ValueError
      else do d0 <- py_get (last2 ds) 0;
           Ok (String.eqb d0 (snd (rg_dims g)))
  | None =>
      if negb ok_len then Err ValueError
      else do s0 <- py_get var_shape 0;
           do s1 <- py_get var_shape 1;
           if (s0 =? s1)%nat then Err ValueError
           else Ok (s0 =? length (rg_lon g))%nat
  end.
Definition yx_axes (g : rgrid) (swapped : bool) : list Q * list Q :=
  if swapped then (rg_lon g, rg_lat g) else (rg_lat g, rg_lon g).

(** scipy.interpolate.RegularGridInterpolator, method='linear',
    bounds_error=False, fill_value=0, on two axes of at least two entries, as
    documented (it is not part of gridded): each axis must be strictly monotone
    and match the values' shape, else ValueError; a descending axis is flipped
    together with the values; the value is the bilinear combination of the four
    surrounding entries; outside on either axis, 0.  Shorter axes are not
    modelled (NotImplementedError). *)
Fixpoint strictb (lt : Q -> Q -> bool) (l : list Q) : bool :=
  match l with
  | x :: ((y :: _) as r) => lt x y && strictb lt r
  | _ => true
  end.
Definition rgi_ok (axis : list Q) : bool := strictb Qlt_bool axis || strictb (fun a b => Qlt_bool b a) axis.
(** The two surrounding entries of an ascending axis and their weights. *)
Definition bracket_asc (axis : list Q) (p : Q) : option ((nat * Q) * (nat * Q)) :=
  let n := length axis in
  let k := Nat.min (searchsortedQ true axis p - 1) (n - 2) in
  let x := nth k axis 0 in
  let y := nth (S k) axis 0 in
  let first := nth 0 axis 0 in
  let last := nth (n - 1) axis 0 in
  if Qle_bool first p && Qle_bool p last then
    let t := (p - x) / (y - x) in Some ((k, 1 - t), (S k, t))
  else None.
Definition bracket (axis : list Q) (p : Q) : option ((nat * Q) * (nat * Q)) :=
  if strictb Qlt_bool axis then bracket_asc axis p
  else let flip := fun e : nat * Q => ((length axis - 1 - fst e)%nat, snd e) in
       match bracket_asc (rev axis) p with
       | Some (a, b) => Some (flip a, flip b)
       | None => None
       end.
Definition vget (vals : list (list cell)) (i j : nat) : cell := nth j (nth i vals []) CNaN.
Definition rgi_make (y x : list Q) (vals : list (list cell)) : result unit :=
  if negb (rgi_ok y && rgi_ok x) then Err ValueError
  else if negb ((length vals =? length y)%nat && forallb (fun r => length r =? length x)%nat vals) then Err ValueError
  else if (length y <? 2)%nat || (length x <? 2)%nat then Err NotImplementedError
  else Ok tt.
Definition rgi_eval (y x : list Q) (vals : list (list cell)) (p : Q * Q) : cell :=
  match bracket y (fst p), bracket x (snd p) with
  | Some ((i, u), (i', u')), Some ((j, v), (j', v')) =>
      let term := fun a b w => cell_mul (vget vals a b) (CVal w) in
      cell_add (cell_add (term i j (u * v)) (term i j' (u * v')))
               (cell_add (term i' j (u' * v)) (term i' j' (u' * v')))
  | _, _ => CVal 0
  end.

(** grids.py:390-442.  [dims], [shape]: of the variable; [vals]: the 2-D data
    after [variable[slices]]; [sliced]: whether slices were given, and then
    masked entries are filled with 0 (408-411). *)
Definition fill0 (c : cell) : cell := match c with CMasked => CVal 0 | c => c end.
Definition rg_interpolate (g : rgrid) (dims : option (list string)) (shape : list nat) (sliced : bool)
  (vals : list (list cell)) (pts : list (Q * Q)) : result (list cell) :=
  do swapped <- lonlat_to_yx g dims shape;
  let vals := if sliced then map (map fill0) vals else vals in
  let (y, x) := yx_axes g swapped in
  do _ <- rgi_make y x vals;
  Ok (map (fun p => rgi_eval y x vals (if swapped then p else (snd p, fst p))) pts).

(** grids.py:444-468.  [attr]: the variable's own location attribute.  The
    subtraction broadcasts a single length against both; an empty shape does
    not broadcast.  Grid_R has no edge1_lon or edge2_lon attribute. *)
Definition rg_infer (g : rgrid) (attr : option (option string)) (shape : list nat) : result (option string) :=
  match attr with
  | Some l => Ok l
  | None =>
      let ny := Z.of_nat (length (rg_lat g)) in
      let nx := Z.of_nat (length (rg_lon g)) in
      do d <- match map Z.of_nat (last2 shape) with
              | [a; b] => Ok (a - ny, b - nx)%Z
              | [a] => Ok (a - ny, a - nx)%Z
              | _ => Err ValueError
              end;
      let is := fun a b => ((fst d =? a) && (snd d =? b))%Z in
      if is 1%Z 1%Z || is (-1)%Z (-1)%Z then Ok (Some "center"%string)
      else if is 1%Z 0%Z then Err AttributeError
      else if is 0%Z 1%Z then Err AttributeError
      else if is 0%Z 0%Z then Ok (Some "node"%string)
      else Ok None
  end.
