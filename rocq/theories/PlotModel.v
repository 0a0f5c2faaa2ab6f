(** Model of gridded/plotting/mpl_plotting.py: what is handed to matplotlib or
    shapely, and the query of the inspector -- 32-104 [plot_ugrid] (triangles and
    boundary lines), 112-143 [plot_sgrid] (lines and limits), 217-249
    [get_triangle_faces], 275-312 [gen_grid_lines_U], 314-341 [get_max_extent],
    343-416 [fvcom_index_query].  The rendering, the texts and the window are not
    modelled.  Coordinates are rational; index arrays are lists of rows. *)
From Coq Require Import QArith.
From Verif Require Import Common MaskModel DepthModel UGridModel SGridModel NLoadModel.
Open Scope nat_scope.

Definition point := (Q * Q)%type.

(** ** plot_ugrid *)
(** 49-55: the triangles given to Triangulation. *)
Definition plotted_triangles (faces : list (list Z)) : list (list Z) :=
  if length faces =? 3 then transposed faces else faces.
(** [a[i]], negative numbers counting from the end. *)
Definition py_index {A} (l : list A) (i : Z) : result A :=
  let n := Z.of_nat (length l) in
  let k := if (i <? 0)%Z then (i + n)%Z else i in
  if (k <? 0)%Z then Err IndexError
  else match nth_error l (Z.to_nat k) with Some x => Ok x | None => Err IndexError end.
Definition plotted_boundaries (nodes : list point) (bounds : option (list (Z * Z))) : result (list (point * point)) :=
  match bounds with
  | None => Ok []
  | Some l => mapM (fun b => do p <- py_index nodes (fst b); do q <- py_index nodes (snd b); Ok (p, q)) l
  end.

(** ** plot_sgrid *)
(** 136-142: rows, then columns. *)
Definition sgrid_lines (lon lat : arr Q) : list (list point) :=
  map (fun i => map (fun j => (a_at lon i j, a_at lat i j)) (seq 0 (a_c lon))) (seq 0 (a_r lon)) ++
  map (fun j => map (fun i => (a_at lon i j, a_at lat i j)) (seq 0 (a_r lon))) (seq 0 (a_c lon)).

(** ** GridGeoGenerator *)
(** [np.where(lons > 180, lons - 360, lons)] *)
Definition display (x : Q) : Q := if Qle_bool x 180 then x else (x - 360)%Q.
Definition shown (p : point) : point := (display (fst p), snd p).
(** 226-247; [faces] and [nv] are the attributes of the grid, if any. *)
Definition triangle_faces (faces nv : option (list (list Z))) : result (list (list Z)) :=
  match faces, nv with
  | Some f, _ => Ok f
  | None, Some t =>
      let f := if (length t =? 3) && negb (width t =? 3) then transposed t else t in
      do mn <- zmin (concat f);
      Ok (if (mn =? 1)%Z then map (map (fun x => (x - 1)%Z)) f else f)
  | None, None => Err AttributeError
  end.
(** 294-304 *)
Definition corner (r : list Z) (k : nat) : Z := nth k r 0%Z.
Definition sorted_pair (a b : Z) : edge := if (b <? a)%Z then (b, a) else (a, b).
Definition edge_pairs (faces : list (list Z)) : list edge :=
  map (fun r => sorted_pair (corner r 0) (corner r 1)) faces ++
  map (fun r => sorted_pair (corner r 1) (corner r 2)) faces ++
  map (fun r => sorted_pair (corner r 2) (corner r 0)) faces.
(** [np.unique(..., axis=0)]: rows in order, each once. *)
Definition edge_lt (a b : edge) : bool := (fst a <? fst b)%Z || ((fst a =? fst b)%Z && (snd a <? snd b)%Z).
Fixpoint insert (e : edge) (l : list edge) : list edge :=
  match l with
  | [] => [e]
  | x :: r => if edge_lt e x then e :: l else if edge_eqb e x then l else x :: insert e r
  end.
Definition unique (l : list edge) : list edge := fold_right insert [] l.
(** 287-312.  [faces[:, [1, 2]]] needs three columns. *)
Definition grid_lines (nodes : list point) (faces : list (list Z)) : result (list (point * point)) :=
  if forallb (fun r => 3 <=? length r) faces then
    mapM (fun e => do p <- py_index (map shown nodes) (fst e); do q <- py_index (map shown nodes) (snd e); Ok (p, q)) (unique (edge_pairs faces))
  else Err IndexError.

Definition qmin (l : list Q) : result Q :=
  match l with [] => Err ValueError | x :: r => Ok (fold_left (fun a b => if Qle_bool a b then a else b) r x) end.
Definition qmax (l : list Q) : result Q :=
  match l with [] => Err ValueError | x :: r => Ok (fold_left (fun a b => if Qle_bool b a then a else b) r x) end.
(** 322-341: west, east, south, north. *)
Definition max_extent (nodes : list point) (margin : Q) : result (Q * Q * Q * Q) :=
  let lons := map fst (map shown nodes) in
  let lats := map snd (map shown nodes) in
  do w <- qmin lons; do e <- qmax lons; do s <- qmin lats; do n <- qmax lats;
  let mx := ((e - w) * margin)%Q in
  let my := ((n - s) * margin)%Q in
  Ok ((w - mx)%Q, (e + mx)%Q, (s - my)%Q, (n + my)%Q).

(** 343-416, for an unstructured grid: it has neither [locate_triangles] nor
    [center_lon].  [locate] is the cell tree: the face, None for -1. *)
Record answer := mkAnswer { an_face : nat; an_nodes : list Z; an_coords : list point; an_click : point }.
Definition index_query (locate : point -> option nat) (nodes : list point) (faces : list (list Z)) (click : point) : result (option answer) :=
  do mn <- qmin (map fst nodes);
  let x := if Qle_bool 0 mn && negb (Qle_bool 0 (fst click)) then (fst click + 360)%Q else fst click in
  match locate (x, snd click) with
  | None => Ok None
  | Some i =>
      match nth_error faces i with
      | None => Err IndexError
      | Some row =>
          do cs <- mapM (fun k => do p <- py_index nodes k; Ok (shown p)) row;
          Ok (Some (mkAnswer i row cs click))
      end
  end.
