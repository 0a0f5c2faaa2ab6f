(** Model of gridded/pyugrid/ugrid.py: the index arrays of an unstructured
    grid -- the faces setter and the topology builders.

    An index array with a second dimension is a list of rows; the rows of one
    array all have the same length (numpy guarantees it; [Rect] in UGridSpec).
    Masked index arrays (flexible meshes given through a mask) are not
    modelled; padding with -1 is. *)
From Verif Require Import Common.
Open Scope Z_scope.

(** numpy's min/max of a whole array: ValueError on an empty one. *)
Definition zmax (l : list Z) : result Z :=
  match l with [] => Err ValueError | x :: r => Ok (fold_left Z.max r x) end.
Definition zmin (l : list Z) : result Z :=
  match l with [] => Err ValueError | x :: r => Ok (fold_left Z.min r x) end.

(** ugrid.py:298-330, the faces setter, for an array (None is [None]).
    [n] is [len(self.nodes)]. *)
Definition set_faces (n : nat) (f : list (list Z)) : result (list (list Z)) :=
  let N := Z.of_nat n in
  do mx <- zmax (concat f);
  if mx >? N then Err ValueError
  else
    do f1 <- (if mx =? N then
                do mn <- zmin (concat f);
                if mn >=? 1 then Ok (map (map (fun x => if x >? 0 then x - 1 else x)) f)
                else Err ValueError
              else Ok f);
    do mn <- zmin (concat f1);
    if mn <? -1 then Err ValueError else Ok f1.

(** ugrid.py:255-264: the second dimension of the faces array. *)
Definition num_vertices (faces : list (list Z)) : nat :=
  match faces with [] => 0%nat | r :: _ => length r end.

(** [face[j]] for a non-negative [j] inside the row, [face[-1]] for the last. *)
Definition ent (r : list Z) (j : nat) : Z := nth j r (-1).

Definition edge := (Z * Z)%type.
Definition edge_eqb (a b : edge) : bool := (fst a =? fst b) && (snd a =? snd b).
(** "sort the node numbers": ugrid.py:823-824 and 862-863. *)
Definition norm (e : edge) : edge := if fst e >? snd e then (snd e, fst e) else e.

(** ** build_face_face_connectivity, ugrid.py:802-833 *)
Definition pos := (nat * nat)%type.                      (* (face, side) *)
Definition side_edge (nv : nat) (face : list Z) (j : nat) : edge :=
  if (j <? nv - 1)%nat then (ent face j, ent face (S j))
  else (ent face (length face - 1), ent face 0).

(** The (i, j) the two nested loops visit, with the sorted edge of each. *)
Definition sides_of (nv : nat) (i : nat) (face : list Z) : list (pos * edge) :=
  map (fun j => ((i, j), norm (side_edge nv face j))) (seq 0 nv).
Fixpoint sides_from (nv i : nat) (faces : list (list Z)) : list (pos * edge) :=
  match faces with
  | [] => []
  | f :: r => sides_of nv i f ++ sides_from nv (S i) r
  end.
Definition loop_sides (faces : list (list Z)) : list (pos * edge) :=
  sides_from (num_vertices faces) 0 faces.

(** The dict of unmatched edges. *)
Definition edict := list (edge * pos).
Fixpoint edict_get (d : edict) (e : edge) : option pos :=
  match d with
  | [] => None
  | (e', p) :: r => if edge_eqb e' e then Some p else edict_get r e
  end.
Definition edict_del (d : edict) (e : edge) : edict :=
  filter (fun x => negb (edge_eqb (fst x) e)) d.

(** [a[i, j] = v] and [a[i, j]] on a 2-D array. *)
Fixpoint lset {A} (l : list A) (i : nat) (v : A) : list A :=
  match l, i with
  | [], _ => []
  | _ :: r, O => v :: r
  | x :: r, S k => x :: lset r k v
  end.
Definition tset (t : list (list Z)) (p : pos) (v : Z) : list (list Z) :=
  lset t (fst p) (lset (nth (fst p) t []) (snd p) v).
Definition tget (t : list (list Z)) (p : pos) : Z := nth (snd p) (nth (fst p) t []) (-1).

Definition ff_step (st : list (list Z) * edict) (s : pos * edge) : list (list Z) * edict :=
  let '(t, d) := st in
  let '(p, e) := s in
  match edict_get d e with
  | Some q => (tset (tset t p (Z.of_nat (fst q))) q (Z.of_nat (fst p)), edict_del d e)
  | None => (t, (e, p) :: d)
  end.
Definition build_face_face (faces : list (list Z)) : list (list Z) :=
  fst (fold_left ff_step (loop_sides faces)
         (repeat (repeat (-1) (num_vertices faces)) (length faces), [])).

(** ** build_edges, ugrid.py:840-867.  The set is a list without duplicates;
    the order in which a set is listed is unspecified, so theorems may only
    speak of membership and of the absence of duplicates. *)
Definition add_edge (s : list edge) (e : edge) : list edge :=
  if existsb (edge_eqb e) s then s else s ++ [e].
Definition prev_edge (face : list Z) (j : nat) : edge :=
  (ent face (match j with O => length face - 1 | S k => k end)%nat, ent face j).
Definition build_edges (faces : list (list Z)) : list edge :=
  fold_left (fun s face =>
      fold_left (fun s j => add_edge s (norm (prev_edge face j)))
        (seq 0 (num_vertices faces)) s)
    faces [].

(** ** build_boundaries, ugrid.py:869-893, given the face-face table. *)
Definition bound_of (nv : nat) (face : list Z) (j : nat) : edge :=
  if (j =? nv - 1)%nat then (ent face (length face - 1), ent face 0)
  else (ent face j, ent face (S j)).
Definition row_bounds (nv : nat) (face ffrow : list Z) : list edge :=
  flat_map (fun jn => if snd jn =? -1 then [bound_of nv face (fst jn)] else [])
           (combine (seq 0 (length ffrow)) ffrow).
Definition boundaries_from (faces ff : list (list Z)) : list edge :=
  flat_map (fun ir => row_bounds (num_vertices faces) (nth (fst ir) faces []) (snd ir))
           (combine (seq 0 (length ff)) ff).

(** ** build_face_edge_connectivity, ugrid.py:895-930.
    [query e] is [cKDTree(edges).query(e)[1]]: the position of an entry
    nearest to [e].  [edges.sort(axis=-1)] is [norm] on each row. *)
Definition roll1 {A} (l : list A) : list A :=            (* np.roll(row, 1) *)
  match rev l with [] => [] | x :: r => x :: rev r end.
Definition rollm1 {A} (l : list A) : list A :=           (* np.roll(row, -1) *)
  match l with [] => [] | x :: r => r ++ [x] end.
Definition build_face_edge (query : list edge -> edge -> Z) (faces : list (list Z))
  (edges : list edge) : list (list Z) :=
  let es := map norm edges in
  map (fun face => rollm1 (map (fun ab => query es (norm ab)) (combine face (roll1 face)))) faces.
(** An executable nearest-entry search (first of the nearest ones). *)
Definition dist2 (a b : edge) : Z :=
  (fst a - fst b) * (fst a - fst b) + (snd a - snd b) * (snd a - snd b).
Fixpoint nearest_from (i : nat) (es : list edge) (e : edge) (best : nat) (bd : Z) : nat :=
  match es with
  | [] => best
  | x :: r => if dist2 x e <? bd then nearest_from (S i) r e i (dist2 x e)
              else nearest_from (S i) r e best bd
  end.
Definition nearest (es : list edge) (e : edge) : Z :=
  match es with
  | [] => 0
  | x :: r => Z.of_nat (nearest_from 1 r e 0 (dist2 x e))
  end.

(** ** The object's connectivity state and the operations on it.
    [sf_nodes] is the number of nodes. *)
Record topo := mkTopo {
  tp_n : nat; tp_faces : option (list (list Z)); tp_edges : option (list edge);
  tp_bounds : option (list edge); tp_ff : option (list (list Z));
  tp_fe : option (list (list Z)) }.
Inductive topo_op :=
| SetNodes (n : nat)                          (* ugrid.py:274-281 *)
| SetFaces (f : option (list (list Z)))       (* ugrid.py:298-330 *)
| DelFaces                                    (* ugrid.py:332-338 *)
| SetEdges (e : option (list edge))           (* ugrid.py:344-352 *)
| SetFF (t : option (list (list Z)))          (* ugrid.py:382-390 *)
| BuildFF | BuildEdges | BuildBounds | BuildFE.

(** ugrid.py:382-390: the shape must be (number of faces, sides). *)
Definition shape_ok (faces t : list (list Z)) : bool :=
  (length t =? length faces)%nat && forallb (fun r => length r =? num_vertices faces)%nat t.

Definition topo_assign (s : topo) (o : topo_op) : result topo :=
  match o with
  | SetNodes n => Ok (mkTopo n (tp_faces s) (tp_edges s) (tp_bounds s) (tp_ff s) (tp_fe s))
  | SetFaces None | DelFaces =>
      Ok (mkTopo (tp_n s) None (tp_edges s) (tp_bounds s) None None)
  | SetFaces (Some f) =>
      do f' <- set_faces (tp_n s) f;
      Ok (mkTopo (tp_n s) (Some f') (tp_edges s) (tp_bounds s) (tp_ff s) (tp_fe s))
  | SetEdges e =>
      Ok (mkTopo (tp_n s) (tp_faces s) e (tp_bounds s) (tp_ff s)
                 (match e with None => None | _ => tp_fe s end))
  | SetFF None =>
      Ok (mkTopo (tp_n s) (tp_faces s) (tp_edges s) (tp_bounds s) None (tp_fe s))
  | SetFF (Some t) =>
      match tp_faces s with
      | None => Err TypeError                                  (* len(None) *)
      | Some f => if shape_ok f t
                  then Ok (mkTopo (tp_n s) (tp_faces s) (tp_edges s) (tp_bounds s) (Some t) (tp_fe s))
                  else Err ValueError
      end
  | BuildFF =>
      match tp_faces s with
      | None => Err AttributeError                             (* None.shape *)
      | Some f => Ok (mkTopo (tp_n s) (tp_faces s) (tp_edges s) (tp_bounds s)
                             (Some (build_face_face f)) (tp_fe s))
      end
  | BuildEdges =>
      Ok (mkTopo (tp_n s) (tp_faces s)
                 (match tp_faces s with None => None | Some f => Some (build_edges f) end)
                 (tp_bounds s) (tp_ff s) (tp_fe s))
  | BuildBounds =>
      match tp_faces s with
      | None =>
          match tp_ff s with
          | None => Err AttributeError
          | Some _ => Err TypeError                            (* None[i, j] *)
          end
      | Some f =>
          let ff := match tp_ff s with Some t => t | None => build_face_face f end in
          Ok (mkTopo (tp_n s) (tp_faces s) (tp_edges s) (Some (boundaries_from f ff))
                     (Some ff) (tp_fe s))
      end
  | BuildFE =>
      match tp_edges s, tp_faces s with
      | None, _ | _, None => Err AttributeError                (* None.copy() / roll *)
      | Some e, Some f => Ok (mkTopo (tp_n s) (tp_faces s) (tp_edges s) (tp_bounds s) (tp_ff s)
                                     (Some (build_face_edge nearest f e)))
      end
  end.
Definition topo_step (s : topo) (o : topo_op) : topo :=
  match topo_assign s o with Ok s' => s' | Err _ => s end.
(** ugrid.py:116-127: no faces assignment can have happened before. *)
Definition topo_init (n : nat) : topo := mkTopo n None None None None None.
Definition topo_run (n : nat) (ops : list topo_op) : topo :=
  fold_left topo_step ops (topo_init n).

(** ** infer_location, ugrid.py:424-454.  [None] sizes are absent arrays. *)
Inductive uloc := LNode | LFace | LBoundary.
Definition u_infer_location (n : nat) (nfaces nbounds : option nat) (shape : list nat)
  : option uloc :=
  match rev shape with
  | [] => None                                                 (* IndexError *)
  | size :: _ =>
      if (size =? n)%nat then Some LNode
      else if match nfaces with Some k => (size =? k)%nat | None => false end then Some LFace
      else if match nbounds with Some k => (size =? k)%nat | None => false end then Some LBoundary
      else None
  end.
