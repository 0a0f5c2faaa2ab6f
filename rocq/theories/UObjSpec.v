(** UGrid objects as if each had its tables to itself: no arrays, no sharing. *)
From Verif Require Import Common UGridModel UGridSpec UGridGeomModel UObjModel.
Open Scope list_scope.
Open Scope nat_scope.

(** What is handed over: nothing, or numbers. *)
Definition value_of (h0 : heap) (a : given) : option rows :=
  match a with Nothing => None | Alike t => Some t | Array i => Some (read h0 i) end.
(** Numbering of faces as accepted: counted from zero (-1: no node), or from
    one, and then taken down by one. *)
Inductive Numbered (n : nat) : rows -> rows -> Prop :=
| from_zero t : ZeroBased n t -> Numbered n t t
| from_one t : OneBased n t -> Numbered n t (map (map (fun x => (x - 1)%Z)) t).
(** Tables are accepted as faces when numbered, as neighbours or edges of the
    faces when there are faces and as many entries. *)
Definition SameShape (f t : rows) : Prop := length t = length f /\ Forall (fun r => length r = num_vertices f) t.
Inductive Accepts (g : grid rows) : slot -> rows -> rows -> Prop :=
| accept_faces t t' : Numbered (length (gr_nodes g)) t t' -> Accepts g Faces t t'
| accept_edges t : Accepts g Edges t t
| accept_bounds t : Accepts g Bounds t t
| accept_ff t f : gr_faces g = Some f -> SameShape f t -> Accepts g FF t t
| accept_fe t f : gr_faces g = Some f -> SameShape f t -> Accepts g FE t t.

(** One operation on a grid of values. *)
Inductive Does (h0 : heap) : grid rows -> op -> grid rows -> Prop :=
| does_nodes g n : Does h0 g (SetNodes n) (with_nodes (match n with Some l => l | None => [] end) g)
| does_del_nodes g : Does h0 g DelNodes (delete_nodes g)
| does_unset g s a : value_of h0 a = None -> Does h0 g (Set_ s a) (unset s g)
| does_set g s a t t' : value_of h0 a = Some t -> Accepts g s t t' -> Does h0 g (Set_ s a) (put s (Some t') g)
| does_not g s a t : value_of h0 a = Some t -> (forall t', ~ Accepts g s t t') -> Does h0 g (Set_ s a) g
| does_del g s : Does h0 g (Del s) (delete s g)
| does_edge_c g c : Does h0 g (SetEdgeC c) (with_edge_c c g)
| does_face_c g c : Does h0 g (SetFaceC c) (with_face_c c g)
| does_bound_c g c : Does h0 g (SetBoundC c) (with_bound_c c g)
| does_build g o : In o [BuildFF; BuildEdges; BuildBounds] ->
    Does h0 g o (fold_left (fun g sv => put (fst sv) (snd sv) g) (fst (built o g)) g).

(** The arrays handed over, in order. *)
Definition array_of (a : given) : list nat := match a with Array i => [i] | _ => [] end.
Definition arrays_op (o : op) : list nat := match o with Set_ _ a => array_of a | _ => [] end.
Definition arrays (o : wop) : list nat :=
  match o with
  | New a => array_of (ar_faces a) ++ array_of (ar_edges a) ++ array_of (ar_bounds a) ++ array_of (ar_ff a) ++ array_of (ar_fe a)
  | On _ o => arrays_op o
  | Edit i _ => [i]
  end.

(** What happens to the [k]-th grid of a program, [n] grids being there at the
    start: nothing, or what is done to it. *)
Inductive Evolves (h0 : heap) (k : nat) : grid rows -> list wop -> grid rows -> Prop :=
| evolves_end g : Evolves h0 k g [] g
| evolves_other g o os g' : (forall p, o <> On k p) -> Evolves h0 k g os g' -> Evolves h0 k g (o :: os) g'
| evolves_on g g1 p os g' : Does h0 g p g1 -> Evolves h0 k g1 os g' -> Evolves h0 k g (On k p :: os) g'.

(** An assignment that raises. *)
Definition Refused (h0 : heap) (g : grid rows) (o : op) : Prop :=
  exists s a t, o = Set_ s a /\ value_of h0 a = Some t /\ forall t', ~ Accepts g s t t'.
Inductive Chain (h0 : heap) : grid rows -> list op -> grid rows -> Prop :=
| chain_end g : Chain h0 g [] g
| chain_step g o g1 os g' : Does h0 g o g1 -> ~ Refused h0 g o -> Chain h0 g1 os g' -> Chain h0 g (o :: os) g'.
(** The nodes that the constructor is given: as one array, or as longitudes and
    latitudes; otherwise none. *)
Inductive NodesGiven (a : args) : option (list pt) -> Prop :=
| nodes_array n : ar_nodes a = Some n -> ar_lon a = None -> ar_lat a = None -> NodesGiven a (Some n)
| nodes_two n : ar_nodes a = None -> ar_lon a = Some (map fst n) -> ar_lat a = Some (map snd n) -> NodesGiven a (Some n)
| nodes_none : ar_nodes a = None -> ar_lon a = None \/ ar_lat a = None -> NodesGiven a None.
(** The constructor assigns everything in turn. *)
Definition Made (h0 : heap) (a : args) (g : grid rows) : Prop :=
  exists n, NodesGiven a n /\ Chain h0 empty_grid
    [SetNodes n; Set_ Faces (ar_faces a); Set_ Edges (ar_edges a); Set_ Bounds (ar_bounds a); Set_ FF (ar_ff a); Set_ FE (ar_fe a);
     SetEdgeC (ar_edge_c a); SetFaceC (ar_face_c a); SetBoundC (ar_bound_c a)] g.

(** The tables fit the grid: the faces are of nodes that exist, and the tables
    about faces have an entry for each side. *)
Definition Fits (g : grid rows) : Prop :=
  (forall f x, gr_faces g = Some f -> In x (concat f) -> (-1 <= x < Z.of_nat (length (gr_nodes g)))%Z) /\
  (forall s t, s = FF \/ s = FE -> get s g = Some t -> exists f, gr_faces g = Some f /\ SameShape f t).
(** An operation that does not take nodes or faces away from under others. *)
Definition Careful (g : grid rows) (o : op) : Prop :=
  match o with
  | SetNodes _ => gr_faces g = None
  | DelNodes | Set_ Faces (Alike _) | Set_ Faces (Array _) => gr_ff g = None /\ gr_fe g = None
  | _ => True
  end.
