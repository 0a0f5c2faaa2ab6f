(** Model of UGrid objects (gridded/pyugrid/ugrid.py:46-151, 266-419, 835-838)
    and of the arrays they hold, which may be held by others too.

    Index arrays live in a heap and are referred to by number: np.asanyarray
    with the type of the array returns the array itself.  Coordinates are
    values here, since no method of the class writes into them.  Masked arrays,
    grid_topology and mesh_name are not modelled. *)
From Verif Require Import Common DepthModel UGridModel UGridGeomModel.
Open Scope list_scope.
Open Scope nat_scope.

Definition rows := list (list Z).
Definition heap := list rows.
(** An argument: None; something that asanyarray makes a new array of; or an
    array of the right type. *)
Inductive given := Nothing | Alike (t : rows) | Array (i : nat).

Inductive slot := Faces | Edges | Bounds | FF | FE.
(** [T]: what stands for an index array. *)
Record grid (T : Type) := mkGrid {
  gr_nodes : list pt;
  gr_faces : option T; gr_edges : option T; gr_bounds : option T; gr_ff : option T; gr_fe : option T;
  gr_edge_c : option (list pt); gr_face_c : option (list pt); gr_bound_c : option (list pt) }.
Arguments mkGrid {T}. Arguments gr_nodes {T}. Arguments gr_faces {T}. Arguments gr_edges {T}. Arguments gr_bounds {T}. Arguments gr_ff {T}. Arguments gr_fe {T}.
Arguments gr_edge_c {T}. Arguments gr_face_c {T}. Arguments gr_bound_c {T}.
Section Fields.
  Context {T : Type}.
  Definition get (s : slot) (g : grid T) : option T :=
    match s with Faces => gr_faces g | Edges => gr_edges g | Bounds => gr_bounds g | FF => gr_ff g | FE => gr_fe g end.
  Definition put (s : slot) (v : option T) (g : grid T) : grid T :=
    let (n, f, e, b, ff, fe, ec, fc, bc) := g in
    match s with
    | Faces => mkGrid n v e b ff fe ec fc bc
    | Edges => mkGrid n f v b ff fe ec fc bc
    | Bounds => mkGrid n f e v ff fe ec fc bc
    | FF => mkGrid n f e b v fe ec fc bc
    | FE => mkGrid n f e b ff v ec fc bc
    end.
  Definition with_nodes (n : list pt) (g : grid T) : grid T :=
    let (_, f, e, b, ff, fe, ec, fc, bc) := g in mkGrid n f e b ff fe ec fc bc.
  (** The coordinates are plain attributes. *)
  Definition with_edge_c (c : option (list pt)) (g : grid T) : grid T :=
    let (n, f, e, b, ff, fe, _, fc, bc) := g in mkGrid n f e b ff fe c fc bc.
  Definition with_face_c (c : option (list pt)) (g : grid T) : grid T :=
    let (n, f, e, b, ff, fe, ec, _, bc) := g in mkGrid n f e b ff fe ec c bc.
  Definition with_bound_c (c : option (list pt)) (g : grid T) : grid T :=
    let (n, f, e, b, ff, fe, ec, fc, _) := g in mkGrid n f e b ff fe ec fc c.
  Definition empty_grid : grid T := mkGrid [] None None None None None None None None.
End Fields.
Definition gmap {A B} (h : A -> B) (g : grid A) : grid B :=
  let (n, f, e, b, ff, fe, ec, fc, bc) := g in
  mkGrid n (option_map h f) (option_map h e) (option_map h b) (option_map h ff) (option_map h fe) ec fc bc.

(** What the object shows. *)
Definition read (h : heap) (i : nat) : rows := nth i h [].
Definition shown (h : heap) (g : grid nat) : grid rows := gmap (read h) g.
Fixpoint write (h : heap) (i : nat) (t : rows) : heap :=
  match h, i with
  | [], _ => []
  | _ :: r, O => t :: r
  | x :: r, S k => x :: write r k t
  end.

(** The setters' checks on an array (298-330, 382-390, 400-408; edges and
    boundaries are not checked); for the faces, what is left in the array. *)
Definition check (s : slot) (g : grid rows) (t : rows) : result rows :=
  match s with
  | Faces => set_faces (length (gr_nodes g)) t
  | Edges | Bounds => Ok t
  | FF | FE =>
      match gr_faces g with
      | None => Err TypeError                                  (* len(None) *)
      | Some f => if shape_ok f t then Ok t else Err ValueError
      end
  end.
(** Setting None (326-330, 350-352, 366-368). *)
Definition unset {T} (s : slot) (g : grid T) : grid T :=
  match s with
  | Faces => put FE None (put FF None (put Faces None g))
  | Edges => put FE None (put Edges None g)
  | s => put s None g
  end.
(** Deleting (332-339, 354-358, 370-373, 392-394, 410-412). *)
Definition delete {T} (s : slot) (g : grid T) : grid T :=
  match s with
  | Faces => with_edge_c None (put FE None (put FF None (put Faces None g)))
  | Edges => with_edge_c None (put FE None (put Edges None g))
  | Bounds => with_bound_c None (put Bounds None g)
  | s => put s None g
  end.
(** 283-289 *)
Definition delete_nodes {T} (g : grid T) : grid T :=
  put Bounds None (put Faces None (put Edges None (with_nodes [] g))).

Inductive op :=
| SetNodes (n : option (list pt)) | DelNodes
| Set_ (s : slot) (a : given) | Del (s : slot)
| SetEdgeC (c : option (list pt)) | SetFaceC (c : option (list pt)) | SetBoundC (c : option (list pt))
| BuildFF | BuildEdges | BuildBounds.

(** What a builder stores (802-833, 840-870, 872-898): the slots and values, in
    order, and the exception that ends it. *)
Definition edge_row (e : edge) : list Z := [fst e; snd e].
(** Every -1 of a table has its side among the faces. *)
Definition numbered {A} (l : list A) : list (nat * A) := combine (seq 0 (length l)) l.
Definition within (f t : rows) : bool :=
  forallb (fun ir => forallb (fun jn =>
    negb (snd jn =? -1)%Z || ((fst ir <? length f) && (fst jn <? num_vertices f))) (numbered (snd ir))) (numbered t).
Definition built (o : op) (g : grid rows) : list (slot * option rows) * option err :=
  match o with
  | BuildFF =>
      match gr_faces g with
      | None => ([], Some AttributeError)                      (* None.shape *)
      | Some f => ([(FF, Some (build_face_face f))], None)
      end
  | BuildEdges =>
      ([(Edges, match gr_faces g with None => None | Some f => Some (map edge_row (build_edges f)) end)], None)
  | BuildBounds =>
      match gr_faces g, gr_ff g with
      | None, None => ([], Some AttributeError)
      | None, Some t =>
          if existsb (existsb (Z.eqb (-1))) t then ([], Some TypeError) else ([(Bounds, Some [])], None)
      | Some f, Some t =>
          if within f t then ([(Bounds, Some (map edge_row (boundaries_from f t)))], None) else ([], Some IndexError)
      | Some f, None =>
          let t := build_face_face f in
          ([(FF, Some t); (Bounds, Some (map edge_row (boundaries_from f t)))], None)
      end
  | _ => ([], None)
  end.

(** One operation on one object. *)
Definition hstate := (heap * grid nat)%type.
Definition store (hg : hstate) (sv : slot * option rows) : hstate :=
  match snd sv with
  | None => (fst hg, put (fst sv) None (snd hg))
  | Some t => (fst hg ++ [t], put (fst sv) (Some (length (fst hg))) (snd hg))
  end.
Definition hstep (h : heap) (g : grid nat) (o : op) : hstate * option err :=
  match o with
  | SetNodes n => ((h, with_nodes (match n with Some l => l | None => [] end) g), None)
  | DelNodes => ((h, delete_nodes g), None)
  | Set_ s Nothing => ((h, unset s g), None)
  | Set_ s (Alike t) =>
      match check s (shown h g) t with
      | Ok t' => ((h ++ [t'], put s (Some (length h)) g), None)
      | Err e => ((h, g), Some e)
      end
  | Set_ s (Array i) =>
      match check s (shown h g) (read h i) with
      | Ok t' => ((write h i t', put s (Some i) g), None)      (* 312: in place *)
      | Err e => ((h, g), Some e)
      end
  | Del s => ((h, delete s g), None)
  | SetEdgeC c => ((h, with_edge_c c g), None)
  | SetFaceC c => ((h, with_face_c c g), None)
  | SetBoundC c => ((h, with_bound_c c g), None)
  | b => let r := built b (shown h g) in (fold_left store (fst r) (h, g), snd r)
  end.

(** The constructor (46-151): a sequence of assignments, up to the first that
    raises.  column_stack needs as many longitudes as latitudes. *)
Record args := mkArgs {
  ar_nodes : option (list pt); ar_lon : option (list Q); ar_lat : option (list Q);
  ar_faces : given; ar_edges : given; ar_bounds : given; ar_ff : given; ar_fe : given;
  ar_edge_c : option (list pt); ar_face_c : option (list pt); ar_bound_c : option (list pt) }.
Definition args_nodes (a : args) : result (option (list pt)) :=
  match ar_nodes a, ar_lon a, ar_lat a with
  | Some n, None, None => Ok (Some n)
  | Some _, _, _ => Err TypeError
  | None, Some x, Some y => if length x =? length y then Ok (Some (combine x y)) else Err ValueError
  | None, _, _ => Ok None
  end.
Definition assignments (n : option (list pt)) (a : args) : list op :=
  [SetNodes n; Set_ Faces (ar_faces a); Set_ Edges (ar_edges a); Set_ Bounds (ar_bounds a); Set_ FF (ar_ff a); Set_ FE (ar_fe a);
   SetEdgeC (ar_edge_c a); SetFaceC (ar_face_c a); SetBoundC (ar_bound_c a)].
Fixpoint until_error (h : heap) (g : grid nat) (ops : list op) : hstate * option err :=
  match ops with
  | [] => ((h, g), None)
  | o :: r => match hstep h g o with
              | ((h', g'), None) => until_error h' g' r
              | bad => bad
              end
  end.

(** Programs with several objects. *)
Definition world := (heap * list (grid nat))%type.
Inductive wop := New (a : args) | On (k : nat) (o : op) | Edit (i : nat) (t : rows).
Fixpoint replace {A} (l : list A) (k : nat) (x : A) : list A :=
  match l, k with
  | [], _ => []
  | _ :: r, O => x :: r
  | y :: r, S k => y :: replace r k x
  end.
Definition wstep (w : world) (o : wop) : world * option err :=
  let (h, gs) := w in
  match o with
  | New a =>
      match args_nodes a with
      | Err e => (w, Some e)
      | Ok n => match until_error h empty_grid (assignments n a) with
                | ((h', g), None) => ((h', gs ++ [g]), None)
                | ((h', _), Some e) => ((h', gs), Some e)
                end
      end
  | On k o =>
      match nth_error gs k with
      | None => (w, None)
      | Some g => match hstep h g o with ((h', g'), e) => ((h', replace gs k g'), e) end
      end
  | Edit i t => ((write h i t, gs), None)                      (* by the caller *)
  end.
Definition wrun (w : world) (ops : list wop) : world := fold_left (fun w o => fst (wstep w o)) ops w.

(** get_lines (835-838): without edges they are built first; [nodes[None]] is
    all the nodes, once.  Indices below zero count from the end. *)
Definition lines (g : grid rows) : grid rows * result (list (list pt)) :=
  let g' := match gr_edges g with
            | None => put Edges (match gr_faces g with None => None | Some f => Some (map edge_row (build_edges f)) end) g
            | Some _ => g
            end in
  (g', match gr_edges g' with
       | None => Ok [gr_nodes g']
       | Some es => mapM (fun r => mapM (py_get (gr_nodes g')) r) es
       end).
