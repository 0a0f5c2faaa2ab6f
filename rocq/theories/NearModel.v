(** Model of nearest-point lookups: gridded/pysgrid/sgrid.py:500-510
    [_get_grid_vars], 584-616 [get_efficient_slice], 677-689 [locate_nearest],
    792-806 [build_kdtree], 913-949 [nearest_var_to_points];
    gridded/pyugrid/ugrid.py:525-552 [locate_nodes]. *)
From Coq Require Import String QArith.
From Verif Require Import Common GridTypeModel MaskModel SGridModel LoadModel.
Open Scope string_scope.
Open Scope list_scope.
Open Scope nat_scope.

(** Coordinates of the four locations (both arrays or neither, of one shape),
    and the search trees made so far: the points each was made of. *)
Record ngrid := mkNgrid {
  ng_node : arr (Q * Q); ng_center : option (arr (Q * Q)); ng_edge1 : option (arr (Q * Q)); ng_edge2 : option (arr (Q * Q));
  ng_trees : dict (list (Q * Q)) }.
(** 500-510 *)
Definition coords_of (g : ngrid) (name : string) : result (option (arr (Q * Q))) :=
  if String.eqb name "node" then Ok (Some (ng_node g))
  else if String.eqb name "center" then Ok (ng_center g)
  else if String.eqb name "edge1" then Ok (ng_edge1 g)
  else if String.eqb name "edge2" then Ok (ng_edge2 g)
  else Err ValueError.
(** 792-806 *)
Definition build_kdtree (g : ngrid) (name : string) : result ngrid :=
  do c <- coords_of g name;
  match c with
  | None => Err ValueError
  | Some a => Ok (mkNgrid (ng_node g) (ng_center g) (ng_edge1 g) (ng_edge2 g) (dset (ng_trees g) name (a_ravel a)))
  end.
(** np.unravel_index, one number. *)
Definition unravel {A} (a : arr A) (k : nat) : result (Z * Z) :=
  if k <? a_r a * a_c a then Ok (Z.of_nat (k / a_c a), Z.of_nat (k mod a_c a)) else Err ValueError.
Fixpoint each {A B} (f : A -> result B) (l : list A) : result (list B) :=
  match l with [] => Ok [] | a :: r => do b <- f a; do bs <- each f r; Ok (b :: bs) end.

Section Near.
  (** cKDTree.query: the number of a point of the tree. *)
  Context (query : list (Q * Q) -> Q * Q -> nat).
  (** 677-689: [self._kd_trees[grid]] of a name without a tree raises, so the
      tree is never made here. *)
  Definition locate_nearest (g : ngrid) (name : string) (points : list (Q * Q)) : result (list (Z * Z)) :=
    match dget (ng_trees g) name with
    | None => Err KeyError
    | Some tree =>
        do c <- coords_of g name;
        match c with
        | None => Err AttributeError
        | Some a => each (fun p => unravel a (query tree p)) points
        end
    end.

  (** ugrid.py: nodes and the tree, made at the first search. *)
  Record nodes_state := mkNodes { ns_nodes : list (Q * Q); ns_tree : option (list (Q * Q)) }.
  Definition locate_nodes (s : nodes_state) (points : list (Q * Q)) : list nat * nodes_state :=
    let tree := match ns_tree s with Some t => t | None => ns_nodes s end in
    (map (query tree) points, mkNodes (ns_nodes s) (Some tree)).
  (** ugrid.py:278-285 *)
  Definition set_nodes (s : nodes_state) (l : list (Q * Q)) : nodes_state := mkNodes l (ns_tree s).
End Near.

(** ** 584-616 *)
Definition u32 (z : Z) : Z := (z mod 4294967296)%Z.
Definition least (l : list Z) : option Z := match l with [] => None | x :: r => Some (fold_left Z.min r x) end.
Definition greatest (l : list Z) : option Z := match l with [] => None | x :: r => Some (fold_left Z.max r x) end.
Definition node_names := ["node"; "nodes"; "psi"; "vertex"; "vertices"; "point"; "points"].
Definition center_names := ["center"; "centers"; "face"; "faces"; "cell"; "cells"].
Definition edge1_names := ["edge1"; "u"].
Definition edge2_names := ["edge2"; "v"].
(** The added numbers for the ends of the two slices. *)
Definition extra (location : string) : result (Z * Z) :=
  if isin location edge1_names then Ok (1, 0)%Z
  else if isin location edge2_names then Ok (0, 1)%Z
  else if isin location node_names then Ok (1, 1)%Z
  else if isin location center_names then Ok (0, 0)%Z
  else Err ValueError.
(** Rows of the index array that are not masked ([None] when all are: the
    slices then hold masked constants).  Numbers are of type uint32 throughout
    (numpy 2: sums with small integers wrap). *)
Definition efficient_slice (indices : list (option (Z * Z))) (location : string) : result (option ((Z * Z) * (Z * Z))) :=
  match indices with
  | [] => Err ValueError
  | _ =>
      let rows := flat_map (fun o => match o with Some p => [p] | None => [] end) indices in
      let xs := map (fun p => u32 (fst p)) rows in
      let ys := map (fun p => u32 (snd p)) rows in
      do e <- extra location;
      Ok (match least xs, greatest xs, least ys, greatest ys with
          | Some x0, Some x1, Some y0, Some y1 =>
              Some ((x0, u32 (u32 (x1 + 1) + fst e)), (y0, u32 (u32 (y1 + 1) + snd e)))
          | _, _, _, _ => None
          end)
  end.

(** ** 913-949 *)
(** [var[a:b, c:d]] *)
Definition sub2 {A} (v : arr A) (s : (Z * Z) * (Z * Z)) : arr A :=
  let cut n (p : Z * Z) := (Nat.min n (Z.to_nat (snd p)) - Nat.min n (Z.to_nat (fst p))) in
  mkArr (cut (a_r v) (fst s)) (cut (a_c v) (snd s))
    (fun i j => a_at v (i + Z.to_nat (fst (fst s))) (j + Z.to_nat (fst (snd s)))).
(** A variable: two dimensions, or three with the first one time or depth;
    and whether it is a masked array. *)
Inductive nvar := V2 (a : arr (option Q)) | V3 (l : list (arr (option Q))) (shape : nat * nat).
Definition vshape (v : nvar) : list nat :=
  match v with V2 a => [a_r a; a_c a] | V3 l s => [length l; fst s; snd s] end.
Definition infer (g : ngrid) (v : nvar) : option string :=
  let here {A} (o : option A) := match o with Some _ => true | None => false end in
  option_map s_name (infer_location (a_r (ng_node g), a_c (ng_node g)) (here (ng_center g)) (here (ng_edge1 g)) (here (ng_edge2 g)) (Some (vshape v))).
(** 777-790 on a whole index array without masked rows; [var.mask] of a plain
    array raises.  Values of an array without entries: IndexError. *)
Definition at_index (masked_array : bool) (v : arr (option Q)) (ind : list (Z * Z)) : result (list (option Q)) :=
  if (a_r v * a_c v =? 0) then Err IndexError
  else if masked_array then Ok (map (variable_at v) ind) else Err AttributeError.
Section NearVar.
  Context (query : list (Q * Q) -> Q * Q -> nat).
  (** Without [indices]; [lead] is [slices], none or one integer. *)
  Definition nearest_var (g : ngrid) (masked_array : bool) (points : list (Q * Q)) (v : nvar) (name : option string) (lead : option nat)
    : result (list (option Q)) :=
    let name := match name with Some n => Some n | None => infer g v end in
    match name with
    | None => Err KeyError
    | Some name =>
        do ind <- locate_nearest query g name points;
        do s <- efficient_slice (map Some ind) name;
        match s with
        | None => Err TypeError
        | Some s =>
            do w <- match infer g v with
                    | None => match v with V2 a => Ok a | V3 _ _ => Err ValueError end
                    | Some _ =>
                        match v, lead with
                        | V2 a, None => Ok (sub2 a s)
                        | V2 a, Some _ => Err IndexError
                        | V3 l _, None => Err ValueError
                        | V3 l _, Some t => match nth_error l t with Some a => Ok (sub2 a s) | None => Err IndexError end
                        end
                    end;
            at_index masked_array w (map (fun p => (fst p - fst (fst s), snd p - fst (snd s))%Z) ind)
        end
    end.
End NearVar.
