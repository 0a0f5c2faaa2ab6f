(** Model of gridded/pysgrid/sgrid.py, the index side: padding, location
    inference, the cell search structure and locate_faces.  Coordinates are of
    an arbitrary type [C].  The cell tree itself (the cell_tree2d extension) is
    not modelled: [locate_faces] is given the face number it answers. *)
From Coq Require Import String.
From Verif Require Import Common VariableModel GridTypeModel MaskModel.
Open Scope Z_scope.

(** A two-dimensional array: shape and entries (row, column). *)
Record arr (A : Type) := mkArr { a_r : nat; a_c : nat; a_at : nat -> nat -> A }.
Arguments mkArr {A}. Arguments a_r {A}. Arguments a_c {A}. Arguments a_at {A}.
(** numpy.ravel, C order. *)
Definition ravel {A} (r c : nat) (f : nat -> nat -> A) : list A :=
  flat_map (fun i => map (f i) (seq 0 c)) (seq 0 r).
Definition a_ravel {A} (a : arr A) : list A := ravel (a_r a) (a_c a) (a_at a).

(** ** Padding *)
(** None and "none" mean the same everywhere; any other string is [PadOther]. *)
Inductive pad := PadNone | PadLow | PadHigh | PadBoth | PadOther.

(** sgrid.py:690-702, one index pair. *)
Definition pad_shift (p : pad) (i : Z) : result Z :=
  match p with
  | PadNone | PadHigh => Ok i
  | PadBoth | PadLow => Ok (i + 1)
  | PadOther => Err ValueError
  end.
Definition apply_padding (p : pad * pad) (ij : Z * Z) : result (Z * Z) :=
  do i <- pad_shift (fst p) (fst ij); do j <- pad_shift (snd p) (snd ij); Ok (i, j).

(** Python slices [lo:hi]. *)
Definition slc := (option Z * option Z)%type.
(** sgrid.py:717-740: the offsets of one dimension, 0 written as None. *)
Definition pad_slice (p : pad) : slc :=
  let lo := match p with PadLow | PadBoth => 1 | _ => 0 end in
  let hi := match p with PadHigh | PadBoth => Some (-1) | PadOther => None | _ => Some 0 end in
  (if lo =? 0 then None else Some lo,
   match hi with Some 0 => None | h => h end).
Definition get_padding_slices (p : pad * pad) : slc * slc := (pad_slice (fst p), pad_slice (snd p)).

(** slice.indices(n) with step 1: first element and number of elements. *)
Definition norm_index (n : nat) (i : Z) : Z :=
  let i' := if i <? 0 then i + Z.of_nat n else i in Z.max 0 (Z.min (Z.of_nat n) i').
Definition slice_start (n : nat) (s : slc) : nat :=
  Z.to_nat (match fst s with None => 0 | Some i => norm_index n i end).
Definition slice_stop (n : nat) (s : slc) : nat :=
  match snd s with None => n | Some i => Z.to_nat (norm_index n i) end.
Definition slice2 {A} (a : arr A) (s : slc * slc) : arr A :=
  let r0 := slice_start (a_r a) (fst s) in let c0 := slice_start (a_c a) (snd s) in
  mkArr (slice_stop (a_r a) (fst s) - r0) (slice_stop (a_c a) (snd s) - c0)
        (fun r c => a_at a (r0 + r) (c0 + c)).

(** Where a padding attribute comes from: not set (or empty), a list of
    GridPadding read from a file, or a pair. *)
Inductive pad_src := PSUnset | PSGrid (l : list pad) | PSPair (p : pad * pad).
Record sgrid_pads := mkPads {
  sp_node_shape : nat * nat;
  sp_center_shape : option (nat * nat);      (* center_lon.shape *)
  sp_node : option (pad * pad);
  sp_face : pad_src; sp_edge1 : pad_src; sp_edge2 : pad_src }.

(** sgrid.py:315-333 *)
Definition guess_pad (face node : nat) : result pad :=
  py_get [PadLow; PadBoth; PadNone] (Z.of_nat face - Z.of_nat node).
Definition face_padding (g : sgrid_pads) : result (pad * pad) :=
  match sp_face g with
  | PSGrid ((_ :: _) as l) => do a <- py_get l 0; do b <- py_get l 1; Ok (a, b)
  | PSPair p => Ok p
  | _ =>
      match sp_center_shape g with
      | Some (fr, fc) => do a <- guess_pad fr (fst (sp_node_shape g));
                         do b <- guess_pad fc (snd (sp_node_shape g)); Ok (a, b)
      | None => Ok (PadNone, PadNone)
      end
  end.
(** sgrid.py:347-371 *)
Definition edge1_padding (g : sgrid_pads) : result (pad * pad) :=
  match sp_edge1 g with
  | PSGrid (p :: _) => Ok (p, PadNone)
  | PSPair p => Ok p
  | _ => do c <- face_padding g; Ok (fst c, PadNone)
  end.
Definition edge2_padding (g : sgrid_pads) : result (pad * pad) :=
  match sp_edge2 g with
  | PSGrid (p :: _) => Ok (PadNone, p)
  | PSPair p => Ok p
  | _ => do c <- face_padding g; Ok (PadNone, snd c)
  end.
(** sgrid.py:304-309 *)
Definition node_padding (g : sgrid_pads) : pad * pad :=
  match sp_node g with Some p => p | None => (PadNone, PadNone) end.

Open Scope string_scope.
Definition node_names := ["node"; "nodes"; "psi"; "vertex"; "vertices"; "point"; "points"].
Definition center_names := ["center"; "centers"; "face"; "faces"; "cell"; "cells"].
Definition edge1_names := ["edge1"; "u"].
Definition edge2_names := ["edge2"; "v"].
Close Scope string_scope.
(** sgrid.py:704-715; None when the name is unknown. *)
Definition padding_by_location (g : sgrid_pads) (loc : string) : result (option (pad * pad)) :=
  if isin loc node_names then Ok (Some (node_padding g))
  else if isin loc center_names then do p <- face_padding g; Ok (Some p)
  else if isin loc edge1_names then do p <- edge1_padding g; Ok (Some p)
  else if isin loc edge2_names then do p <- edge2_padding g; Ok (Some p)
  else Ok None.

(** ** Location inference, sgrid.py:389-412 *)
Inductive sloc := SCenter | SEdge1 | SEdge2 | SNode.
Definition last_two (shape : list nat) : option (nat * nat) :=
  match rev shape with b :: a :: _ => Some (a, b) | _ => None end.
(** The flags say which coordinate arrays the grid has. *)
Definition infer_location (node : nat * nat) (has_center has_edge1 has_edge2 : bool)
  (shape : option (list nat)) : option sloc :=
  match shape with
  | None => None
  | Some sh =>
      match last_two sh with
      | None => None
      | Some (a, b) =>
          let d0 := Z.of_nat a - Z.of_nat (fst node) in
          let d1 := Z.of_nat b - Z.of_nat (snd node) in
          if (((d0 =? 1) && (d1 =? 1)) || ((d0 =? -1) && (d1 =? -1))) && has_center then Some SCenter
          else if (d0 =? 1) && (d1 =? 0) && has_edge1 then Some SEdge1
          else if (d0 =? 0) && (d1 =? 1) && has_edge2 then Some SEdge2
          else if (d0 =? 0) && (d1 =? 0) then Some SNode
          else None
      end
  end.

(** ** Fancy indexing *)
(** np.ravel_multi_index(..., mode="clip") on one coordinate. *)
Definition clip (n : nat) (i : Z) : nat := Z.to_nat (Z.max 0 (Z.min (Z.of_nat n - 1) i)).
(** np.take on the raveled array. *)
Definition take_flat {A} (a : arr A) (k : nat) : result A :=
  if Nat.ltb k (a_r a * a_c a) then Ok (a_at a (k / a_c a) (k mod a_c a)) else Err IndexError.
(** sgrid.py:777-790, one index pair (arrays with at least one entry). *)
Definition variable_at {A} (a : arr A) (ij : Z * Z) : A :=
  a_at a (clip (a_r a) (fst ij)) (clip (a_c a) (snd ij)).
(** sgrid.py:742-775, one index pair: the values at idx, idx+[1,0], idx+[1,1],
    idx+[0,1] (the docstring lists another order). *)
Definition variable_by_index {A} (a : arr A) (ij : Z * Z) : result (list A) :=
  let raw := (clip (a_r a) (fst ij) * a_c a + clip (a_c a) (snd ij))%nat in
  do v0 <- take_flat a raw;
  do v1 <- take_flat a (raw + a_c a)%nat;
  do v2 <- take_flat a (raw + a_c a + 1)%nat;
  do v3 <- take_flat a (raw + 1)%nat;
  Ok [v0; v1; v2; v3].

(** ** The cell search structure, sgrid.py:808-911 *)
Section Tree.
  Context {C : Type}.
  Record sgrid := mkSGrid {
    sg_ny : nat; sg_nx : nat;                       (* node_lon.shape *)
    sg_lon : nat -> nat -> C; sg_lat : nat -> nat -> C;
    sg_own_mask : option (nat -> nat -> bool);      (* mask carried by node_lon / node_lat *)
    sg_node_mask : bool;                            (* a node_mask is given (its value is never read) *)
    sg_center_mask : option (mask_kind * arr mentry);
    sg_center_pad : pad * pad }.
  Record tree := mkTree {
    tr_nodes : list (C * C);
    tr_faces : list (list Z);
    tr_rev : option (list Z) }.

  (** Is the node a corner of some unmasked cell (lines 861-865)? *)
  Definition node_used (ny nx : nat) (cm : nat -> nat -> bool) (r c : nat) : bool :=
    (Nat.ltb r (ny - 1) && Nat.ltb c (nx - 1) && negb (cm r c)) ||
    (Nat.ltb r (ny - 1) && Nat.leb 1 c && negb (cm r (c - 1)%nat)) ||
    (Nat.leb 1 r && Nat.leb 1 c && negb (cm (r - 1)%nat (c - 1)%nat)) ||
    (Nat.leb 1 r && Nat.ltb c (nx - 1) && negb (cm (r - 1)%nat c)).
  (** Lines 869-872: used nodes numbered consecutively, the others -1. *)
  Fixpoint number (k : Z) (used : list bool) : list Z :=
    match used with
    | [] => []
    | true :: r => k :: number (k + 1) r
    | false :: r => -1 :: number k r
    end.
  (** [.reshape(-1, 4)] *)
  Fixpoint chunk4 (l : list Z) : result (list (list Z)) :=
    match l with
    | [] => Ok []
    | a :: b :: c :: d :: r => do rest <- chunk4 r; Ok ([a; b; c; d] :: rest)
    | _ => Err ValueError
    end.
  (** np.where(~mask)[0] *)
  Fixpoint where_false (k : Z) (l : list bool) : list Z :=
    match l with
    | [] => []
    | false :: r => k :: where_false (k + 1) r
    | true :: r => where_false (k + 1) r
    end.
  Definition compress {A} (keep : list bool) (l : list A) : list A :=
    flat_map (fun kv => if (fst kv : bool) then [snd kv] else []) (combine keep l).

  Definition all_coords (g : sgrid) : list (C * C) :=
    ravel (sg_ny g) (sg_nx g) (fun r c => (sg_lon g r c, sg_lat g r c)).

  (** Lines 841-894 and 905-908, given the cell mask. *)
  Definition masked_faces (g : sgrid) (cm : arr bool) : result tree :=
    let ny := sg_ny g in let nx := sg_nx g in
    if negb (Nat.eqb ((ny - 1) * (nx - 1)) (a_r cm * a_c cm)) then Err ValueError
    else if negb (Nat.eqb (a_r cm) (ny - 1) && Nat.eqb (a_c cm) (nx - 1)) then Err ValueError  (* += of another shape *)
    else
      let used := ravel ny nx (node_used ny nx (a_at cm)) in
      let num := number 0 used in
      let at_ (r c : nat) := nth (r * nx + c) num (-1) in
      let rows := ravel (ny - 1) (nx - 1)
                    (fun r c => if a_at cm r c then [-1; -1; -1; -1]
                                else [at_ r c; at_ r (S c); at_ (S r) (S c); at_ (S r) c]) in
      do faces <- chunk4 (filter (fun i => 0 <=? i) (concat rows));
      Ok (mkTree (compress used (all_coords g)) faces
                 (Some (where_false 0 (ravel (ny - 1) (nx - 1) (a_at cm)) ++ [-1]))).

  Definition any_true (l : list mentry) : bool :=
    existsb (fun e => negb (m_masked e) && negb (m_val e =? 0)) l.

  Definition build_celltree (g : sgrid) (use_mask : bool) : result tree :=
    let ny := sg_ny g in let nx := sg_nx g in
    if use_mask && (sg_node_mask g || match sg_center_mask g with Some _ => true | None => false end) then
      match sg_center_mask g with
      | Some (k, m) =>
          if any_true (a_ravel m) then
            masked_faces g (slice2 (mkArr (a_r m) (a_c m) (fun r c => convert_entry k (a_at m r c)))
                                   (get_padding_slices (sg_center_pad g)))
          else Err UnboundLocalError                 (* cell_mask never assigned *)
      | None => Err UnboundLocalError
      end
    else
      let faces := ravel (ny - 1) (nx - 1)
        (fun y x => let f := fun k => Z.of_nat (k + y * nx) in
                    [f x; f (x + 1)%nat; f (x + nx + 1)%nat; f (x + nx)%nat]) in
      let nodes := match sg_own_mask g with
                   | Some m => if use_mask then compress (ravel ny nx (fun r c => negb (m r c))) (all_coords g)
                               else all_coords g
                   | None => all_coords g
                   end in
      Ok (mkTree nodes faces None).

  (** ** locate_faces, sgrid.py:651-671: from the tree's answer [k] (a face
      number or -1) to (row, column).  numpy's integer // and % give 0 for a zero
      divisor. *)
  Definition np_mod (a b : Z) : Z := if b =? 0 then 0 else a mod b.
  Definition np_div (a b : Z) : Z := if b =? 0 then 0 else a / b.
  Definition face_to_cell (nx : nat) (t : tree) (k : Z) : result (Z * Z) :=
    do i <- match tr_rev t with Some l => py_get l k | None => Ok k end;
    let x := np_mod i (Z.of_nat nx - 1) in
    let y := np_div i (Z.of_nat nx - 1) in
    Ok (if y =? -1 then (-1, -1) else (y, x)).
  (** [np.ma.masked_less(ind, 0)], one row. *)
  Definition mask_cell (ij : Z * Z) : option (Z * Z) := if fst ij <? 0 then None else Some ij.
End Tree.
Arguments sgrid : clear implicits. Arguments tree : clear implicits.

(** ** The state of locate_faces, sgrid.py:637-672
    [cells b pts] is what the tree built with [use_mask = b] answers.  The tree
    is built by the first call that needs it and kept; results for arrays are
    kept under the bytes of the points. *)
Section Located.
  Context {P : Type} (peqb : list P -> list P -> bool) (cells : bool -> list P -> list (Z * Z)).
  Inductive answer := One (ij : Z * Z) | Many (l : list (option (Z * Z))).
  Record lq := mkLq { lq_pts : list P; lq_one : bool; lq_memo : bool; lq_mask : bool }.
  Record lstate := mkLs { ls_tree : option bool; ls_memo : list (list P * list (option (Z * Z))) }.
  Definition locate_cap := 6%nat.
  Definition locate_step (s : lstate) (q : lq) : lstate * result answer :=
    match (if lq_memo q then memo_get peqb (ls_memo s) (lq_pts q) else None) with
    | Some r => (s, Ok (Many r))
    | None =>
        let b := match ls_tree s with Some b => b | None => lq_mask q end in
        let ind := cells b (lq_pts q) in
        if lq_one q then
          (mkLs (Some b) (ls_memo s),
           match ind with i :: _ => Ok (One i) | [] => Err IndexError end)
        else
          let res := map mask_cell ind in
          (mkLs (Some b) (if lq_memo q then memo_store peqb locate_cap (ls_memo s) (lq_pts q) res
                          else ls_memo s), Ok (Many res))
    end.
  Fixpoint locate_run (s : lstate) (qs : list lq) : lstate * list (result answer) :=
    match qs with
    | [] => (s, [])
    | q :: r => let (s1, a) := locate_step s q in let (s2, l) := locate_run s1 r in (s2, a :: l)
    end.
End Located.
